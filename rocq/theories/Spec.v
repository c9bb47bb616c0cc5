(** The specification vocabulary of the property theorems.  Nothing here refers to
    tries. *)

From Coq Require Export List NArith Sorted.
Export ListNotations.

(** A set of integers is given as a strictly increasing list. *)
Definition increasing (s : list N) : Prop := StronglySorted N.lt s.

(** Sorted, possibly with repetitions. *)
Definition nondecreasing (s : list N) : Prop := StronglySorted N.le s.

(** All values are below the universe size. *)
Definition below (u : N) (s : list N) : Prop := Forall (fun x => (x < u)%N) s.

(** [r] is the strictly increasing list of the elements of [s]. *)
Definition is_set_of (s r : list N) : Prop :=
  increasing r /\ forall x, In x r <-> In x s.

(** [r] is the strictly increasing list of the values present in all of [sets]. *)
Definition is_intersection (sets : list (list N)) (r : list N) : Prop :=
  increasing r /\ forall x, In x r <-> Forall (fun s => In x s) sets.

(** Fewer than 2^k entries. *)
Definition shorter (k : N) (s : list N) : Prop := (N.of_nat (length s) < 2 ^ k)%N.

(** Some aligned block of four values holds both a member and a non-member. *)
Definition mixed_block (s : list N) : Prop :=
  exists x y, In x s /\ ~ In y s /\ (x / 4 = y / 4)%N.
