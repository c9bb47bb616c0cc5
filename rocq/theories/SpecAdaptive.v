(** Proofs of the result of an intersection. *)

From Verif Require Import Base SpecSpace.

(** The intervals [C], given by their ends, cover the numbers below [u]. *)
Definition covers (C : list (N * N)) (u : N) : Prop :=
  forall x, (x < u)%N -> exists a b, In (a, b) C /\ (a <= x <= b)%N.

(** The set [s] has no member in the interval. *)
Definition avoids (I : N * N) (s : list N) : Prop :=
  forall x, (fst I <= x <= snd I)%N -> ~ In x s.

(** [C] shows what the intersection of [sets] is: each interval is one that some set avoids, or
    has one number only, which is in all sets. *)
Definition certificate (sets : list (list N)) (u : N) (C : list (N * N)) : Prop :=
  covers C u /\
  Forall (fun I => Exists (avoids I) sets \/ (fst I = snd I /\ Forall (In (fst I)) sets)) C.

(** The same, where an interval may also be one that all sets contain. *)
Definition run_certificate (sets : list (list N)) (u : N) (C : list (N * N)) : Prop :=
  covers C u /\
  Forall (fun I => Exists (avoids I) sets \/
                   Forall (fun s => forall x, (fst I <= x <= snd I)%N -> In x s) sets) C.
