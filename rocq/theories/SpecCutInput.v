(** Collections of which only the first bytes are there. *)

From Verif Require Import Base Serialize Tools Spec SpecTools.

(** The first [p] bytes of the collection file hold the lists [before] entirely, and no
    further one; [after] is what follows in the complete file. *)
Definition whole_lists (p : nat) (one u : N) (lists before after : list (list N)) : Prop :=
  lists = before ++ after /\ length (collection_file one u before) <= p /\
  forall l more, after = l :: more -> p < length (collection_file one u (before ++ [l])).

(** The file ends inside a list that the options select, after its length. *)
Definition cut_inside (p : nat) (one u min_size max_size : N) (before after : list (list N)) : Prop :=
  exists l more, after = l :: more /\ kept_lists min_size max_size [l] = [l] /\
    length (collection_file one u before) + 4 <= p.

(** The first [k] values, then [y] up to the length of the list. *)
Definition padded (k : nat) (y : N) (l : list N) : list N := firstn k l ++ repeat y (length l - k).

(** The low [r] bytes of [x] and the other bytes of [y]. *)
Definition low_bytes (r : nat) (x y : N) : N :=
  (let m := 256 ^ N.of_nat r in x mod m + y / m * m)%N.
