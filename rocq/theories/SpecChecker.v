(** What a checking program should report, independently of how it works. *)

From Coq Require Import Sorted.
From Verif Require Import Base Spec.

(** The queries of at most 16 ids. *)
Definition short_queries (queries : list (list N)) : list (list N) :=
  filter (fun q => length q <=? 16) queries.

(** A verdict over the short queries: the number of queries before the first that is not
    [good], and whether there is such a query. *)
Definition verdict (good : nat -> list N -> Prop) (queries : list (list N)) (v : bool * nat) : Prop :=
  (forall k q, k < snd v -> nth_error (short_queries queries) k = Some q -> good k q) /\
  (if fst v
   then exists q, nth_error (short_queries queries) (snd v) = Some q /\ ~ good (snd v) q
   else snd v = length (short_queries queries)).

(** The lists with more than [m] values. *)
Definition longer_than (m : N) (lists : list (list N)) : list (list N) :=
  filter (fun l => N.ltb m (N.of_nat (length l))) lists.

(** [bad] are the positions, in increasing order, of the lists that are not [ok]. *)
Definition reports (ok : list N -> Prop) (lists : list (list N)) (bad : list nat) : Prop :=
  StronglySorted lt bad /\
  forall i, In i bad <-> exists l, nth_error lists i = Some l /\ ~ ok l.

Definition total_values (lists : list (list N)) : N :=
  fold_right (fun l n => N.of_nat (length l) + n)%N 0%N lists.
