(** Which list of a collection an id of the query log means. *)

From Verif Require Import Base Spec SpecTools.

(** The list [l] is in the built collection: it has more than [min_size] and at most
    [max_size] values. *)
Definition is_kept (min_size max_size : N) (l : list N) : Prop :=
  (min_size < N.of_nat (length l) <= max_size)%N.

(** The list at position [p] of the complete collection is in the built collection, and
    exactly [i] of the lists before it are. *)
Definition has_id (min_size max_size : N) (lists : list (list N)) (p i : N) : Prop :=
  (exists l, nth_error lists (N.to_nat p) = Some l /\ is_kept min_size max_size l) /\
  N.of_nat (length (kept_lists min_size max_size (firstn (N.to_nat p) lists))) = i.

(** A query by ids and the same query by positions in the complete collection. *)
Definition same_query (min_size max_size : N) (lists : list (list N)) (ids positions : list N) : Prop :=
  ids <> [] /\ Forall2 (fun i p => has_id min_size max_size lists p i) ids positions.

(** A query of positions such that no list was left out up to any of them. *)
Definition unshifted (min_size max_size : N) (lists : list (list N)) (q : list N) : Prop :=
  query_ok lists q /\
  Forall (fun p => Forall (is_kept min_size max_size) (firstn (S (N.to_nat p)) lists)) q.

(** A position of the complete collection up to which some list was left out. *)
Definition shifted (min_size max_size : N) (lists : list (list N)) (p : N) : Prop :=
  (p < N.of_nat (length lists))%N /\
  Exists (fun l => ~ is_kept min_size max_size l) (firstn (S (N.to_nat p)) lists).
