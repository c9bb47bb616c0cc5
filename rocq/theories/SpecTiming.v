(** What the times that the query tools report should say. *)

From Verif Require Import Base SpecText SpecTable SpecAverage.

Definition sum_of (l : list N) : N := fold_right N.add 0%N l.

(** The microseconds of the ten repetitions of answered query number [nq], and of the first [n]
    answered queries. *)
Definition query_time (elapsed : nat -> nat -> N) (nq : nat) : N := sum_of (map (elapsed nq) (seq 0 10)).

Definition log_time (elapsed : nat -> nat -> N) (n : nat) : N := sum_of (map (query_time elapsed) (seq 0 n)).

(** The second field of each row is the average of ten measured times. *)
Definition times_average (elapsed : nat -> nat -> N) (rows : list (N * list N * N)) : Prop :=
  forall n row, nth_error rows n = Some row ->
    prints_average (query_time elapsed n) 10 (Some (snd (fst row))).

(** The two numbers printed at the end: how many queries, and the average in milliseconds over
    their repetitions, if there are any. *)
Definition summary_of (elapsed : nat -> nat -> N) (queries : list (list N)) (count : list N) (avg : option (list N)) : Prop :=
  let n := length (small_queries queries) in
  decimal count /\ decimal_value count = N.of_nat n /\
  (n = 0 -> avg = None) /\
  (0 < n -> prints_average (log_time elapsed n) (1000 * (10 * N.of_nat n)) avg).
