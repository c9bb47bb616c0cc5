(** The times that the query tools report: tools/intersection_query_log.cpp:111, 127-157, 165-166,
    tools/intersection_querylog_fastTrie.cpp:80, 90-114, 119-120.

    [elapsed nq rep] is what the clock measured, in microseconds, for repetition [rep] of answered
    query number [nq]; it is added to unsigned numbers of 64 bits, so that -1 counts as 2^64 - 1.
    The floats are those of Average.v. *)

From Coq Require Import ZArith.
From Verif Require Import Base Text Table Report Stats Average.

(** time_10 += time, ten times: tools/intersection_query_log.cpp:136-147. *)
Definition time_10 (elapsed : nat -> nat -> N) (nq : nat) : N :=
  fold_left (fun t rep => (t + elapsed nq rep) mod 2 ^ 64)%N (seq 0 10) 0%N.

(** (float)time_10/trep: tools/intersection_query_log.cpp:149. *)
Definition row_time (elapsed : nat -> nat -> N) (nq : nat) : result (option (list N)) :=
  average 24 (time_10 elapsed nq) 10.

(** Its text, the second field of a row; [average] prints a number whenever it does not divide
    by 0.  tools/intersection_query_log.cpp:149. *)
Definition time_text (elapsed : nat -> nat -> N) (nq : nat) : list N :=
  match row_time elapsed nq with
  | Ok (Some w) => w
  | _ => []
  end.

(** total_time += time: tools/intersection_query_log.cpp:143,
    tools/intersection_querylog_fastTrie.cpp:106.  [n] queries were answered. *)
Definition total_time (elapsed : nat -> nat -> N) (n : nat) : N :=
  fold_left (fun t nq => fold_left (fun t rep => (t + elapsed nq rep) mod 2 ^ 64)%N (seq 0 10) t) (seq 0 n) 0%N.

(** The product of two floats.  total_time*1e-3: tools/intersection_query_log.cpp:166,
    tools/intersection_querylog_fastTrie.cpp:120. *)
Definition float_mul (p : N) (a b : N * Z) : N * Z :=
  let (m1, e1) := a in
  let (m2, e2) := b in
  if N.eqb (m1 * m2) 0 then (0%N, 0%Z)
  else let (n, d) := scaled 2 (m1 * m2) 1 (- (e1 + e2)) in to_float p n d.

(** ++nq for each answered query.  tools/intersection_query_log.cpp:154,
    tools/intersection_querylog_fastTrie.cpp:110. *)
Definition answered_count (rs : list (option (list N))) : nat :=
  length (filter (fun a => match a with Some _ => true | None => false end) rs).

(** "Number of queries: " << nq, "Avg time execution: " << (double)(total_time*1e-3)/(nq*trep):
    tools/intersection_query_log.cpp:165-166, tools/intersection_querylog_fastTrie.cpp:119-120. *)
Definition query_summary (elapsed : nat -> nat -> N) (rs : list (option (list N)))
  : result (list N * option (list N)) :=
  let nq := answered_count rs in
  let ms := float_mul 53 (float_of 53 (total_time elapsed nq)) (to_float 53 1 1000) in
  let* avg := print_quotient (float_div 53 ms (float_of 53 ((N.of_nat nq * 10) mod 2 ^ 64))) in
  Ok (print_number (N.of_nat nq), avg).
