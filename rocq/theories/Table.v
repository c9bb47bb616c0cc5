(** The table that the query tool writes with --out: tools/intersection_query_log.cpp:113-116,
    148-152.

    Simplification: the text of the average time is a parameter; Timing.v gives it. *)

From Coq Require Import String Decimal.
From Verif Require Import Base Text.

(** [out << n] for an unsigned number: its decimal digits.
    tools/intersection_query_log.cpp:149-150. *)
Fixpoint digits (d : uint) : list N :=
  match d with
  | Nil => []
  | D0 d => 48%N :: digits d
  | D1 d => 49%N :: digits d
  | D2 d => 50%N :: digits d
  | D3 d => 51%N :: digits d
  | D4 d => 52%N :: digits d
  | D5 d => 53%N :: digits d
  | D6 d => 54%N :: digits d
  | D7 d => 55%N :: digits d
  | D8 d => 56%N :: digits d
  | D9 d => 57%N :: digits d
  end.

(** tools/intersection_query_log.cpp:149-150, 165. *)
Definition print_number (n : N) : list N := digits (N.to_uint n).

(** The first line.  tools/intersection_query_log.cpp:115. *)
Definition table_header : list N :=
  (txt "elements_per_query,time execution,size_intersection" ++ [10%N])%list.

(** One line for each query that was answered; [time nq] is the text of the time of the answered
    query number [nq].  tools/intersection_query_log.cpp:148-152. *)
Fixpoint table_rows (time : nat -> list N) (nq : nat) (answered : list (list N * option (list N))) : list N :=
  match answered with
  | [] => []
  | (q, Some intersection) :: answered' =>
    (print_number (N.of_nat (List.length q)) ++ [44%N] ++ time nq ++ [44%N]
     ++ print_number (N.of_nat (List.length intersection)) ++ [10%N]
     ++ table_rows time (S nq) answered')%list
  | (_, None) :: answered' => table_rows time nq answered'
  end.
