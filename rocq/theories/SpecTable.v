(** What the table of the query tool looks like as text. *)

From Coq Require Import String.
From Verif Require Import Base Text Spec SpecText SpecTools.

(** A field of a line: no comma, no newline. *)
Definition field (w : list N) : Prop := Forall (fun c => c <> 44 /\ c <> newline)%N w.

(** [text] consists of a line for each row: the number of ids, a comma, some field, a
    comma, the number of values, a newline. *)
Inductive rows_of : list N -> list (N * list N * N) -> Prop :=
| rows_none : rows_of [] []
| rows_row : forall ids time values text rows,
    decimal ids -> field time -> decimal values -> rows_of text rows ->
    rows_of (ids ++ 44%N :: time ++ 44%N :: values ++ newline :: text)
            ((decimal_value ids, time, decimal_value values) :: rows).

Definition table_of (text : list N) (rows : list (N * list N * N)) : Prop :=
  exists lines, rows_of lines rows /\
    text = (txt "elements_per_query,time execution,size_intersection" ++ newline :: lines)%list.

(** The row of a query: how many ids it has, and how many values its lists have in common. *)
Definition row_of (lists : list (list N)) (q : list N) (row : N * list N * N) : Prop :=
  fst (fst row) = N.of_nat (length q) /\
  exists r, is_intersection (lists_at lists q) r /\ snd row = N.of_nat (length r).

(** The second column of the [n]th row is [time n]. *)
Definition times_are (time : nat -> list N) (rows : list (N * list N * N)) : Prop :=
  map (fun row => snd (fst row)) rows = map time (seq 0 (length rows)).

(** The queries of at most 16 ids. *)
Definition small_queries (queries : list (list N)) : list (list N) :=
  filter (fun q => length q <=? 16) queries.
