(** What a query log and a decimal number look like as text. *)

From Verif Require Import Base.

Definition space (c : N) : Prop := In c [32; 9; 11; 12; 13]%N.

Definition newline : N := 10%N.

(** The number written by decimal digits. *)
Definition decimal_value (w : list N) : N := fold_left (fun a c => a * 10 + (c - 48))%N w 0%N.

Definition decimal (w : list N) : Prop := w <> [] /\ Forall (fun c => 48 <= c <= 57)%N w.

(** [line] is the text of the numbers [q]: each number in decimal, separated by
    spaces, possibly with spaces before and after. *)
Inductive line_of : list N -> list N -> Prop :=
| line_end : forall b, Forall space b -> line_of b []
| line_number : forall b w rest q,
    Forall space b -> decimal w -> (forall c rest', rest = c :: rest' -> space c) ->
    line_of rest q -> line_of (b ++ w ++ rest) (decimal_value w :: q).

(** [text] is a query log: one line for each query, each ended by a newline; the
    newline of the last line may be missing if the line is not empty. *)
Inductive log_of : list N -> list (list N) -> Prop :=
| log_end : log_of [] []
| log_last : forall line q, line <> [] -> line_of line q -> log_of line [q]
| log_line : forall line q text queries,
    line_of line q -> log_of text queries -> log_of (line ++ newline :: text) (q :: queries).
