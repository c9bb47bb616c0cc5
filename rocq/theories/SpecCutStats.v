(** What the coding statistics print for a given sequence of lists. *)

From Verif Require Import Base Tries Stats Spec SpecMeasures SpecStats SpecCutInput.

(** The sum of each of the [ncols] columns. *)
Definition column_sums (ncols : nat) (rows : list (list N)) : list N :=
  map (fun j => sumN (map (fun row => nth j row 0%N) rows)) (seq 0 ncols).

(** The totals of the lists [counted], each of which adds the row [columns l].  A list for
    which the row is undefined makes the whole undefined. *)
Definition totals_of (ncols : nat) (columns : list N -> result (list N)) (counted : list (list N))
  : result totals :=
  let* rows := each_ok columns counted in
  Ok (mkTotals (total_length counted) (N.of_nat (length counted)) (column_sums ncols rows)).

(** The values of the lists [before] that are long enough, and the first [k] of [l]. *)
Definition values_read (m : N) (before : list (list N)) (k : nat) (l : list N) : list N :=
  concat (long_lists m before) ++ firstn k l.

(** The length that a program sees when only [r] bytes of the length of [l] are there: the
    other bytes are of the length before. *)
Definition length_read (r : nat) (before : list (list N)) (l : list N) : N :=
  low_bytes r (N.of_nat (length l)) (N.of_nat (length (last before []))).

(** Every list is long enough. *)
Definition all_long (m : N) (lists : list (list N)) : Prop := long_lists m lists = lists.
