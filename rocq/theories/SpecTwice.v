(** Sets made of runs of one length.  Everything here is independent of the model. *)

From Verif Require Import Base SpecMeasures.

(** [s] is a union of whole aligned blocks of 2^[b] values, at least four, and contains no whole aligned block
    of twice that size. *)
Definition equal_runs (b : nat) (s : list N) : Prop :=
  2 <= b /\ (forall x, In x s -> block_full s b x) /\ (forall x, ~ block_full s (S b) x).

(** The first values of the blocks. *)
Definition block_starts (b : nat) (s : list N) : list N := filter (fun x => x mod 2 ^ N.of_nat b =? 0)%N s.
