(** Specification for C98: how many rounds a loop takes. *)

From Verif Require Import Base SpecEnds.

(** [F n] is the outcome of a loop that may take [n] rounds, and gives up ([OutOfFuel]) where it
    would take more. *)
Definition rounds_at_most {A} (n : nat) (F : nat -> result A) : Prop :=
  ends (F n) /\ forall m, n <= m -> F m = F n.
