(** Specification for C97: how deep calls are nested. *)

From Verif Require Import Base SpecEnds.

(** [F n] is the outcome of a recursive procedure that may nest [n] calls of itself below the
    first one, and gives up ([OutOfFuel]) where it would nest more.  It nests at most [d] if it
    does not give up with [d], and permission to nest more changes nothing. *)
Definition nested_at_most {A} (d : nat) (F : nat -> result A) : Prop :=
  ends (F d) /\ forall n, d <= n -> F n = F d.
