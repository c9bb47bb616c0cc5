(** The files that a command line names as outputs. *)

From Coq Require Import String.
From Verif Require Import Base Text.

(** [name] is not empty and stands directly after an argument "--out". *)
Definition named_output (argv : list (list N)) (name : list N) : Prop :=
  name <> [] /\ exists i, nth_error argv i = Some (txt "--out") /\ nth_error argv (S i) = Some name.
