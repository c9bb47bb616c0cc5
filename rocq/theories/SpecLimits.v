(** Vocabulary of the properties about families of sets.  Nothing here refers to tries. *)

From Verif Require Import Spec.

(** No value is in all of the sets. *)
Definition disjoint_sets (sets : list (list N)) : Prop :=
  forall v, ~ Forall (fun s => In v s) sets.
