(** Preconditions of the properties about tries built from lists that may repeat values or be
    out of order. *)

From Verif Require Import Base Tries Spec SpecTries.

(** The lists a variant accepts, whatever values they hold. *)
Definition list_ok (u : N) (v : variant) (s : list N) : Prop :=
  s <> [] /\ shorter 32 s /\ match v with VFlat _ => (3 <= u)%N | VLevel _ => True end.

Definition fast_list_ok (s : list N) : Prop := s <> [] /\ shorter 32 s.

(** Sorted lists of values of the universe, in which a value may occur several times. *)
Definition sorted_list (u : N) (s : list N) : Prop := nondecreasing s /\ below u s.
