(** When a query without encoded runs reads only flags that are set. *)

From Verif Require Import Base Spec SpecTries SpecMeasures SpecCalls SpecLost SpecStrict.

(** [g] digits are those of a word, [low] the least number of digits that is left for a
    thread (a parallel call over fewer digits is made in sequence). *)
Definition flags_ok (low g : nat) (u hc : N) (parallel : bool) (sets : list (list N)) : Prop :=
  if (parallel && (N.to_nat (N.log2 hc) + low <=? digits u))%bool
  then thread_flags_set (common_prefix sets) (map (fun s => (false, s)) sets) g (digits u)
         (N.to_nat (N.log2 hc)) (N.to_nat (2 ^ N.log2 hc))
  else flags_set (common_prefix sets) g (digits u).
