(** When the intersection with runs=false sets every flag it reads. *)

From Verif Require Import Base FlatTrie LevelTrie FastTrie Tries Spec SpecTries SpecMeasures SpecCalls SpecLost.

(** Prefixes are those of numbers of [d] digits, down to the last [g]; [P b q] says that all tries
    have the prefix [q], the last [b] digits left out.  Whenever they have the prefix [q]1 they
    have [q]0; when they have [q]0 but not [q]1, they have some prefix of full length under [q]0. *)
Definition flag_set (P : nat -> N -> Prop) (g b : nat) (q : N) : Prop :=
  (P b (2 * q + 1)%N -> P b (2 * q)%N) /\
  (P b (2 * q)%N -> P b (2 * q + 1)%N \/ exists z, P g z /\ (z / 2 ^ N.of_nat (b - g) = 2 * q)%N).

Definition flags_set (P : nat -> N -> Prop) (g d : nat) : Prop :=
  forall b q, g <= b < d -> flag_set P g b q.

(** When the work is divided over [nT] threads at the prefixes of [c] digits: the flags are set
    below the halves of the shares, and at the top of those shares that are not divided in halves
    themselves ([divided], in SpecLost.v, tells which those are). *)
Definition thread_flags_set (P : nat -> N -> Prop) (xs : list (bool * list N)) (g d c nT : nat) : Prop :=
  exists qs es rest,
    increasing qs /\ (forall q, In q qs <-> P (d - c) q) /\
    divided nT (2 ^ N.of_nat (d - c)) xs qs 0 es rest /\
    flags_set P g (d - S c) /\ Forall (flag_set P g (d - S c)) rest.

(** Tries whose runs are not encoded have the prefixes of their members, so all have [q] when it
    is a [common_prefix] of the sets.  A trie with runs has no prefixes inside a run. *)
Definition bin_prefixes (l : list bitem) (b : nat) (q : N) : Prop :=
  Forall (fun x => prefix_of_member (snd x) b q /\ ~ bin_run x b (q * 2 ^ N.of_nat b)) l.

Definition fast_prefixes (l : list fitem) (b : nat) (q : N) : Prop :=
  Forall (fun x => prefix_of_member (snd x) b q /\ ~ fast_run x b (q * 2 ^ N.of_nat b)) l.
