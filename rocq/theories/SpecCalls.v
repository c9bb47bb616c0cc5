(** Which prefixes sets have in common, and which of them lie in runs. *)

From Verif Require Import Base FlatTrie LevelTrie FastTrie Tries Spec SpecTries SpecMeasures.

(** Every set has a member with the prefix [q], the last [b] digits being left out. *)
Definition common_prefix (sets : list (list N)) (b : nat) (q : N) : Prop :=
  Forall (fun s => prefix_of_member s b q) sets.

(** A call at level [l] with the argument [p], when values have [d] digits, is for the prefix
    of [l] digits followed by [d - l] zeros in [p]. *)
Definition call_at (d : nat) (l : nat) (p : N) (b : nat) (q : N) : Prop :=
  l + b = d /\ p = (q * 2 ^ N.of_nat b)%N.

(** For a trie of bits whose runs are encoded: the set contains the block of twice the size
    of the 2^[b] values from [p], or of four values if that is larger. *)
Definition bin_run (x : bitem) (b : nat) (p : N) : Prop :=
  snd (fst x) = true /\ block_full (snd x) (Nat.max 2 (S b)) p.

(** The same for a fast trie, where blocks are not smaller than two words. *)
Definition fast_run (x : fitem) (b : nat) (p : N) : Prop :=
  f_enc x = true /\ block_full (snd x) (S b) p.
