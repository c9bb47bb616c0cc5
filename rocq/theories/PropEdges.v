(** Properties C28, C33: one-argument constructors and empty sets. *)

From Verif Require Import Base FlatTrie LevelTrie FastTrie Spec EdgeFacts.

(** C28 is false: the one-argument constructors build a temporary trie and discard
    it.  No set is ever held by an object they construct, whatever the memory of the
    object contained. *)
Theorem C28_flat_one_argument_refuted : forall junk s t, s <> [] ->
  flat_build1 junk s = Ok t -> flat_decode t [] <> Ok s.
Proof. exact flat_one_arg_loses. Qed.
Print Assumptions C28_flat_one_argument_refuted.

Theorem C28_level_one_argument_refuted : forall il s t, s <> [] ->
  level_build1 il s = Ok t -> level_decode t [] <> Ok s.
Proof. exact level_one_arg_loses. Qed.
Print Assumptions C28_level_one_argument_refuted.

Theorem C28_fast_one_argument_refuted : forall lw jh jhu jr je s t, s <> [] ->
  fast_build1 lw jh jhu jr je s = Ok t -> fast_decode t [] <> Ok s.
Proof. exact fast_one_arg_loses. Qed.
Print Assumptions C28_fast_one_argument_refuted.

Example C28_examples :
  (exists t, flat_build1 0 [2; 5]%N = Ok t /\ flat_decode t [] = Ok [0%N]) /\
  (exists t, level_build1 true [2; 5]%N = Ok t /\ level_decode t [] = Ok [0%N]) /\
  (exists t, fast_build1 3 2 8 true (Some true) [2; 200]%N = Ok t /\ fast_decode t [] = Ok []).
Proof. repeat split; eexists; (split; [vm_compute; reflexivity|reflexivity]). Qed.

(** C33, the part that holds: level-wise tries before encodeRuns. *)
Theorem C33_level_empty_partial : forall il u, (2 <= u <= 2 ^ 48)%N ->
  exists t, level_build il [] u = Ok t /\ forall v, level_decode t v = Ok v.
Proof. exact RoundTrip.level_round_trip_empty. Qed.
Print Assumptions C33_level_empty_partial.

Example C33_level_run : (let* t := level_build true [] 1000 in level_decode t [7%N]) = Ok [7%N].
Proof. vm_compute. reflexivity. Qed.

(** The rest is false, for every universe: flat and fast tries read outside the
    empty list, and run encoding breaks the empty level-wise trie. *)
Theorem C33_flat_empty_refuted : forall u, (2 <= u <= 2 ^ 48)%N ->
  flat_build [] u = UB OutOfBounds.
Proof. exact flat_empty. Qed.
Print Assumptions C33_flat_empty_refuted.

Theorem C33_fast_empty_refuted : forall lw jh je u, In lw [3; 4; 5; 6] ->
  (2 ^ N.of_nat lw < 2 * u <= 2 * 2 ^ 48)%N ->
  fast_build lw jh je [] u = UB OutOfBounds.
Proof. exact fast_empty. Qed.
Print Assumptions C33_fast_empty_refuted.

Theorem C33_level_empty_runs_refuted : forall il u t, (2 <= u <= 2 ^ 48)%N ->
  level_build il [] u = Ok t ->
  exists t', level_encodeRuns t = Ok t' /\
    level_decode t' [] = if N.eqb u 2 then Ok [0; 1]%N else UB OutOfBounds.
Proof. exact level_empty_runs. Qed.
Print Assumptions C33_level_empty_runs_refuted.

Example C33_level_runs_run :
  (let* t := level_build false [] 2 in let* t := level_encodeRuns t in level_decode t [])
  = Ok [0; 1]%N /\
  (let* t := level_build true [] 9 in let* t := level_encodeRuns t in level_decode t [])
  = UB OutOfBounds.
Proof. split; reflexivity. Qed.
