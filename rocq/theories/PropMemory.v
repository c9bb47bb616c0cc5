(** Property C92: what a construction holds while it runs. *)

From Verif Require Import Base FlatTrie LevelTrie FastTrie BuildMemory Spec SpecTries SpecMeasures SpecMemory BuildMemoryThms.

(** The record of what is held leaves the result as it is. *)
Theorem C92_flat_record : forall s u, (let* (t, _) := flat_build_held s u in Ok t) = flat_build s u.
Proof. exact flat_build_forget. Qed.
Print Assumptions C92_flat_record.

Theorem C92_level_record : forall il s u, (let* (t, _) := level_build_held il s u in Ok t) = level_build il s u.
Proof. exact level_build_forget. Qed.
Print Assumptions C92_level_record.

Theorem C92_fast_record : forall lw jh je s u,
  (let* (t, _) := fast_build_held lw jh je s u in Ok t) = fast_build lw jh je s u.
Proof. exact fast_build_forget. Qed.
Print Assumptions C92_fast_record.

(** C92.  At no time of a construction that comes to an end does its queue hold more segments than
    there are values; its bits are as many as the universe allows, whatever the values are.  The
    input need not be sorted. *)
Theorem C92_flat : forall s u t ms, (2 <= u)%N -> flat_build_held s u = Ok (t, ms) ->
  at_most (length s) (map held_segments ms) /\ always (3 * 2 ^ digits u - 2) (map held_bits ms).
Proof. exact flat_holds. Qed.
Print Assumptions C92_flat.

(** The vectors of a level-wise trie begin as large as those of a flat one without the last level
    and shrink to those of the result. *)
Theorem C92_level : forall il s u t ms, (2 <= u)%N -> s <> [] -> shorter 64 s -> level_build_held il s u = Ok (t, ms) ->
  at_most (length s) (map held_segments ms) /\
  starts_at (2 ^ (digits u + 1) - 2) (map held_bits ms) /\ at_most (2 ^ (digits u + 1) - 2) (map held_bits ms) /\
  ends_at (length (concat (l_bTrie t))) (map held_bits ms).
Proof. exact level_holds. Qed.
Print Assumptions C92_level.

(** Segments and words together are no more than the values. *)
Theorem C92_fast : forall lw jh je s u t ms, (2 <= u)%N -> lw <= digits u -> fast_build_held lw jh je s u = Ok (t, ms) ->
  together_at_most (length s) (map held_segments ms) (map held_words ms) /\
  always (2 ^ (digits u + 1) - 2) (map held_bits ms).
Proof. exact fast_holds. Qed.
Print Assumptions C92_fast.

(** Every set can be stored within these bounds.  In the end the queue holds one segment for each
    value, so no smaller bound is true. *)
Theorem C92_flat_sets : forall u s, (3 <= u <= 2 ^ 48)%N -> s <> [] -> increasing s -> below u s -> shorter 32 s ->
  exists t ms, flat_build s u = Ok t /\ flat_build_held s u = Ok (t, ms) /\
    at_most (length s) (map held_segments ms) /\ ends_at (length s) (map held_segments ms) /\
    always (3 * 2 ^ digits u - 2) (map held_bits ms).
Proof. exact flat_set_holds. Qed.
Print Assumptions C92_flat_sets.

Theorem C92_level_sets : forall il u s, (2 <= u <= 2 ^ 48)%N -> s <> [] -> increasing s -> below u s ->
  exists t ms, level_build il s u = Ok t /\ level_build_held il s u = Ok (t, ms) /\
    at_most (length s) (map held_segments ms) /\ ends_at (length s) (map held_segments ms) /\
    starts_at (2 ^ (digits u + 1) - 2) (map held_bits ms) /\ at_most (2 ^ (digits u + 1) - 2) (map held_bits ms).
Proof. exact level_set_holds. Qed.
Print Assumptions C92_level_sets.

Theorem C92_fast_sets : forall u lw jh je s, fast_universe u lw -> s <> [] -> increasing s -> below u s -> shorter 32 s ->
  exists t ms, fast_build lw jh je s u = Ok t /\ fast_build_held lw jh je s u = Ok (t, ms) /\
    together_at_most (length s) (map held_segments ms) (map held_words ms) /\
    always (2 ^ (digits u + 1) - 2) (map held_bits ms).
Proof. exact fast_set_holds. Qed.
Print Assumptions C92_fast_sets.

(** So a single value below 2^k is stored in 2k bits, through 3*2^k - 2 of them. *)
Theorem C92_one_value : forall k x, 2 <= k <= 48 -> (x < 2 ^ N.of_nat k)%N ->
  exists t ms, flat_build_held [x] (2 ^ N.of_nat k) = Ok (t, ms) /\
    always (3 * 2 ^ k - 2) (map held_bits ms) /\ length (f_bTrie t) + length (f_lastLevel t) = 2 * k.
Proof. exact flat_one_value. Qed.
Print Assumptions C92_one_value.

(** {1, 5, 6, 15} below 16; an input that is not sorted; a fast trie, whose queue runs empty as its
    words are written. *)
Example C92_example :
  (3 <= 16 <= 2 ^ 48)%N /\ increasing [1; 5; 6; 15]%N /\ below 16 [1; 5; 6; 15]%N /\ shorter 32 [1; 5; 6; 15]%N /\
  (let* (_, ms) := flat_build_held [1; 5; 6; 15]%N 16 in Ok (map held_segments ms, map held_bits ms))
    = Ok ([1; 2; 3; 3; 3; 4; 4; 4; 4; 4; 4], repeat 46 11) /\
  (let* (_, ms) := level_build_held true [9; 2; 9]%N 16 in Ok (map held_segments ms, map held_bits ms))
    = Ok ([1; 1; 1; 2; 2; 3], [30; 30; 28; 22; 22; 10]).
Proof. repeat split; try discriminate; try (left; reflexivity); repeat constructor. Qed.

Example C92_fast_example :
  fast_universe 100 3 /\ increasing [0; 7; 8; 9; 70; 99]%N /\ below 100 [0; 7; 8; 9; 70; 99]%N /\
  (let* (_, ms) := fast_build_held 3 None None [0; 7; 8; 9; 70; 99]%N 100 in Ok (map held_segments ms, map held_words ms, map held_bits ms))
    = Ok ([1; 2; 2; 3; 3; 3; 3; 4; 4; 4; 3; 2; 1; 0], [0; 0; 0; 0; 0; 0; 0; 0; 0; 0; 1; 2; 3; 4], repeat 254 14).
Proof. repeat split; try discriminate; try (left; reflexivity); repeat constructor. Qed.
