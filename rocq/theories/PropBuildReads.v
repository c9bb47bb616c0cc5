(** Property C85: how often construction reads the values. *)

From Verif Require Import Base FlatTrie LevelTrie FastTrie BuildReads Spec SpecTries SpecMeasures SpecReads BuildReadsThms.

(** The record of reads leaves the result as it is. *)
Theorem C85_flat_record : forall s u, (let* (t, _) := flat_build_reads s u in Ok t) = flat_build s u.
Proof. exact flat_build_erase. Qed.
Print Assumptions C85_flat_record.

Theorem C85_level_record : forall il s u, (let* (t, _) := level_build_reads il s u in Ok t) = level_build il s u.
Proof. exact level_build_erase. Qed.
Print Assumptions C85_level_record.

Theorem C85_fast_record : forall lw jh je s u,
  (let* (t, _) := fast_build_reads lw jh je s u in Ok t) = fast_build lw jh je s u.
Proof. exact fast_build_erase. Qed.
Print Assumptions C85_fast_record.

(** C85.  A construction that comes to an end has read each value at most once for each binary
    digit, and every iteration of its loop has read a value.  The input need not be sorted. *)
Theorem C85_flat : forall s u t cs, (2 <= u)%N -> flat_build_reads s u = Ok (t, cs) ->
  read_at_most (digits u) (length s) cs /\ each_step_reads cs.
Proof. exact flat_reads. Qed.
Print Assumptions C85_flat.

Theorem C85_level : forall il s u t cs, (2 <= u)%N -> s <> [] -> shorter 64 s -> level_build_reads il s u = Ok (t, cs) ->
  read_at_most (digits u) (length s) cs /\ each_step_reads cs.
Proof. exact level_reads. Qed.
Print Assumptions C85_level.

(** Fast tries read once more for the words, but not below them. *)
Theorem C85_fast : forall lw jh je s u t cs, (2 <= u)%N -> lw <= digits u -> fast_build_reads lw jh je s u = Ok (t, cs) ->
  read_at_most (digits u + 1 - lw) (length s) cs /\ each_step_reads cs.
Proof. exact fast_reads. Qed.
Print Assumptions C85_fast.

(** Every set can be stored with so few reads and iterations. *)
Theorem C85_flat_sets : forall u s, (3 <= u <= 2 ^ 48)%N -> s <> [] -> increasing s -> below u s -> shorter 32 s ->
  exists t cs, flat_build s u = Ok t /\ flat_build_reads s u = Ok (t, cs) /\
    read_at_most (digits u) (length s) cs /\ length cs <= digits u * length s.
Proof. exact flat_set_reads. Qed.
Print Assumptions C85_flat_sets.

Theorem C85_level_sets : forall il u s, (2 <= u <= 2 ^ 48)%N -> s <> [] -> increasing s -> below u s ->
  exists t cs, level_build il s u = Ok t /\ level_build_reads il s u = Ok (t, cs) /\
    read_at_most (digits u) (length s) cs /\ length cs <= digits u * length s.
Proof. exact level_set_reads. Qed.
Print Assumptions C85_level_sets.

Theorem C85_fast_sets : forall u lw jh je s, fast_universe u lw -> s <> [] -> increasing s -> below u s -> shorter 32 s ->
  exists t cs, fast_build lw jh je s u = Ok t /\ fast_build_reads lw jh je s u = Ok (t, cs) /\
    read_at_most (digits u + 1 - lw) (length s) cs /\ length cs <= (digits u + 1 - lw) * length s.
Proof. exact fast_set_reads. Qed.
Print Assumptions C85_fast_sets.

(** {1, 5, 6, 15} below 16: the value 1 is read four times, as many as there are digits; the
    value 6 three times.  The second input is not sorted. *)
Example C85_example :
  (3 <= 16 <= 2 ^ 48)%N /\ increasing [1; 5; 6; 15]%N /\ below 16 [1; 5; 6; 15]%N /\ shorter 32 [1; 5; 6; 15]%N /\
  (let* (_, cs) := flat_build_reads [1; 5; 6; 15]%N 16 in Ok cs)
    = Ok [[0; 1; 2; 3]; [0; 1]; [3]; [0]; [1; 2]; [3]; [0]; [1]; [2]; [3]]%N /\
  (let* (_, cs) := level_build_reads true [9; 2; 9]%N 16 in Ok cs) = Ok [[0]; [0; 1; 2]; [0; 1]; [0]; [1; 2]]%N.
Proof. repeat split; try discriminate; try (left; reflexivity); repeat constructor. Qed.

Example C85_fast_example :
  fast_universe 100 3 /\ increasing [0; 7; 8; 9; 70; 99]%N /\ below 100 [0; 7; 8; 9; 70; 99]%N /\
  (let* (_, cs) := fast_build_reads 3 None None [0; 7; 8; 9; 70; 99]%N 100 in Ok cs)
    = Ok [[0; 1; 2; 3; 4]; [0; 1; 2; 3]; [4; 5]; [0; 1; 2; 3]; [4]; [5]; [0; 1; 2]; [4]; [5];
         [0; 1]; [2; 3]; [4]; [5]]%N.
Proof. repeat split; try discriminate; try (left; reflexivity); repeat constructor. Qed.
