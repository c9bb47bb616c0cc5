(** Properties C05, C06, C07, C08, C29, C38: run encoding. *)

From Verif Require Import Base FlatTrie LevelTrie FastTrie Spec SpecMeasures SpecTwice RunsThms DecodeAppend TwiceThms.

(** C05.  binTrie ([il] = false) and binTrie_il ([il] = true). *)
Theorem C05_level_runs : forall (il : bool) (u : N) (s v : list N),
  (2 <= u <= 2 ^ 48)%N -> s <> [] -> increasing s -> below u s ->
  exists t t', level_build il s u = Ok t /\ level_encodeRuns t = Ok t' /\
    level_decode t' v = Ok (v ++ s).
Proof. exact level_runs_round_trip. Qed.
Print Assumptions C05_level_runs.

(** The full universe, and a union of blocks of different sizes. *)
Example C05_example :
  let full := [0; 1; 2; 3; 4; 5; 6; 7]%N in
  let s := [0; 1; 2; 3; 5; 8; 9; 10; 11; 12; 13; 14; 15]%N in
  ((2 <= 16 <= 2 ^ 48)%N /\ s <> [] /\ increasing s /\ below 16 s) /\
  (let* t := level_build true full 8 in let* t' := level_encodeRuns t in level_decode t' []) = Ok full /\
  (let* t := level_build false s 16 in let* t' := level_encodeRuns t in level_decode t' []) = Ok s.
Proof. cbv zeta. repeat split; try discriminate; repeat constructor. Qed.

(** C06.  Full claim: for every nonempty [s] the trie decodes to [s] after
    encodeRuns.  Proved for the sets in which some aligned block of four values is
    neither full nor empty; for every other set it is false. *)
Theorem C06_flat_runs_partial : forall (u : N) (s v : list N),
  (3 <= u <= 2 ^ 48)%N -> s <> [] -> increasing s -> below u s -> shorter 32 s ->
  mixed_block s ->
  exists t t', flat_build s u = Ok t /\ flat_encodeRuns t = Ok t' /\
    flat_decode t' v = Ok (v ++ s).
Proof. exact flat_runs_round_trip. Qed.
Print Assumptions C06_flat_runs_partial.

Example C06_example :
  let s := [0; 1; 2; 3; 5; 8; 9; 10; 11; 12; 13; 14; 15]%N in
  ((3 <= 16 <= 2 ^ 48)%N /\ s <> [] /\ increasing s /\ below 16 s /\ shorter 32 s /\ mixed_block s) /\
  (let* t := flat_build s 16 in let* t' := flat_encodeRuns t in flat_decode t' []) = Ok s.
Proof.
  cbv zeta. repeat split; try discriminate; repeat constructor.
  exists 5%N, 4%N. repeat split; cbn; auto 7.
  intuition discriminate.
Qed.

(** Every union of aligned blocks of four values reads outside the bit vector. *)
Theorem C06_flat_runs_blocks_fail : forall (u : N) (s v : list N),
  (3 <= u <= 2 ^ 48)%N -> s <> [] -> increasing s -> below u s -> shorter 32 s ->
  ~ mixed_block s ->
  exists t t', flat_build s u = Ok t /\ flat_encodeRuns t = Ok t' /\
    flat_decode t' v = UB OutOfBounds.
Proof. exact flat_runs_lost. Qed.
Print Assumptions C06_flat_runs_blocks_fail.

Theorem C06_flat_runs_refuted :
  ~ (forall (u : N) (s v : list N),
       (3 <= u <= 2 ^ 48)%N -> s <> [] -> increasing s -> below u s -> shorter 32 s ->
       exists t t', flat_build s u = Ok t /\ flat_encodeRuns t = Ok t' /\
         flat_decode t' v = Ok (v ++ s)).
Proof. exact flat_runs_refuted. Qed.
Print Assumptions C06_flat_runs_refuted.

Example C06_blocks_example :
  (let* t := flat_build [4; 5; 6; 7]%N 16 in let* t' := flat_encodeRuns t in flat_decode t' [])
  = UB OutOfBounds.
Proof. reflexivity. Qed.

(** C07.  The member empty_trie is written by no constructor.  Full claim: for
    every content of the memory.  Proved when that memory holds false; false for
    the two other contents. *)
Theorem C07_fast_runs_partial : forall (lw : nat) (jh : option nat) (u : N) (s v : list N),
  In lw [3; 4; 5; 6] -> (2 ^ N.of_nat lw < 2 * u <= 2 * 2 ^ 48)%N ->
  s <> [] -> increasing s -> below u s -> shorter 32 s ->
  exists t t', fast_build lw jh (Some false) s u = Ok t /\ fast_encodeRuns t = Ok t' /\
    fast_decode t' v = Ok (v ++ s).
Proof. exact fast_runs_round_trip. Qed.
Print Assumptions C07_fast_runs_partial.

Example C07_example :
  let s := [0; 1; 2; 3; 4; 5; 6; 7; 8; 9; 10; 11; 12; 13; 14; 15; 40; 47]%N in
  (In 3 [3; 4; 5; 6] /\ (2 ^ N.of_nat 3 < 2 * 64 <= 2 * 2 ^ 48)%N /\
   s <> [] /\ increasing s /\ below 64 s /\ shorter 32 s) /\
  (let* t := fast_build 3 None (Some false) s 64 in let* t' := fast_encodeRuns t in fast_decode t' [])
  = Ok s.
Proof. cbv zeta. repeat split; try discriminate; try (left; reflexivity); repeat constructor. Qed.

Theorem C07_fast_runs_indeterminate : forall (lw : nat) (jh : option nat) (u : N) (s v : list N),
  In lw [3; 4; 5; 6] -> (2 ^ N.of_nat lw < 2 * u <= 2 * 2 ^ 48)%N ->
  s <> [] -> increasing s -> below u s -> shorter 32 s ->
  exists t t', fast_build lw jh None s u = Ok t /\ fast_encodeRuns t = Ok t' /\
    fast_decode t' v = UB Indeterminate.
Proof. exact fast_runs_indeterminate. Qed.
Print Assumptions C07_fast_runs_indeterminate.

Theorem C07_fast_runs_vanish : forall (lw : nat) (jh : option nat) (u : N) (s v : list N),
  In lw [3; 4; 5; 6] -> (2 ^ N.of_nat lw < 2 * u <= 2 * 2 ^ 48)%N ->
  s <> [] -> increasing s -> below u s -> shorter 32 s ->
  exists t t', fast_build lw jh (Some true) s u = Ok t /\ fast_encodeRuns t = Ok t' /\
    fast_decode t' v = Ok v.
Proof. exact fast_runs_vanish. Qed.
Print Assumptions C07_fast_runs_vanish.

Theorem C07_fast_runs_refuted :
  ~ (forall (lw : nat) (jh : option nat) (je : option bool) (u : N) (s v : list N),
       In lw [3; 4; 5; 6] -> (2 ^ N.of_nat lw < 2 * u <= 2 * 2 ^ 48)%N ->
       s <> [] -> increasing s -> below u s -> shorter 32 s ->
       exists t t', fast_build lw jh je s u = Ok t /\ fast_encodeRuns t = Ok t' /\
         fast_decode t' v = Ok (v ++ s)).
Proof. exact fast_runs_refuted. Qed.
Print Assumptions C07_fast_runs_refuted.

(** C08.  Stored bits, and the ones among them as reported by trieMeasure. *)
Theorem C08_flat_runs_size : forall (u : N) (s : list N),
  (3 <= u <= 2 ^ 48)%N -> s <> [] -> increasing s -> below u s -> shorter 32 s ->
  exists t t' m m', flat_build s u = Ok t /\ flat_encodeRuns t = Ok t' /\
    flat_trieMeasure t = Ok m /\ flat_trieMeasure t' = Ok m' /\ m' <= m /\
    length (f_bTrie t') + length (f_lastLevel t') <= length (f_bTrie t) + length (f_lastLevel t).
Proof. exact flat_runs_size. Qed.
Print Assumptions C08_flat_runs_size.

(** Level-wise tries: all levels together. *)
Theorem C08_level_runs_size : forall (il : bool) (u : N) (s : list N),
  (2 <= u <= 2 ^ 48)%N -> s <> [] -> increasing s -> below u s ->
  exists t t', level_build il s u = Ok t /\ level_encodeRuns t = Ok t' /\
    length (concat (l_bTrie t')) <= length (concat (l_bTrie t)) /\
    count_true (concat (l_bTrie t')) <= count_true (concat (l_bTrie t)).
Proof. exact level_runs_size. Qed.
Print Assumptions C08_level_runs_size.

(** Fast tries: bits, ones, words. *)
Theorem C08_fast_runs_size : forall (lw : nat) (jh : option nat) (je : option bool) (u : N) (s : list N),
  In lw [3; 4; 5; 6] -> (2 ^ N.of_nat lw < 2 * u <= 2 * 2 ^ 48)%N ->
  s <> [] -> increasing s -> below u s -> shorter 32 s ->
  exists t t', fast_build lw jh je s u = Ok t /\ fast_encodeRuns t = Ok t' /\
    length (x_bTrie t') <= length (x_bTrie t) /\
    count_true (x_bTrie t') <= count_true (x_bTrie t) /\
    length (x_lastLevel t') <= length (x_lastLevel t).
Proof. exact fast_runs_size. Qed.
Print Assumptions C08_fast_runs_size.

Example C08_example :
  let s := [0; 1; 2; 3; 5; 8; 9; 10; 11; 12; 13; 14; 15]%N in
  ((3 <= 16 <= 2 ^ 48)%N /\ s <> [] /\ increasing s /\ below 16 s /\ shorter 32 s) /\
  (let* t := flat_build s 16 in flat_trieMeasure t) = Ok 26 /\
  (let* t := flat_build s 16 in let* t' := flat_encodeRuns t in flat_trieMeasure t') = Ok 6.
Proof. cbv zeta. repeat split; try discriminate; repeat constructor. Qed.

(** C29.  Full claim: encoding twice never changes the set.  Proved for the flat
    and level-wise tries of sets in which no aligned block of four values is full;
    false in general. *)
Theorem C29_flat_idempotent_partial : forall (u : N) (s v : list N),
  (3 <= u <= 2 ^ 48)%N -> s <> [] -> increasing s -> below u s -> shorter 32 s ->
  (forall b, exists x, (x / 4 = b)%N /\ ~ In x s) ->
  exists t t' t'', flat_build s u = Ok t /\ flat_encodeRuns t = Ok t' /\
    flat_encodeRuns t' = Ok t'' /\ flat_decode t'' v = Ok (v ++ s).
Proof. exact flat_runs_twice. Qed.
Print Assumptions C29_flat_idempotent_partial.

Theorem C29_level_idempotent_partial : forall (il : bool) (u : N) (s v : list N),
  (3 <= u <= 2 ^ 48)%N -> s <> [] -> increasing s -> below u s ->
  (forall b, exists x, (x / 4 = b)%N /\ ~ In x s) ->
  exists t t' t'', level_build il s u = Ok t /\ level_encodeRuns t = Ok t' /\
    level_encodeRuns t' = Ok t'' /\ level_decode t'' v = Ok (v ++ s).
Proof. exact level_runs_twice. Qed.
Print Assumptions C29_level_idempotent_partial.

Example C29_example :
  let s := [1; 4; 5; 6; 13]%N in
  (forall b, exists x, (x / 4 = b)%N /\ ~ In x s) /\
  (let* t := flat_build s 16 in let* t' := flat_encodeRuns t in let* t'' := flat_encodeRuns t' in
   flat_decode t'' []) = Ok s.
Proof. exact runs_twice_example. Qed.

(** Encoding {0,1,2,3,9} (universe 16) twice and decoding reads outside the bit
    vectors of a flat or level-wise trie; a fast trie behaves alike. *)
Theorem C29_idempotent_refuted :
  let s := [0; 1; 2; 3; 9]%N in
  let r := [0; 1; 2; 3; 4; 5; 6; 7; 8; 9; 10; 11; 12; 13; 14; 15; 40; 47]%N in
  (let* t := flat_build s 16 in let* t' := flat_encodeRuns t in
   let* t'' := flat_encodeRuns t' in flat_decode t'' []) = UB OutOfBounds /\
  (forall il, (let* t := level_build il s 16 in let* t' := level_encodeRuns t in
     let* t'' := level_encodeRuns t' in level_decode t'' []) = UB OutOfBounds) /\
  (let* t := fast_build 3 None (Some false) r 64 in let* t' := fast_encodeRuns t in
   let* t'' := fast_encodeRuns t' in fast_decode t'' []) = UB OutOfBounds.
Proof. exact runs_twice_refuted. Qed.
Print Assumptions C29_idempotent_refuted.

(** What encoding twice does, in every case.  The fast trie is unchanged when no
    aligned block of two words' values is full. *)
Theorem C29_fast_idempotent_partial : forall (lw : nat) (jh : option nat) (u : N) (s v : list N),
  In lw [3; 4; 5; 6] -> (2 ^ N.of_nat lw < 2 * u <= 2 * 2 ^ 48)%N ->
  s <> [] -> increasing s -> below u s -> shorter 32 s ->
  (forall x, ~ block_full s (S lw) x) ->
  exists t t' t'', fast_build lw jh (Some false) s u = Ok t /\ fast_encodeRuns t = Ok t' /\
    fast_encodeRuns t' = Ok t'' /\ fast_decode t'' v = Ok (v ++ s).
Proof. exact fast_twice_none. Qed.
Print Assumptions C29_fast_idempotent_partial.

(** With such a block the decoder of the twice encoded fast trie always reads
    outside its bit vector. *)
Theorem C29_fast_run_refuted : forall (lw : nat) (jh : option nat) (u : N) (s v : list N),
  In lw [3; 4; 5; 6] -> (2 ^ N.of_nat lw < 2 * u <= 2 * 2 ^ 48)%N ->
  s <> [] -> increasing s -> below u s -> shorter 32 s ->
  (exists x, block_full s (S lw) x) ->
  exists t t' t'', fast_build lw jh (Some false) s u = Ok t /\ fast_encodeRuns t = Ok t' /\
    fast_encodeRuns t' = Ok t'' /\ fast_decode t'' v = UB OutOfBounds.
Proof. exact fast_twice_lost. Qed.
Print Assumptions C29_fast_run_refuted.

(** A flat trie with a full aligned block of four values: the second encoding
    reads outside its bit vectors when no aligned block of four values is partly taken,
    and otherwise the decoder of its result does. *)
Theorem C29_flat_run_refuted : forall (u : N) (s v : list N),
  (3 <= u <= 2 ^ 48)%N -> s <> [] -> increasing s -> below u s -> shorter 32 s ->
  mixed_block s -> (exists x, block_full s 2 x) ->
  exists t t' t'', flat_build s u = Ok t /\ flat_encodeRuns t = Ok t' /\
    flat_encodeRuns t' = Ok t'' /\ flat_decode t'' v = UB OutOfBounds.
Proof. exact flat_twice_lost. Qed.
Print Assumptions C29_flat_run_refuted.

Theorem C29_flat_blocks_refuted : forall (u : N) (s : list N),
  (3 <= u <= 2 ^ 48)%N -> s <> [] -> increasing s -> below u s -> shorter 32 s ->
  ~ mixed_block s ->
  exists t t', flat_build s u = Ok t /\ flat_encodeRuns t = Ok t' /\
    flat_encodeRuns t' = UB OutOfBounds.
Proof. exact flat_twice_blocks. Qed.
Print Assumptions C29_flat_blocks_refuted.

(** A level-wise trie of a set that consists of full blocks of one size, smaller
    than the universe: the twice encoded trie silently decodes to the first value
    of each block.  With any other full block of four values or more the decoder
    reads outside the bit vectors. *)
Theorem C29_level_equal_runs_refuted : forall (il : bool) (u : N) (s v : list N) (b : nat),
  (2 <= u <= 2 ^ 48)%N -> s <> [] -> increasing s -> below u s ->
  equal_runs b s -> (2 ^ N.of_nat b < u)%N ->
  exists t t' t'', level_build il s u = Ok t /\ level_encodeRuns t = Ok t' /\
    level_encodeRuns t' = Ok t'' /\ level_decode t'' v = Ok (v ++ block_starts b s).
Proof. exact level_twice_equal. Qed.
Print Assumptions C29_level_equal_runs_refuted.

Theorem C29_level_run_refuted : forall (il : bool) (u : N) (s v : list N),
  (2 <= u <= 2 ^ 48)%N -> s <> [] -> increasing s -> below u s ->
  (exists x, block_full s 2 x) -> (forall b, equal_runs b s -> (u <= 2 ^ N.of_nat b)%N) ->
  exists t t' t'', level_build il s u = Ok t /\ level_encodeRuns t = Ok t' /\
    level_encodeRuns t' = Ok t'' /\ level_decode t'' v = UB OutOfBounds.
Proof. exact level_twice_lost. Qed.
Print Assumptions C29_level_run_refuted.

Example C29_exact_example :
  let s := [0; 1; 2; 3; 8; 9; 10; 11]%N in
  let r := [0; 1; 2; 3; 4; 5; 6; 7; 8; 9; 10; 11; 12; 13; 14; 15; 40; 47]%N in
  let q := [0; 1; 2; 3; 4; 5; 6; 7; 9; 10; 11; 12; 13; 14; 15; 40; 47]%N in
  (equal_runs 2 s /\ block_starts 2 s = [0; 8]%N /\ ~ mixed_block s /\
   (let* t := level_build true s 16 in let* t' := level_encodeRuns t in
    let* t'' := level_encodeRuns t' in level_decode t'' []) = Ok [0; 8]%N) /\
  (block_full [0; 1; 2; 3; 9]%N 2 0%N /\ (forall b, ~ equal_runs b [0; 1; 2; 3; 9]%N) /\
   mixed_block [0; 1; 2; 3; 9]%N) /\
  block_full r 4 0%N /\
  ((forall x, ~ block_full q 4 x) /\
   (let* t := fast_build 3 None (Some false) q 64 in let* t' := fast_encodeRuns t in
    let* t'' := fast_encodeRuns t' in fast_decode t'' []) = Ok q).
Proof. exact runs_twice_exact_example. Qed.

(** C38, run-encoded tries. *)
Theorem C38_decode_appends_runs : forall (u : N) (s v : list N),
  (3 <= u <= 2 ^ 48)%N -> s <> [] -> increasing s -> below u s -> shorter 32 s ->
  (mixed_block s ->
   exists t t', flat_build s u = Ok t /\ flat_encodeRuns t = Ok t' /\ flat_decode t' v = Ok (v ++ s)) /\
  (forall il, exists t t', level_build il s u = Ok t /\ level_encodeRuns t = Ok t' /\
     level_decode t' v = Ok (v ++ s)) /\
  (forall lw jh, In lw [3; 4; 5; 6] -> (2 ^ N.of_nat lw < 2 * u)%N ->
     exists t t', fast_build lw jh (Some false) s u = Ok t /\ fast_encodeRuns t = Ok t' /\
     fast_decode t' v = Ok (v ++ s)).
Proof. exact decode_appends_runs. Qed.
Print Assumptions C38_decode_appends_runs.

Example C38_runs_example :
  (let* t := level_build false [0; 1; 2; 3; 9]%N 16 in let* t' := level_encodeRuns t in
   level_decode t' [77; 5]%N) = Ok [77; 5; 0; 1; 2; 3; 9]%N.
Proof. reflexivity. Qed.

(** C38 for any object at all, however it was obtained (built, encoded once or
    several times, loaded): decoding into [v] is decoding into the empty vector
    with [v] in front. *)
Theorem C38_decode_any_append : forall (v r : list N),
  (forall t, flat_decode t [] = Ok r -> flat_decode t v = Ok (v ++ r)) /\
  (forall t, level_decode t [] = Ok r -> level_decode t v = Ok (v ++ r)) /\
  (forall t, fast_decode t [] = Ok r -> fast_decode t v = Ok (v ++ r)).
Proof. exact decode_any_append. Qed.
Print Assumptions C38_decode_any_append.

Theorem C38_decode_any_prefix : forall (v r : list N),
  (forall t, flat_decode t v = Ok r -> exists w, flat_decode t [] = Ok w /\ r = v ++ w) /\
  (forall t, level_decode t v = Ok r -> exists w, level_decode t [] = Ok w /\ r = v ++ w) /\
  (forall t, fast_decode t v = Ok r -> exists w, fast_decode t [] = Ok w /\ r = v ++ w).
Proof. exact decode_any_prefix. Qed.
Print Assumptions C38_decode_any_prefix.
