(** Properties C48, C49: the bits a trie stores, and the constructor from recorded positions. *)

From Verif Require Import Base FlatTrie LevelTrie FastTrie Spec SpecMeasures SpecLayout LayoutThms LayoutFast EmptyThms.

(** C48, flatBinTrie and flatBinTrie_il.  The members bTrie and lastLevel (what serialize() writes) hold
    the levels of the set in order, the last level apart. *)
Theorem C48_flat_bits : forall (u : N) (s : list N),
  (3 <= u <= 2 ^ 48)%N -> s <> [] -> increasing s -> below u s -> shorter 32 s ->
  exists t, flat_build s u = Ok t /\ f_height t = digits u /\
    f_bTrie t = concat (removelast (set_levels (digits u) s)) /\
    f_lastLevel t = last (set_levels (digits u) s) [].
Proof. exact flat_stored. Qed.
Print Assumptions C48_flat_bits.

(** After encodeRuns: level [m], the last one that holds bits, goes to lastLevel. *)
Theorem C48_flat_run_bits : forall (u : N) (s : list N),
  (3 <= u <= 2 ^ 48)%N -> s <> [] -> increasing s -> below u s -> shorter 32 s ->
  exists t t' m, flat_build s u = Ok t /\ flat_encodeRuns t = Ok t' /\ f_height t' = digits u /\
    last_level (run_levels (digits u) s) m /\ f_height_with_runs t' = S m /\
    f_bTrie t' = concat (firstn m (run_levels (digits u) s)) /\
    f_lastLevel t' = nth m (run_levels (digits u) s) [].
Proof. exact flat_stored_runs. Qed.
Print Assumptions C48_flat_run_bits.

(** binTrie ([il] = false) and binTrie_il ([il] = true): one bit vector for each level. *)
Theorem C48_level_bits : forall (il : bool) (u : N) (s : list N),
  (2 <= u <= 2 ^ 48)%N -> s <> [] -> increasing s -> below u s ->
  exists t, level_build il s u = Ok t /\ l_bTrie t = set_levels (digits u) s.
Proof. exact level_stored. Qed.
Print Assumptions C48_level_bits.

Theorem C48_level_run_bits : forall (il : bool) (u : N) (s : list N),
  (2 <= u <= 2 ^ 48)%N -> s <> [] -> increasing s -> below u s ->
  exists t t', level_build il s u = Ok t /\ level_encodeRuns t = Ok t' /\
    l_bTrie t' = run_levels (digits u) s.
Proof. exact level_stored_runs. Qed.
Print Assumptions C48_level_run_bits.

(** The empty set: the levels keep their first sizes, all bits 0.  After encodeRuns they hold nothing,
    or for two values one node 00. *)
Theorem C48_level_empty : forall (il : bool) (u : N), (2 <= u <= 2 ^ 48)%N ->
  exists t t', level_build il [] u = Ok t /\ level_encodeRuns t = Ok t' /\
    l_bTrie t = map (fun l => repeat false (2 * 2 ^ l)) (seq 0 (digits u)) /\
    l_bTrie t' = (if N.eqb u 2 then [[false; false]] else repeat [] (digits u)).
Proof. exact empty_stored. Qed.
Print Assumptions C48_level_empty.

Example C48_empty_example :
  (let* t := level_build true [] 7 in Ok (l_bTrie t))
  = Ok [[false; false]; [false; false; false; false];
        [false; false; false; false; false; false; false; false]] /\
  (let* t := level_build true [] 7 in let* t := level_encodeRuns t in Ok (l_bTrie t)) = Ok [[]; []; []].
Proof. split; vm_compute; reflexivity. Qed.

(** fastBinaryTrie with words of 2^[lw] bits: the same levels except the last [lw], then one word for
    each prefix without its last [lw] digits.  Bit i of the word tells whether the i-th number with that
    prefix is a member. *)
Theorem C48_fast_bits : forall (lw : nat) (jh : option nat) (je : option bool) (u : N) (s : list N),
  In lw [3; 4; 5; 6] -> (2 ^ N.of_nat lw < 2 * u <= 2 * 2 ^ 48)%N ->
  s <> [] -> increasing s -> below u s -> shorter 32 s ->
  exists t, fast_build lw jh je s u = Ok t /\
    x_bTrie t = concat (firstn (digits u - lw) (set_levels (digits u) s)) /\
    Forall2 (fun q w => forall i, N.testbit w i = true <->
               (i < 2 ^ N.of_nat lw)%N /\ In (q * 2 ^ N.of_nat lw + i)%N s)
      (prefixes s lw) (x_lastLevel t).
Proof. exact fast_stored. Qed.
Print Assumptions C48_fast_bits.

Theorem C48_fast_run_bits : forall (lw : nat) (jh : option nat) (je : option bool) (u : N) (s : list N),
  In lw [3; 4; 5; 6] -> (2 ^ N.of_nat lw < 2 * u <= 2 * 2 ^ 48)%N ->
  s <> [] -> increasing s -> below u s -> shorter 32 s ->
  exists t t', fast_build lw jh je s u = Ok t /\ fast_encodeRuns t = Ok t' /\
    x_bTrie t' = concat (firstn (digits u - lw) (run_levels (digits u) s)) /\
    Forall2 (fun q w => forall i, N.testbit w i = true <->
               (i < 2 ^ N.of_nat lw)%N /\ In (q * 2 ^ N.of_nat lw + i)%N s)
      (filter (fun q => negb (all_in s (S lw) (q / 2))) (prefixes s lw)) (x_lastLevel t').
Proof. exact fast_stored_runs. Qed.
Print Assumptions C48_fast_run_bits.

(** The set {1, 4, 5, 6, 7} below 8: three levels, and with runs the right half is one 00 node. *)
Example C48_example :
  let s := [1; 4; 5; 6; 7]%N in
  ((3 <= 8 <= 2 ^ 48)%N /\ s <> [] /\ increasing s /\ below 8 s /\ shorter 32 s) /\
  set_levels (digits 8) s =
    [[true; true]; [true; false; true; true]; [false; true; true; true; true; true]] /\
  run_levels (digits 8) s = [[true; true]; [true; false; false; false]; [false; true]] /\
  (let* t := flat_build s 8 in Ok (f_bTrie t, f_lastLevel t)) =
    Ok ([true; true; true; false; true; true], [false; true; true; true; true; true]) /\
  (let* t := level_build true s 8 in let* t := level_encodeRuns t in Ok (l_bTrie t)) =
    Ok [[true; true]; [true; false; false; false]; [false; true]].
Proof. cbv zeta. repeat split; try discriminate; repeat constructor. Qed.

(** A universe of 32 values in words of eight: the first sixteen are a run. *)
Example C48_fast_example :
  let s := [0; 1; 2; 3; 4; 5; 6; 7; 8; 9; 10; 11; 12; 13; 14; 15; 18; 31]%N in
  (In 3 [3; 4; 5; 6] /\ (2 ^ N.of_nat 3 < 2 * 32 <= 2 * 2 ^ 48)%N /\
   s <> [] /\ increasing s /\ below 32 s /\ shorter 32 s) /\
  (let* t := fast_build 3 None None s 32 in Ok (x_bTrie t, x_lastLevel t)) =
    Ok ([true; true; true; true; true; true], [255; 255; 4; 128]%N) /\
  (let* t := fast_build 3 None None s 32 in let* t := fast_encodeRuns t in Ok (x_bTrie t, x_lastLevel t)) =
    Ok ([true; true; false; false; true; true], [4; 128]%N) /\
  prefixes s 3 = [0; 1; 2; 3]%N.
Proof. cbv zeta. repeat split; try discriminate; repeat constructor. Qed.

(** C49.  The constructor that takes, for each level, the positions of the ones and the number of bits.
    For any levels, [m] being the last that holds bits, the trie holds exactly these bits. *)
Theorem C49_levels : forall (L : list (list bool)) (m : nat) (runs : bool), last_level L m ->
  exists t, flat_from_ones (map ones_of L) (length L) (map (@length bool) L) runs = Ok t /\
    f_height t = length L /\ f_height_with_runs t = S m /\ f_empty_trie t = false /\
    f_runs_encoded t = runs /\ f_bTrie t = concat (firstn m L) /\ f_lastLevel t = nth m L [].
Proof. exact flat_from_levels_ex. Qed.
Print Assumptions C49_levels.

(** Without any bit the trie is marked as empty. *)
Theorem C49_no_bits : forall (h : nat) (runs : bool), 1 <= h ->
  exists t, flat_from_ones (repeat [] h) h (repeat 0 h) runs = Ok t /\ f_empty_trie t = true /\
    f_bTrie t = [] /\ f_lastLevel t = [].
Proof. exact flat_from_empty_ex. Qed.
Print Assumptions C49_no_bits.

(** From the levels of a set: the same trie as from the set (but for height_with_runs, which the
    constructor from a set leaves alone), and it decodes to the set. *)
Theorem C49_set : forall (u : N) (s : list N),
  (3 <= u <= 2 ^ 48)%N -> s <> [] -> increasing s -> below u s -> shorter 32 s ->
  let L := set_levels (digits u) s in
  exists t t', flat_build s u = Ok t /\
    flat_from_ones (map ones_of L) (digits u) (map (@length bool) L) false = Ok t' /\
    f_height t' = f_height t /\ f_bTrie t' = f_bTrie t /\ f_lastLevel t' = f_lastLevel t /\
    f_rank t' = f_rank t /\ f_empty_trie t' = f_empty_trie t /\ f_runs_encoded t' = f_runs_encoded t /\
    forall v, flat_decode t' v = Ok (v ++ s).
Proof. exact flat_from_set. Qed.
Print Assumptions C49_set.

(** From the levels with runs: the trie that encodeRuns makes. *)
Theorem C49_runs : forall (u : N) (s : list N),
  (3 <= u <= 2 ^ 48)%N -> s <> [] -> increasing s -> below u s -> shorter 32 s ->
  let L := run_levels (digits u) s in
  exists t t', flat_build s u = Ok t /\ flat_encodeRuns t = Ok t' /\
    flat_from_ones (map ones_of L) (digits u) (map (@length bool) L) true = Ok t'.
Proof. exact flat_from_runs. Qed.
Print Assumptions C49_runs.

Example C49_example :
  last_level [[true; true]; [true; false; false; false]; []; []] 1 /\
  map ones_of [[true; true]; [true; false; false; false]; []; []] = [[0; 1]; [0]; []; []] /\
  (let* t := flat_from_ones [[0; 1]; [0]; []; []] 4 [2; 4; 0; 0] true in
   Ok (f_bTrie t, f_lastLevel t, f_empty_trie t)) = Ok ([true; true], [true; false; false; false], false) /\
  (let* t := flat_from_ones [[0; 1]; [0; 2; 3]; [1; 2; 3; 4; 5]] 3 [2; 4; 6] false in flat_decode t []) =
    Ok [1; 4; 5; 6; 7]%N.
Proof.
  split; [|repeat split]. split; [cbn; auto|]. split; [discriminate|].
  intros [|[|[|[|[|l]]]]] H; auto; inversion H. inversion H1.
Qed.
