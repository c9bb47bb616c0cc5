(** C100: what run encoding holds while it runs. *)

From Verif Require Import Base FlatTrie LevelTrie FastTrie Tries Spec SpecTries SpecMeasures SpecMemory EncodeHeld EncodeHeldThms.

(** The record changes nothing. *)
Theorem C100_flat_record : forall t, (let* (t', _) := flat_encodeRuns_held t in Ok t') = flat_encodeRuns t.
Proof. exact flat_encode_forget. Qed.
Print Assumptions C100_flat_record.

Theorem C100_level_record : forall t, (let* (t', _) := level_encodeRuns_held t in Ok t') = level_encodeRuns t.
Proof. exact level_encode_forget. Qed.
Print Assumptions C100_level_record.

Theorem C100_fast_record : forall t, (let* (t', _) := fast_encodeRuns_held t in Ok t') = fast_encodeRuns t.
Proof. exact fast_encode_forget. Qed.
Print Assumptions C100_fast_record.

(** C100.  The positions collected are never more than the 1 bits of the result and four others,
    whatever the size of the old trie; in the end they are as many as the 1 bits. *)
Theorem C100_flat : forall u s, (3 <= u <= 2 ^ 48)%N -> s <> [] -> increasing s -> below u s -> shorter 32 s ->
  exists t t' ms, flat_build s u = Ok t /\ flat_encodeRuns t = Ok t' /\ flat_encodeRuns_held t = Ok (t', ms) /\
    at_most (ones (f_bTrie t' ++ f_lastLevel t') + 4) ms /\ ends_at (ones (f_bTrie t' ++ f_lastLevel t')) ms.
Proof. exact flat_encode_holds. Qed.
Print Assumptions C100_flat.

Theorem C100_level : forall il u s, (2 <= u <= 2 ^ 48)%N -> s <> [] -> increasing s -> below u s ->
  exists t t' ms, level_build il s u = Ok t /\ level_encodeRuns t = Ok t' /\ level_encodeRuns_held t = Ok (t', ms) /\
    at_most (ones (concat (l_bTrie t')) + 4) ms /\ ends_at (ones (concat (l_bTrie t'))) ms.
Proof. exact level_encode_holds. Qed.
Print Assumptions C100_level.

(** In a fast trie the words collected are never more than those of the result and two others.
    The positions are as many as the 1 bits of the result and the words of the old trie, because
    those put in for words, which nothing reads, are not taken out when the words are. *)
Theorem C100_fast_partial : forall u lw jh je s, fast_universe u lw -> fast_ok u s ->
  exists t t' ms, fast_build lw jh je s u = Ok t /\ fast_encodeRuns t = Ok t' /\ fast_encodeRuns_held t = Ok (t', ms) /\
    at_most (ones (x_bTrie t') + length (x_lastLevel t)) (map fst ms) /\
    ends_at (ones (x_bTrie t') + length (x_lastLevel t)) (map fst ms) /\
    at_most (length (x_lastLevel t') + 2) (map snd ms) /\ ends_at (length (x_lastLevel t')) (map snd ms).
Proof. exact fast_encode_holds. Qed.
Print Assumptions C100_fast_partial.

(** {0, ..., 7, 9} below 16: the four positions for 0, ..., 3 are taken out before those for
    4, ..., 7 are put in. *)
Example C100_example :
  let s := [0; 1; 2; 3; 4; 5; 6; 7; 9]%N in
  increasing s /\ below 16 s /\ shorter 32 s /\
  (let* t := flat_build s 16 in let* (t', ms) := flat_encodeRuns_held t in
   Ok (ones (f_bTrie t ++ f_lastLevel t), ones (f_bTrie t' ++ f_lastLevel t'), ms))
    = Ok (19, 5, [2; 4; 0; 2; 4; 0; 0; 1; 2; 3; 3; 3; 5]).
Proof.
  split; [repeat constructor|]. split; [repeat constructor|]. split; [reflexivity|]. vm_compute. reflexivity.
Qed.

(** No smaller number than four would do: {0, 1, 2, 3} below 4. *)
Example C100_four :
  let s := [0; 1; 2; 3]%N in
  increasing s /\ below 4 s /\ shorter 32 s /\
  (let* t := flat_build s 4 in let* (t', ms) := flat_encodeRuns_held t in
   Ok (ones (f_bTrie t' ++ f_lastLevel t'), ms)) = Ok (0, [2; 4; 0]) /\
  (let* t := level_build true s 4 in let* (t', ms) := level_encodeRuns_held t in
   Ok (ones (concat (l_bTrie t')), ms)) = Ok (0, [2; 4; 0]).
Proof.
  split; [repeat constructor|]. split; [repeat constructor|]. split; [reflexivity|]. vm_compute. auto.
Qed.

(** {0, ..., 31, 40} below 64 in words of 8 bits: the result has 4 bits that are 1 and one word;
    9 positions are held in the end. *)
Example C100_fast_example :
  let s := map N.of_nat (seq 0 32 ++ [40]) in
  fast_universe 64 3 /\ fast_ok 64 s /\
  (let* t := fast_build 3 None None s 64 in let* (t', ms) := fast_encodeRuns_held t in
   Ok (ones (x_bTrie t'), length (x_lastLevel t), length (x_lastLevel t'), ms))
    = Ok (4, 5, 1, [(1, 1); (2, 2); (2, 0); (3, 1); (4, 2); (4, 0); (4, 0); (5, 0); (6, 0); (7, 1); (7, 1); (7, 1); (9, 1)]).
Proof.
  split; [split; [cbn; auto|split; [reflexivity|discriminate]]|].
  split; [|vm_compute; reflexivity].
  cbv [map seq app N.of_nat Pos.of_succ_nat Pos.succ]. split; [discriminate|].
  split; [repeat constructor|]. split; [repeat constructor|reflexivity].
Qed.
