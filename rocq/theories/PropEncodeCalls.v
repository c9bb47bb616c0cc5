(** Property C86: the work of encodeRuns. *)

From Verif Require Import Base FlatTrie LevelTrie FastTrie Tries Calls DecodeCalls EncodeCalls
  Spec SpecTries SpecMeasures SpecCalls EncodeCallsThms.

(** The record of calls leaves the result as it is. *)
Theorem C86_record : forall (t : bin_trie), (let* (t', _) := bin_encodeRuns_calls t in Ok t') = bin_encodeRuns t.
Proof. exact bin_encode_erase. Qed.
Print Assumptions C86_record.

Theorem C86_fast_record : forall (t : fast), (let* (t', _) := fast_encodeRuns_calls t in Ok t') = fast_encodeRuns t.
Proof. exact fast_encode_erase. Qed.
Print Assumptions C86_fast_record.

(** C86.  One call for each prefix of a member that lacks at least one digit: the calls of decode,
    in its order, without those for whole values. *)
Theorem C86_encode : forall u v s, (2 <= u <= 2 ^ 48)%N -> stored_ok u v false s ->
  exists t t' c, bin_build v s u = Ok t /\ bin_encodeRuns t = Ok t' /\ bin_encodeRuns_calls t = Ok (t', c) /\
    NoDup c /\
    (forall m p, In (m, p) c <-> exists b q, call_at (digits u) m p b q /\ 1 <= b /\ prefix_of_member s b q) /\
    length c <= 1 + (digits u - 1) * length s /\
    (forall w, exists d, bin_decode_calls t w = Ok (w ++ s, d) /\ c = filter (fun x => fst x <? digits u) d).
Proof. exact bin_encode_work. Qed.
Print Assumptions C86_encode.

(** Fast tries stop at words, in decode too. *)
Theorem C86_fast_encode : forall u lw jh je s, fast_universe u lw -> fast_ok u s ->
  exists t t' c, fast_build lw jh je s u = Ok t /\ fast_encodeRuns t = Ok t' /\ fast_encodeRuns_calls t = Ok (t', c) /\
    NoDup c /\
    (forall m p, In (m, p) c <-> exists b q, call_at (digits u) m p b q /\ lw <= b /\ prefix_of_member s b q) /\
    length c <= 1 + (digits u - lw) * length s /\
    (forall w, fast_decode_calls t w = Ok (w ++ s, c)).
Proof. exact fast_encode_work. Qed.
Print Assumptions C86_fast_encode.

(** {0, 1, 2, 3, 9} below 16.  The run 0, ..., 3 is visited in full. *)
Example C86_example :
  let s := [0; 1; 2; 3; 9]%N in
  stored_ok 16 (VFlat true) false s /\ stored_ok 16 (VLevel false) false s /\
  (let* t := bin_build (VFlat true) s 16 in let* (_, c) := bin_encodeRuns_calls t in Ok c)
    = Ok [(0, 0%N); (1, 0%N); (2, 0%N); (3, 0%N); (3, 2%N); (1, 8%N); (2, 8%N); (3, 8%N)] /\
  (let* t := bin_build (VLevel false) s 16 in let* (_, c) := bin_encodeRuns_calls t in Ok c)
    = Ok [(0, 0%N); (1, 0%N); (2, 0%N); (3, 0%N); (3, 2%N); (1, 8%N); (2, 8%N); (3, 8%N)].
Proof.
  cbv zeta. unfold stored_ok, plain_ok. repeat split; try discriminate; repeat constructor; try discriminate.
Qed.

Example C86_fast_example :
  let s := [0; 1; 2; 3; 9; 70]%N in
  fast_universe 100 3 /\ fast_ok 100 s /\
  (let* t := fast_build 3 None (Some false) s 100 in let* (_, c) := fast_encodeRuns_calls t in Ok c)
    = Ok [(0, 0%N); (1, 0%N); (2, 0%N); (3, 0%N); (4, 0%N); (4, 8%N); (1, 64%N); (2, 64%N); (3, 64%N); (4, 64%N)].
Proof.
  cbv zeta. unfold fast_ok. repeat split; try discriminate; try (left; reflexivity); repeat constructor; try discriminate.
Qed.
