(** Property C84: the work of decoding. *)

From Verif Require Import Base FlatTrie LevelTrie FastTrie ParallelFor Intersection Tries Calls DecodeCalls
  Spec SpecTries SpecMeasures SpecCalls SpecSpace InterRefute DecodeCallsThms.

(** The record of calls leaves the result as it is. *)
Theorem C84_record : forall (t : bin_trie) v, (let* (r, _) := bin_decode_calls t v in Ok r) = bin_decode t v.
Proof. exact bin_decode_erase. Qed.
Print Assumptions C84_record.

Theorem C84_fast_record : forall (t : fast) v, (let* (r, _) := fast_decode_calls t v in Ok r) = fast_decode t v.
Proof. exact fast_decode_erase. Qed.
Print Assumptions C84_fast_record.

(** C84.  One call for each prefix of a member, except below the top of a run, in the order in
    which an intersection of the trie alone makes them. *)
Theorem C84_decode : forall u (x : bitem), (2 <= u <= 2 ^ 48)%N -> bitem_ok u x ->
  exists t c, make_bitem u x = Ok t /\ (forall v, bin_decode_calls t v = Ok (v ++ snd x, c)) /\
    NoDup c /\
    (forall m p, In (m, p) c <-> exists b q, call_at (digits u) m p b q /\ prefix_of_member (snd x) b q /\
       (m = 0 \/ ~ bin_run x b p)) /\
    length c <= 1 + digits u * length (snd x) /\
    (forall hc (runs : bool), (1 <= hc)%N -> (runs = false -> snd (fst x) = false) ->
       Intersect_calls Bin hc [bin_ops t] runs = Ok (snd x, c)).
Proof. exact bin_decode_work. Qed.
Print Assumptions C84_decode.

(** Fast tries stop at words.  An encoded one needs the flag for the empty trie to be false. *)
Theorem C84_fast_decode : forall u lw (x : fitem), fast_universe u lw -> fitem_ok u x ->
  (f_enc x = true -> snd (fst (fst x)) = Some false) ->
  exists t c, make_fitem u lw x = Ok t /\ (forall v, fast_decode_calls t v = Ok (v ++ snd x, c)) /\
    NoDup c /\
    (forall m p, In (m, p) c <-> exists b q, call_at (digits u) m p b q /\ lw <= b /\ prefix_of_member (snd x) b q /\
       (m = 0 \/ ~ fast_run x b p)) /\
    length c <= 1 + (digits u - lw) * length (snd x) /\
    (forall hc (runs : bool), (1 <= hc)%N -> (runs = false -> f_enc x = false) ->
       Intersect_calls (Fast lw) hc [fast_ops t] runs = Ok (snd x, c)).
Proof. exact fast_decode_work. Qed.
Print Assumptions C84_fast_decode.

(** With encoded runs the number of calls depends on the number of intervals only. *)
Theorem C84_runs : forall u (x : bitem) R, (2 <= u <= 2 ^ 48)%N -> bitem_ok u x -> snd (fst x) = true ->
  union_of R (snd x) ->
  exists t c, make_bitem u x = Ok t /\ (forall v, bin_decode_calls t v = Ok (v ++ snd x, c)) /\
    length c <= 1 + 4 * (digits u + 1) * length R.
Proof. exact bin_decode_run_work. Qed.
Print Assumptions C84_runs.

Theorem C84_fast_runs : forall u lw (x : fitem) R, fast_universe u lw -> fitem_ok u x ->
  f_enc x = true -> snd (fst (fst x)) = Some false -> union_of R (snd x) ->
  exists t c, make_fitem u lw x = Ok t /\ (forall v, fast_decode_calls t v = Ok (v ++ snd x, c)) /\
    length c <= 1 + 4 * (digits u - lw) * length R.
Proof. exact fast_decode_run_work. Qed.
Print Assumptions C84_fast_runs.

(** A trie made with runs from no bits, which is marked as empty, is not examined at all. *)
Theorem C84_no_bits : forall (h : nat), 1 <= h ->
  exists t, flat_from_ones (repeat [] h) h (repeat 0 h) true = Ok t /\
    forall v, bin_decode_calls (BFlat t) v = Ok (v, []).
Proof. exact no_bits_no_calls. Qed.
Print Assumptions C84_no_bits.

(** Nor is an encoded fast trie whose flag happened to be true, whatever it holds. *)
Theorem C84_fast_marked_empty : forall (lw : nat) (jh : option nat) (u : N) (s : list N),
  In lw [3; 4; 5; 6] -> (2 ^ N.of_nat lw < 2 * u <= 2 * 2 ^ 48)%N ->
  s <> [] -> increasing s -> below u s -> shorter 32 s ->
  exists t t', fast_build lw jh (Some true) s u = Ok t /\ fast_encodeRuns t = Ok t' /\
    forall v, fast_decode_calls t' v = Ok (v, []).
Proof. exact fast_vanish_no_calls. Qed.
Print Assumptions C84_fast_marked_empty.

Example C84_marked_example :
  (let* t := flat_from_ones [[]; []; []] 3 [0; 0; 0] true in bin_decode_calls (BFlat t) [7%N]) = Ok ([7%N], []) /\
  (let* t := fast_build 3 None (Some true) [2; 200]%N 256 in let* t := fast_encodeRuns t in fast_decode_calls t [7%N])
  = Ok ([7%N], []).
Proof. split; vm_compute; reflexivity. Qed.

(** {0, ..., 7, 9} below 16: twenty calls, or six when the run 0, ..., 7 is encoded. *)
Example C84_example :
  let s := [0; 1; 2; 3; 4; 5; 6; 7; 9]%N in
  bitem_ok 16 (VFlat false, false, s) /\ bitem_ok 16 (VLevel true, true, s) /\
  (let* t := make_bitem 16 (VFlat false, false, s) in bin_decode_calls t [99%N])
  = Ok (99%N :: s, [(0, 0%N); (1, 0%N); (2, 0%N); (3, 0%N); (4, 0%N); (4, 1%N); (3, 2%N); (4, 2%N); (4, 3%N);
                    (2, 4%N); (3, 4%N); (4, 4%N); (4, 5%N); (3, 6%N); (4, 6%N); (4, 7%N);
                    (1, 8%N); (2, 8%N); (3, 8%N); (4, 9%N)]) /\
  (let* t := make_bitem 16 (VLevel true, true, s) in bin_decode_calls t [99%N])
  = Ok (99%N :: s, [(0, 0%N); (1, 0%N); (1, 8%N); (2, 8%N); (3, 8%N); (4, 9%N)]).
Proof.
  cbv zeta. split; [sets_ok|]. split; [sets_ok|]. split; vm_compute; reflexivity.
Qed.

Example C84_fast_example :
  let s := [0; 1; 2; 3; 4; 5; 6; 7; 8; 9; 10; 11; 12; 13; 14; 15; 40]%N in
  let x := (None, Some false, true, s) in
  fast_universe 64 3 /\ fitem_ok 64 x /\ union_of [(0, 15); (40, 40)]%N s /\
  (let* t := make_fitem 64 3 x in fast_decode_calls t [])
  = Ok (s, [(0, 0%N); (1, 0%N); (2, 0%N); (1, 32%N); (2, 32%N); (3, 40%N)]).
Proof.
  cbv zeta. split; [split; [left; reflexivity|vm_compute; split; [reflexivity|discriminate]]|]. split; [sets_ok|]. split.
  - intros y. split.
    + intros I. cbn [In] in I. repeat (destruct I as [<-|I]; [first [exists 0%N, 15%N; split; [left; reflexivity|lia]|exists 40%N, 40%N; split; [right; left; reflexivity|lia]]|]). destruct I.
    + intros (a & b & [E|[E|[]]] & H); injection E as <- <-.
      * assert (In (N.to_nat y) (seq 0 16)) as I by (apply in_seq; lia).
        apply (in_map N.of_nat) in I. rewrite N2Nat.id in I.
        change (In y ([0; 1; 2; 3; 4; 5; 6; 7; 8; 9; 10; 11; 12; 13; 14; 15] ++ [40])%N). apply in_or_app. left. exact I.
      * replace y with 40%N by lia. repeat (first [left; reflexivity|right]).
  - vm_compute; reflexivity.
Qed.
