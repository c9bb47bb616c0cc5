(** Run encoding: the statements used by the property files. *)

From Verif Require Import Base Split FlatTrie LevelTrie FastTrie Facts Tree Groups Reps Layout
  BuildFlat BuildLevel BuildFast WordBits DecodeFast Spec RoundTrip RoundTripFacts Compress
  WriteOnes CompressFast RunsFacts.

(** * What the constructors build from an increasing list *)

Lemma sel_is_set : forall u h s, (u <= pow2 h)%N -> s <> [] -> increasing s -> below u s ->
  sel umem h (tree_of unit_leaf 0 h s) 0 = s.
Proof.
  intros. apply (is_set_of_unique s); [|apply is_set_of_self; auto].
  apply distinct_set; auto using increasing_nondecreasing. eapply below_within; eauto.
Qed.

Lemma flat_built : forall u s, (3 <= u <= 2 ^ 48)%N -> s <> [] -> increasing s -> below u s -> shorter 32 s ->
  exists h t, flat_build s u = Ok t /\ 2 <= h <= 48 /\ (u <= pow2 h)%N /\
    let T := tree_of unit_leaf 0 h s in
    flat_layout t h T /\ plain T /\ f_runs_encoded t = false /\ f_empty_trie t = false /\
    sel umem h T 0 = s.
Proof.
  intros u s Hu Hne Hs Hb Hl.
  destruct (height_of_spec u ltac:(lia)) as (h & Hh & Hr & Hp & H2 & _).
  destruct (flat_build_layout s u h Hh) as (t & Ht & L & Hre & He); auto; try lia.
  assert (2 <= h) by (apply H2; lia).
  exists h, t. repeat split; auto; try lia; try apply L.
  - apply tree_of_plain.
  - eapply sel_is_set; eauto.
Qed.

Lemma level_built : forall il u s, (2 <= u <= 2 ^ 48)%N -> s <> [] -> increasing s -> below u s ->
  exists h t, level_build il s u = Ok t /\ 1 <= h <= 48 /\ (u <= pow2 h)%N /\
    let T := tree_of unit_leaf 0 h s in
    level_layout t h T /\ plain T /\ l_runs_encoded t = false /\ l_empty_trie t = false /\
    sel umem h T 0 = s.
Proof.
  intros il u s Hu Hne Hs Hb.
  destruct (height_of_spec u ltac:(lia)) as (h & Hh & Hr & Hp & H2 & _).
  destruct (level_build_layout il s u h Hh) as (t & Ht & L & Hre & He & _); auto; try lia.
  { apply below_short with (u := u); auto. lia. }
  exists h, t. repeat split; auto; try lia; try apply L.
  - apply tree_of_plain.
  - eapply sel_is_set; eauto.
Qed.

Lemma fast_built : forall lw jh je u s, In lw [3; 4; 5; 6] ->
  (2 ^ N.of_nat lw < 2 * u <= 2 * 2 ^ 48)%N ->
  s <> [] -> increasing s -> below u s -> shorter 32 s ->
  exists d t, fast_build lw jh je s u = Ok t /\ d + lw <= 48 /\ (u <= pow2 (d + lw))%N /\
    let T := tree_of (word_of lw) lw d s in
    fast_layout t (S d) T /\ plain T /\ x_runs_encoded t = false /\ x_empty_trie t = je /\
    x_lw t = lw /\ x_height_u t = d + lw /\ all_leaves (fun w => w < 2 ^ pow2 lw)%N T /\
    sel (wmem lw) (d + lw) T 0 = s.
Proof.
  intros lw jh je u s Hlw Hu Hne Hs Hb Hl.
  assert (H8 : (2 ^ N.of_nat 3 <= 2 ^ N.of_nat lw)%N).
  { apply N.pow_le_mono_r; [lia|]. cbn in Hlw. lia. }
  change (2 ^ N.of_nat 3)%N with 8%N in H8.
  destruct (height_of_spec u ltac:(lia)) as (h & Hh & Hr & Hp & H2 & Hk).
  assert (Hlh : lw <= h).
  { destruct lw as [|lw]; [lia|]. change (2 ^ N.of_nat (S lw))%N with (pow2 (S lw)) in Hu.
    rewrite pow2_S in Hu. assert (lw < h) by (apply Hk; lia). lia. }
  destruct (fast_build_layout lw jh je s u h Hh) as (t & Ht & L & E1 & E2 & Hre & Hje); auto; try lia.
  assert (Eh : h - lw + lw = h) by lia.
  exists (h - lw), t. rewrite Eh. repeat split; auto; try lia; try apply L.
  - apply tree_of_plain.
  - apply all_leaves_tree_of. apply word_of_bound.
  - assert (D := distinct_fast_set lw (h - lw) s Hne (increasing_nondecreasing _ Hs)).
    unfold distinct_fast in D. rewrite Eh in D.
    apply (is_set_of_unique s); [|apply is_set_of_self; auto]. apply D.
    eapply below_within; eauto.
Qed.

(** * C05 *)

Theorem level_runs_round_trip : forall il u s v,
  (2 <= u <= 2 ^ 48)%N -> s <> [] -> increasing s -> below u s ->
  exists t t', level_build il s u = Ok t /\ level_encodeRuns t = Ok t' /\
    level_decode t' v = Ok (v ++ s).
Proof.
  intros il u s v Hu Hne Hs Hb.
  destruct (level_built il u s Hu Hne Hs Hb) as (h & t & Ht & Hh & Hp & L & Hpl & Hr & He & E).
  destruct (level_encodeRuns_spec _ _ _ L Hpl) as (t' & Ht' & L' & Hr' & Em & He' & _).
  exists t, t'. repeat split; auto. rewrite (level_decode_runs _ _ _ v L'); auto; try congruence; try lia.
  rewrite ucompress_sel, E. auto.
Qed.

(** * C06 *)

Lemma mem_In : forall h T s x, sel umem h T 0 = s -> (x < pow2 h)%N ->
  (mem umem h T x = true <-> In x s).
Proof.
  intros h T s x E Hx. rewrite <- E. unfold sel. rewrite filter_In, In_nrange, of_nat_pow2.
  split; [|tauto]. intros. split; auto. lia.
Qed.

Lemma mixed_block_iff : forall u h s T, 2 <= h -> (u <= pow2 h)%N -> below u s ->
  sel umem h T 0 = s -> (mixed_block s <-> mixed_in 0 h (mem umem h T)).
Proof.
  intros u h s T H2 Hu Hb E.
  assert (H4 : exists q, pow2 h = (4 * q)%N).
  { destruct h as [|[|h]]; try lia. rewrite !pow2_S. exists (pow2 h). lia. }
  destruct H4 as (q & Eq). unfold below in Hb. rewrite Forall_forall in Hb.
  split; intros (x & y & H).
  - destruct H as (Hx & Hy & D). assert (Lx : (x < pow2 h)%N) by (apply Hb in Hx; lia).
    assert (Ly : (y < pow2 h)%N).
    { assert (Ex := N.div_mod' x 4). assert (Ey := N.div_mod' y 4).
      assert (Mx := N.mod_lt x 4). assert (My := N.mod_lt y 4). lia. }
    exists x, y. repeat split; try lia; auto.
    + apply (mem_In h T s); auto.
    + destruct (mem umem h T y) eqn:M; auto. apply (mem_In h T s) in M; auto. tauto.
  - destruct H as (Hx & Hy & D & Mx & My). exists x, y. repeat split; auto.
    + apply (mem_In h T s) in Mx; auto. lia.
    + intros Iy. apply (mem_In h T s) in Iy; auto; [congruence|lia].
Qed.

Theorem flat_runs_round_trip : forall u s v,
  (3 <= u <= 2 ^ 48)%N -> s <> [] -> increasing s -> below u s -> shorter 32 s ->
  mixed_block s ->
  exists t t', flat_build s u = Ok t /\ flat_encodeRuns t = Ok t' /\
    flat_decode t' v = Ok (v ++ s).
Proof.
  intros u s v Hu Hne Hs Hb Hl Hm.
  destruct (flat_built u s Hu Hne Hs Hb Hl) as (h & t & Ht & Hh & Hp & L & Hpl & Hr & He & E).
  set (T := tree_of unit_leaf 0 h s) in *.
  assert (Em : nodelev (ucompress T) = h).
  { apply (deep_iff T h 0); auto using aligned_0; try lia. { apply L. }
    apply (mixed_block_iff u h s); auto. lia. }
  destruct (flat_layout_runs t h T L Hpl Em) as (t' & Ht' & L' & Hr' & He').
  exists t, t'. repeat split; auto.
  rewrite (flat_decode_runs _ _ _ v L'); auto; try congruence; try lia.
  rewrite ucompress_sel, E. auto.
Qed.

Theorem flat_runs_lost : forall u s v,
  (3 <= u <= 2 ^ 48)%N -> s <> [] -> increasing s -> below u s -> shorter 32 s ->
  ~ mixed_block s ->
  exists t t', flat_build s u = Ok t /\ flat_encodeRuns t = Ok t' /\
    flat_decode t' v = UB OutOfBounds.
Proof.
  intros u s v Hu Hne Hs Hb Hl Hm.
  destruct (flat_built u s Hu Hne Hs Hb Hl) as (h & t & Ht & Hh & Hp & L & Hpl & Hr & He & E).
  set (T := tree_of unit_leaf 0 h s) in *.
  assert (Hwf : wf h T) by apply L.
  assert (Em : nodelev (ucompress T) <> h).
  { intros Em. apply (deep_iff T h 0) in Em; auto using aligned_0; try lia.
    apply (mixed_block_iff u h s) in Em; auto. lia. }
  destruct (ucompress_nodelev T h Hwf ltac:(lia)).
  exists t. eexists. split; [auto|]. split; [apply (flat_encodeRuns_spec t h T L Hpl)|].
  apply (lost_decode_root (ucompress T) h); cbn; auto; try lia.
  apply compress_wf; auto.
Qed.

(** * C07 *)

Theorem fast_runs_round_trip : forall lw jh u s v, In lw [3; 4; 5; 6] ->
  (2 ^ N.of_nat lw < 2 * u <= 2 * 2 ^ 48)%N ->
  s <> [] -> increasing s -> below u s -> shorter 32 s ->
  exists t t', fast_build lw jh (Some false) s u = Ok t /\ fast_encodeRuns t = Ok t' /\
    fast_decode t' v = Ok (v ++ s).
Proof.
  intros lw jh u s v Hlw Hu Hne Hs Hb Hl.
  destruct (fast_built lw jh (Some false) u s Hlw Hu Hne Hs Hb Hl)
    as (d & t & Ht & Hd & Hp & L & Hpl & Hr & He & E1 & E2 & Hal & E).
  assert (Hx : x_height t = S d) by apply L.
  destruct (fast_encodeRuns_spec t _ ltac:(rewrite Hx; exact L) Hpl) as (t' & Ht' & L' & F1 & F2 & F3 & F4).
  exists t, t'. repeat split; auto. rewrite Hx, E1 in *.
  rewrite (fast_decode_runs t' lw d _ v L'); auto; try congruence; try lia.
  - rewrite xcompress_sel, E. auto.
  - apply all_leaves_compress. auto.
  - apply In_lw; auto.
Qed.

Theorem fast_runs_indeterminate : forall lw jh u s v, In lw [3; 4; 5; 6] ->
  (2 ^ N.of_nat lw < 2 * u <= 2 * 2 ^ 48)%N ->
  s <> [] -> increasing s -> below u s -> shorter 32 s ->
  exists t t', fast_build lw jh None s u = Ok t /\ fast_encodeRuns t = Ok t' /\
    fast_decode t' v = UB Indeterminate.
Proof.
  intros lw jh u s v Hlw Hu Hne Hs Hb Hl.
  destruct (fast_built lw jh None u s Hlw Hu Hne Hs Hb Hl)
    as (d & t & Ht & Hd & Hp & L & Hpl & Hr & He & E1 & E2 & Hal & E).
  assert (Hx : x_height t = S d) by apply L.
  destruct (fast_encodeRuns_spec t _ ltac:(rewrite Hx; exact L) Hpl) as (t' & Ht' & L' & F1 & F2 & F3 & F4).
  exists t, t'. repeat split; auto. unfold fast_decode. rewrite F3, F4, He. reflexivity.
Qed.

Theorem fast_runs_vanish : forall lw jh u s v, In lw [3; 4; 5; 6] ->
  (2 ^ N.of_nat lw < 2 * u <= 2 * 2 ^ 48)%N ->
  s <> [] -> increasing s -> below u s -> shorter 32 s ->
  exists t t', fast_build lw jh (Some true) s u = Ok t /\ fast_encodeRuns t = Ok t' /\
    fast_decode t' v = Ok v.
Proof.
  intros lw jh u s v Hlw Hu Hne Hs Hb Hl.
  destruct (fast_built lw jh (Some true) u s Hlw Hu Hne Hs Hb Hl)
    as (d & t & Ht & Hd & Hp & L & Hpl & Hr & He & E1 & E2 & Hal & E).
  assert (Hx : x_height t = S d) by apply L.
  destruct (fast_encodeRuns_spec t _ ltac:(rewrite Hx; exact L) Hpl) as (t' & Ht' & L' & F1 & F2 & F3 & F4).
  exists t, t'. repeat split; auto. unfold fast_decode. rewrite F3, F4, He. reflexivity.
Qed.

(** * C08 *)

Lemma compress_level : forall A lfull keep (t : tree A) j,
  length (bits (fiter j [compress lfull keep t])) <= length (bits (fiter j [t])) /\
  count_true (bits (fiter j [compress lfull keep t])) <= count_true (bits (fiter j [t])).
Proof.
  intros A lfull keep. induction t; intros j; cbn [compress]; auto.
  - destruct j; [cbn; lia|]. rewrite !fiter_S. cbn [kids]. apply IHt.
  - destruct j; [cbn; lia|]. rewrite !fiter_S. cbn [kids]. apply IHt.
  - destruct (_ && _)%bool.
    + destruct j; [cbn; lia|]. rewrite !fiter_S. cbn [kids]. rewrite fiter_nil. cbn. lia.
    + destruct j; [cbn; lia|]. rewrite !fiter_S. cbn [kids].
      change [compress lfull keep t1; compress lfull keep t2]
        with ([compress lfull keep t1] ++ [compress lfull keep t2]).
      change [t1; t2] with ([t1] ++ [t2]). rewrite !fiter_app, !bits_app, !app_length, !count_true_app.
      specialize (IHt1 j). specialize (IHt2 j). lia.
Qed.

Lemma compress_prebits : forall A lfull keep (t : tree A) i,
  length (prebits (compress lfull keep t) i) <= length (prebits t i) /\
  count_true (prebits (compress lfull keep t) i) <= count_true (prebits t i).
Proof.
  induction i; cbn [prebits]; auto. rewrite !app_length, !count_true_app.
  destruct (compress_level A lfull keep t i). unfold F. lia.
Qed.

Lemma compress_leaves : forall A lfull keep (t : tree A),
  length (leaves (compress lfull keep t)) <= length (leaves t).
Proof.
  induction t; cbn [compress leaves]; auto. destruct (_ && _)%bool; cbn [leaves length].
  - lia.
  - rewrite !app_length. lia.
Qed.

Lemma count_loop_spec : forall bv, count_loop bv = Ok (count_true bv).
Proof.
  intros bv. unfold count_loop. rewrite (for_loop_each nat bool (fun (b : bool) n => Ok (if b then S n else n))).
  assert (H : forall n, each (fun (b : bool) n => Ok (if b then S n else n)) bv n = Ok (n + count_true bv)).
  { induction bv as [|b bv IH]; intros n; cbn [each count_true bind].
    - f_equal. lia.
    - rewrite IH. destruct b; cbn; f_equal; lia. }
  apply H.
Qed.

Lemma flat_trieMeasure_spec : forall t, f_rank t = f_bTrie t ->
  flat_trieMeasure t = Ok (count_true (f_bTrie t) + count_true (f_lastLevel t)).
Proof.
  intros t E. unfold flat_trieMeasure. rewrite E.
  rewrite <- (app_nil_r (f_bTrie t)) at 1. rewrite rank1_app by auto. cbn [bind].
  rewrite count_loop_spec. reflexivity.
Qed.

Theorem flat_runs_size : forall u s,
  (3 <= u <= 2 ^ 48)%N -> s <> [] -> increasing s -> below u s -> shorter 32 s ->
  exists t t' m m', flat_build s u = Ok t /\ flat_encodeRuns t = Ok t' /\
    flat_trieMeasure t = Ok m /\ flat_trieMeasure t' = Ok m' /\ m' <= m /\
    length (f_bTrie t') + length (f_lastLevel t') <= length (f_bTrie t) + length (f_lastLevel t).
Proof.
  intros u s Hu Hne Hs Hb Hl.
  destruct (flat_built u s Hu Hne Hs Hb Hl) as (h & t & Ht & Hh & Hp & L & Hpl & Hr & He & E).
  assert (E' := flat_encodeRuns_spec t h _ L Hpl). cbv zeta in E'.
  destruct L as (_ & Hwf & _ & Eb & El & Er).
  set (T := tree_of unit_leaf 0 h s) in *. set (T' := ucompress T) in *. set (m := nodelev T') in *.
  destruct (ucompress_nodelev T h Hwf ltac:(lia)) as (M1 & M2). fold T' m in M1, M2.
  eexists. eexists. eexists. eexists. split; [eauto|]. split; [eauto|].
  split; [apply flat_trieMeasure_spec; auto|]. split; [apply flat_trieMeasure_spec; auto|].
  cbn [f_bTrie f_lastLevel]. rewrite Eb, El, <- !count_true_app, <- !app_length.
  change (prebits T' (m - 1) ++ bits (F T' (m - 1))) with (prebits T' (S (m - 1))).
  change (prebits T (h - 1) ++ bits (F T (h - 1))) with (prebits T (S (h - 1))).
  replace (S (m - 1)) with m by lia. replace (S (h - 1)) with h by lia.
  unfold m. rewrite <- (prebits_rest _ T' h) by auto.
  destruct (compress_prebits _ ufull true T h). auto.
Qed.

Lemma levels_total : forall A (t : tree A) h, length (concat (levels h t)) = length (prebits t h).
Proof.
  intros. rewrite (prebits_levels t h h) by auto. f_equal. f_equal. symmetry. apply firstn_all2.
  unfold levels. rewrite levelsF_length. auto.
Qed.

Theorem level_runs_size : forall il u s,
  (2 <= u <= 2 ^ 48)%N -> s <> [] -> increasing s -> below u s ->
  exists t t', level_build il s u = Ok t /\ level_encodeRuns t = Ok t' /\
    length (concat (l_bTrie t')) <= length (concat (l_bTrie t)) /\
    count_true (concat (l_bTrie t')) <= count_true (concat (l_bTrie t)).
Proof.
  intros il u s Hu Hne Hs Hb.
  destruct (level_built il u s Hu Hne Hs Hb) as (h & t & Ht & Hh & Hp & L & Hpl & Hr & He & E).
  destruct (level_encodeRuns_spec _ _ _ L Hpl) as (t' & Ht' & L' & _).
  exists t, t'. split; [auto|]. split; [auto|].
  destruct L as (_ & _ & -> & _), L' as (_ & _ & -> & _).
  assert (EC : forall T : tree unit, concat (levels h T) = prebits T h).
  { intros T. rewrite (prebits_levels T h h) by auto. f_equal. symmetry. apply firstn_all2.
    unfold levels. rewrite levelsF_length. auto. }
  rewrite !EC. apply compress_prebits.
Qed.

Theorem fast_runs_size : forall lw jh je u s, In lw [3; 4; 5; 6] ->
  (2 ^ N.of_nat lw < 2 * u <= 2 * 2 ^ 48)%N ->
  s <> [] -> increasing s -> below u s -> shorter 32 s ->
  exists t t', fast_build lw jh je s u = Ok t /\ fast_encodeRuns t = Ok t' /\
    length (x_bTrie t') <= length (x_bTrie t) /\
    count_true (x_bTrie t') <= count_true (x_bTrie t) /\
    length (x_lastLevel t') <= length (x_lastLevel t).
Proof.
  intros lw jh je u s Hlw Hu Hne Hs Hb Hl.
  destruct (fast_built lw jh je u s Hlw Hu Hne Hs Hb Hl)
    as (d & t & Ht & Hd & Hp & L & Hpl & Hr & He & E1 & E2 & Hal & E).
  assert (Hx : x_height t = S d) by apply L.
  destruct (fast_encodeRuns_spec t _ ltac:(rewrite Hx; exact L) Hpl) as (t' & Ht' & L' & _).
  exists t, t'. split; [auto|]. split; [auto|]. rewrite Hx in L'.
  destruct L as (_ & W & _ & -> & EL & _), L' as (_ & W' & _ & -> & EL' & _).
  destruct (compress_prebits _ (xfull (x_lw t)) false (tree_of (word_of lw) lw d s) (S d - 1)).
  repeat split; auto.
  unfold F in EL, EL'. rewrite (leaves_level _ _ _ W) in EL. rewrite (leaves_level _ _ _ W') in EL'.
  apply (f_equal (@length _)) in EL, EL'. rewrite !map_length in EL, EL'. rewrite <- EL, <- EL'.
  apply compress_leaves.
Qed.

(** * C38 *)

Theorem decode_appends_runs : forall u s v,
  (3 <= u <= 2 ^ 48)%N -> s <> [] -> increasing s -> below u s -> shorter 32 s ->
  (mixed_block s ->
   exists t t', flat_build s u = Ok t /\ flat_encodeRuns t = Ok t' /\ flat_decode t' v = Ok (v ++ s)) /\
  (forall il, exists t t', level_build il s u = Ok t /\ level_encodeRuns t = Ok t' /\
     level_decode t' v = Ok (v ++ s)) /\
  (forall lw jh, In lw [3; 4; 5; 6] -> (2 ^ N.of_nat lw < 2 * u)%N ->
     exists t t', fast_build lw jh (Some false) s u = Ok t /\ fast_encodeRuns t = Ok t' /\
     fast_decode t' v = Ok (v ++ s)).
Proof.
  intros u s v Hu Hne Hs Hb Hl. repeat split.
  - apply flat_runs_round_trip; auto.
  - intros il. apply level_runs_round_trip; auto. lia.
  - intros lw jh Hlw Hw. apply fast_runs_round_trip; auto. lia.
Qed.

(** * C29: sets without runs *)

(** No aligned block of four values is full. *)
Lemma no_run_compress : forall t d p, wf d t -> plain t -> aligned d p ->
  (2 <= d -> forall q, aligned 2 q -> (p <= q < p + pow2 d)%N ->
     exists x, (q <= x < q + 4)%N /\ mem umem d t x = false) ->
  ucompress t = t /\ (2 <= d -> ufullt t = false).
Proof.
  induction t as [a| |t IH|t IH|l IHl r IHr]; intros d p Hwf Hp Ha Hq; cbn in Hwf, Hp; try tauto.
  - split; auto. lia.
  - destruct Hwf as (H0 & Hwf). destruct d as [|d]; [lia|]. cbn [pred] in *. split; auto.
    unfold ucompress. cbn [compress]. f_equal. apply (IH d p); auto using aligned_S.
    intros H2 q Aq Lq. destruct (Hq ltac:(lia) q Aq ltac:(rewrite pow2_S; lia)) as (x & Hx & M).
    exists x. split; auto. cbn [mem pred] in M. rewrite (testbit_left d p) in M; auto.
    apply aligned_ex in Aq, Ha. destruct Aq as (k & ->), Ha as (k' & ->).
    destruct d as [|[|d]]; try lia. rewrite !pow2_S in *. change (pow2 0) with 1%N in *. nia.
  - destruct Hwf as (H0 & Hwf). destruct d as [|d]; [lia|]. cbn [pred] in *. split; auto.
    unfold ucompress. cbn [compress]. f_equal. apply (IH d (p + pow2 d)%N); auto using aligned_right.
    intros H2 q Aq Lq. destruct (Hq ltac:(lia) q Aq ltac:(rewrite pow2_S; lia)) as (x & Hx & M).
    exists x. split; auto. cbn [mem pred] in M. rewrite (testbit_right' d p) in M; auto.
    apply aligned_ex in Aq, Ha. destruct Aq as (k & ->), Ha as (k' & ->).
    destruct d as [|[|d]]; try lia. rewrite !pow2_S in *. change (pow2 0) with 1%N in *. nia.
  - destruct Hwf as (H0 & W1 & W2), Hp as (P1 & P2). destruct d as [|d]; [lia|]. cbn [pred] in *.
    destruct (Nat.eq_dec d 0) as [->|Nd].
    + apply wf_leaf in W1, W2. destruct W1 as ([] & ->), W2 as ([] & ->). split; auto. lia.
    + assert (NF : ufullt (TB l r) = false).
      { destruct (Hq ltac:(lia) p) as (x & _ & M).
        - apply aligned_le with (S d); auto. lia.
        - assert (G := pow2_pos (S d)). lia.
        - destruct (ufullt (TB l r)) eqn:EF; auto.
          rewrite (full_mem ufull umem) in M; [discriminate|reflexivity|exact EF]. }
      split; auto.
      assert (EC : ucompress (TB l r) = TB (ucompress l) (ucompress r)).
      { unfold ucompress, ufullt in *. cbn [compress]. cbn [full] in NF. rewrite NF. reflexivity. }
      rewrite EC. f_equal.
      * apply (IHl d p); auto using aligned_S.
        intros H2 q Aq Lq. destruct (Hq ltac:(lia) q Aq ltac:(rewrite pow2_S; lia)) as (x & Hx & M).
        exists x. split; auto. cbn [mem pred] in M. rewrite (testbit_left d p) in M; auto.
        apply aligned_ex in Aq, Ha. destruct Aq as (k & ->), Ha as (k' & ->).
        destruct d as [|[|d]]; try lia. rewrite !pow2_S in *. change (pow2 0) with 1%N in *. nia.
      * apply (IHr d (p + pow2 d)%N); auto using aligned_right.
        intros H2 q Aq Lq. destruct (Hq ltac:(lia) q Aq ltac:(rewrite pow2_S; lia)) as (x & Hx & M).
        exists x. split; auto. cbn [mem pred] in M. rewrite (testbit_right' d p) in M; auto.
        apply aligned_ex in Aq, Ha. destruct Aq as (k & ->), Ha as (k' & ->).
        destruct d as [|[|d]]; try lia. rewrite !pow2_S in *. change (pow2 0) with 1%N in *. nia.
Qed.

Lemma no_run_tree : forall u h s, (u <= pow2 h)%N -> s <> [] -> increasing s -> below u s ->
  (forall b, exists x, (x / 4 = b)%N /\ ~ In x s) ->
  2 <= h -> let T := tree_of unit_leaf 0 h s in ucompress T = T.
Proof.
  intros u h s Hu Hne Hs Hb Hq H2 T.
  assert (E := sel_is_set u h s Hu Hne Hs Hb). fold T in E.
  apply (no_run_compress T h 0); auto using aligned_0.
  - apply tree_of_wf.
  - apply tree_of_plain.
  - intros _ q Aq Lq. destruct (Hq (q / 4)%N) as (x & Dx & Nx).
    apply aligned_ex in Aq. destruct Aq as (k & ->). change (pow2 2) with 4%N in *.
    rewrite N.div_mul in Dx by lia. exists x.
    assert (Ex := N.div_mod' x 4). assert (Mx := N.mod_lt x 4). split; [lia|].
    destruct (mem umem h T x) eqn:M; auto. apply (mem_In h T s) in M; auto; [tauto|].
    destruct h as [|[|h]]; try lia. rewrite !pow2_S in *. lia.
Qed.

Theorem level_runs_twice : forall il u s v,
  (3 <= u <= 2 ^ 48)%N -> s <> [] -> increasing s -> below u s ->
  (forall b, exists x, (x / 4 = b)%N /\ ~ In x s) ->
  exists t t' t'', level_build il s u = Ok t /\ level_encodeRuns t = Ok t' /\
    level_encodeRuns t' = Ok t'' /\ level_decode t'' v = Ok (v ++ s).
Proof.
  intros il u s v Hu Hne Hs Hb Hq.
  destruct (level_built il u s ltac:(lia) Hne Hs Hb) as (h & t & Ht & Hh & Hp & L & Hpl & Hr & He & E).
  set (T := tree_of unit_leaf 0 h s) in *.
  destruct (level_encodeRuns_spec _ _ _ L Hpl) as (t' & Ht' & L' & Hr' & Em & He' & _).
  assert (H2 : 2 <= h).
  { destruct h as [|[|h]]; try lia. change (pow2 1) with 2%N in Hp. lia. }
  assert (EC : ucompress T = T) by (apply (no_run_tree u); auto).
  rewrite EC in *.
  destruct (level_encodeRuns_spec _ _ _ L' Hpl) as (t'' & Ht'' & L'' & Hr'' & Em' & He'' & _).
  rewrite EC in *.
  exists t, t', t''. repeat split; auto.
  rewrite (level_decode_runs _ _ _ v L''); auto; try congruence; try lia.
Qed.

Theorem flat_runs_twice : forall u s v,
  (3 <= u <= 2 ^ 48)%N -> s <> [] -> increasing s -> below u s -> shorter 32 s ->
  (forall b, exists x, (x / 4 = b)%N /\ ~ In x s) ->
  exists t t' t'', flat_build s u = Ok t /\ flat_encodeRuns t = Ok t' /\
    flat_encodeRuns t' = Ok t'' /\ flat_decode t'' v = Ok (v ++ s).
Proof.
  intros u s v Hu Hne Hs Hb Hl Hq.
  destruct (flat_built u s Hu Hne Hs Hb Hl) as (h & t & Ht & Hh & Hp & L & Hpl & Hr & He & E).
  set (T := tree_of unit_leaf 0 h s) in *.
  assert (EC : ucompress T = T) by (apply (no_run_tree u); auto; lia).
  assert (Em : nodelev (ucompress T) = h).
  { rewrite EC. apply nodelev_plain; auto. apply tree_of_wf. }
  destruct (flat_layout_runs t h T L Hpl Em) as (t' & Ht' & L' & Hr' & He'). rewrite EC in L'.
  destruct (flat_layout_runs t' h T L' Hpl Em) as (t'' & Ht'' & L'' & Hr'' & He''). rewrite EC in L''.
  exists t, t', t''. repeat split; auto.
  rewrite (flat_decode_runs _ _ _ v L''); auto; try congruence; try lia.
Qed.

Lemma runs_twice_example :
  let s := [1; 4; 5; 6; 13]%N in
  (forall b, exists x, (x / 4 = b)%N /\ ~ In x s) /\
  (let* t := flat_build s 16 in let* t' := flat_encodeRuns t in let* t'' := flat_encodeRuns t' in
   flat_decode t'' []) = Ok s.
Proof.
  cbv zeta. split; [|reflexivity]. intros b. exists (b * 4 + 3)%N. split.
  - symmetry. apply N.div_unique with (r := 3%N); lia.
  - cbn [In]. lia.
Qed.

Lemma runs_twice_refuted :
  let s := [0; 1; 2; 3; 9]%N in
  let r := [0; 1; 2; 3; 4; 5; 6; 7; 8; 9; 10; 11; 12; 13; 14; 15; 40; 47]%N in
  (let* t := flat_build s 16 in let* t' := flat_encodeRuns t in
   let* t'' := flat_encodeRuns t' in flat_decode t'' []) = UB OutOfBounds /\
  (forall il, (let* t := level_build il s 16 in let* t' := level_encodeRuns t in
     let* t'' := level_encodeRuns t' in level_decode t'' []) = UB OutOfBounds) /\
  (let* t := fast_build 3 None (Some false) r 64 in let* t' := fast_encodeRuns t in
   let* t'' := fast_encodeRuns t' in fast_decode t'' []) = UB OutOfBounds.
Proof. cbv zeta. split; [|split]; [|intros []|]; vm_compute; reflexivity. Qed.

Lemma flat_runs_refuted :
  ~ (forall (u : N) (s v : list N),
       (3 <= u <= 2 ^ 48)%N -> s <> [] -> increasing s -> below u s -> shorter 32 s ->
       exists t t', flat_build s u = Ok t /\ flat_encodeRuns t = Ok t' /\
         flat_decode t' v = Ok (v ++ s)).
Proof.
  intros H. destruct (H 16%N [4; 5; 6; 7]%N []) as (t & t' & E1 & E2 & E3).
  { split; discriminate. }
  { discriminate. }
  { repeat constructor. }
  { repeat constructor. }
  { reflexivity. }
  vm_compute in E1. injection E1 as <-. vm_compute in E2. injection E2 as <-.
  vm_compute in E3. discriminate.
Qed.

Lemma fast_runs_refuted :
  ~ (forall (lw : nat) (jh : option nat) (je : option bool) (u : N) (s v : list N),
       In lw [3; 4; 5; 6] -> (2 ^ N.of_nat lw < 2 * u <= 2 * 2 ^ 48)%N ->
       s <> [] -> increasing s -> below u s -> shorter 32 s ->
       exists t t', fast_build lw jh je s u = Ok t /\ fast_encodeRuns t = Ok t' /\
         fast_decode t' v = Ok (v ++ s)).
Proof.
  intros H. destruct (H 3 None None 16%N [4; 5; 6; 7]%N []) as (t & t' & E1 & E2 & E3).
  { left; reflexivity. }
  { split; [reflexivity|discriminate]. }
  { discriminate. }
  { repeat constructor. }
  { repeat constructor. }
  { reflexivity. }
  vm_compute in E1. injection E1 as <-. vm_compute in E2. injection E2 as <-.
  vm_compute in E3. discriminate.
Qed.
