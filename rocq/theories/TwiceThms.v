(** encodeRuns twice, then decode: every outcome. *)

From Verif Require Import Base FlatTrie LevelTrie FastTrie Spec SpecMeasures SpecTwice Facts Tree Groups Reps Layout
  BuildFlat BuildLevel BuildFast DecodeFast Compress WriteOnes CompressFast RoundTrip RunsFacts RunsThms NodeCount
  InterTight InterThms CallsMain LayoutThms RoundTripFacts TwiceRuns TwiceWrite TwiceDecode TwiceLost TwiceLevel.

Section Paths.
  Context {A : Type}.
  Variable lg : nat.

  Lemma runat_F : forall t j d x, runat lg j d t x = true -> exists i, i <= j /\ In (@Full A) (F t i).
  Proof.
    induction t as [a| |t IH|t IH|l IHl r IHr]; intros j d x H.
    - destruct j; discriminate.
    - exists 0. split; [lia|]. left; auto.
    - destruct j as [|j]; [discriminate|]. cbn [runat] in H. destruct (N.testbit _ _); [discriminate|].
      destruct (IH _ _ _ H) as (i & Hi & Hf). exists (S i). split; [lia|]. unfold F. rewrite fiter_S. exact Hf.
    - destruct j as [|j]; [discriminate|]. cbn [runat] in H. destruct (N.testbit _ _); [|discriminate].
      destruct (IH _ _ _ H) as (i & Hi & Hf). exists (S i). split; [lia|]. unfold F. rewrite fiter_S. exact Hf.
    - destruct j as [|j]; [discriminate|]. cbn [runat] in H.
      destruct (N.testbit _ _); [destruct (IHr _ _ _ H) as (i & Hi & Hf)|destruct (IHl _ _ _ H) as (i & Hi & Hf)];
        exists (S i); (split; [lia|]); unfold F; rewrite fiter_S; cbn [kids]; change [l; r] with ([l] ++ [r]);
        rewrite fiter_app; apply in_or_app; auto.
  Qed.

  Definition is_full (t : tree A) : bool := match t with Full => true | _ => false end.

  Variable lmem : A -> N -> bool.
  Hypothesis member : forall a p, aligned lg p -> exists x, (p <= x < p + pow2 lg)%N /\ lmem a x = true.

  Lemma exists_mem : forall t d p, wf d t -> aligned (d + lg) p ->
    exists x, (p <= x < p + pow2 (d + lg))%N /\ mem lmem (d + lg) t x = true.
  Proof.
    induction t as [a| |t IH|t IH|l IHl r IHr]; intros d p W Ha; cbn [wf] in W.
    - subst d. cbn [mem]. auto.
    - exists p. assert (X := pow2_pos (d + lg)). split; [lia|auto].
    - destruct W as (H0 & W). destruct d as [|d]; [lia|]. cbn [pred Nat.add mem] in *.
      destruct (IH d p W (aligned_S _ _ Ha)) as (x & Hx & M). exists x. rewrite pow2_S. split; [lia|].
      rewrite (testbit_left (d + lg) p) by (auto; lia). auto.
    - destruct W as (H0 & W). destruct d as [|d]; [lia|]. cbn [pred Nat.add mem] in *.
      destruct (IH d _ W (aligned_right _ _ Ha)) as (x & Hx & M). exists x. rewrite pow2_S. split; [lia|].
      rewrite (testbit_right (d + lg) p) by (auto; rewrite pow2_S; lia). auto.
    - destruct W as (H0 & W & _). destruct d as [|d]; [lia|]. cbn [pred Nat.add mem] in *.
      destruct (IHl d p W (aligned_S _ _ Ha)) as (x & Hx & M). exists x. rewrite pow2_S. split; [lia|].
      rewrite (testbit_left (d + lg) p) by (auto; lia). auto.
  Qed.

  Lemma F_runat : forall i t d p n, wf d t -> i <= d -> aligned (d + lg) p -> In n (F t i) ->
    exists x, (p <= x < p + pow2 (d + lg))%N /\ mem lmem (d + lg) t x = true /\ runat lg i d t x = is_full n.
  Proof.
    induction i; intros t d p n W Hi Ha Hn.
    - destruct Hn as [<-|[]]. destruct (exists_mem t d p W Ha) as (x & Hx & M). exists x. auto.
    - unfold F in Hn. rewrite fiter_S in Hn. destruct t as [a| |t|t|l r]; cbn [kids wf] in *.
      + lia.
      + rewrite fiter_nil in Hn. destruct Hn.
      + destruct W as (H0 & W). destruct d as [|d]; [lia|]. cbn [pred Nat.add mem runat] in *.
        destruct (IHi t d p n W ltac:(lia) (aligned_S _ _ Ha) Hn) as (x & Hx & M & R). exists x.
        rewrite pow2_S. split; [lia|]. rewrite (testbit_left (d + lg) p) by (auto; lia). auto.
      + destruct W as (H0 & W). destruct d as [|d]; [lia|]. cbn [pred Nat.add mem runat] in *.
        destruct (IHi t d _ n W ltac:(lia) (aligned_right _ _ Ha) Hn) as (x & Hx & M & R). exists x.
        rewrite pow2_S. split; [lia|]. rewrite (testbit_right (d + lg) p) by (auto; rewrite pow2_S; lia). auto.
      + destruct W as (H0 & W1 & W2). destruct d as [|d]; [lia|]. cbn [pred Nat.add mem runat] in *.
        change [l; r] with ([l] ++ [r]) in Hn. rewrite fiter_app in Hn. apply in_app_or in Hn. destruct Hn as [Hn|Hn].
        * destruct (IHi l d p n W1 ltac:(lia) (aligned_S _ _ Ha) Hn) as (x & Hx & M & R). exists x.
          rewrite pow2_S. split; [lia|]. rewrite (testbit_left (d + lg) p) by (auto; lia). auto.
        * destruct (IHi r d _ n W2 ltac:(lia) (aligned_right _ _ Ha) Hn) as (x & Hx & M & R). exists x.
          rewrite pow2_S. split; [lia|]. rewrite (testbit_right (d + lg) p) by (auto; rewrite pow2_S; lia). auto.
  Qed.
End Paths.

Lemma band_runat : forall c t d x, band c t -> wf d t -> mem umem d t x = true -> runat 0 c d t x = true.
Proof.
  induction c; intros t d x Hb W M; cbn [band] in Hb.
  - subst. reflexivity.
  - destruct Hb as (Nk & Hk).
    destruct t as [a| |l|r|l r]; cbn [kids wf mem runat] in *; auto; try congruence; rewrite Nat.add_0_r.
    + destruct W as (_ & W). apply Forall_cons_iff in Hk. destruct Hk as (Hk & _).
      destruct (N.testbit _ _); [discriminate|auto].
    + destruct W as (_ & W). apply Forall_cons_iff in Hk. destruct Hk as (Hk & _).
      destruct (N.testbit _ _); [auto|discriminate].
    + destruct W as (_ & W1 & W2). apply Forall_cons_iff in Hk. destruct Hk as (Hk1 & Hk).
      apply Forall_cons_iff in Hk. destruct Hk as (Hk2 & _). destruct (N.testbit _ _); auto.
Qed.

Lemma block_full_mono : forall s b c x, b <= c -> block_full s c x -> block_full s b x.
Proof.
  intros s b c x Hbc H y Hy. apply H.
  replace (N.of_nat c) with (N.of_nat b + N.of_nat (c - b))%N by lia.
  rewrite N.pow_add_r, <- !N.div_div by (apply N.pow_nonzero; lia). f_equal. exact Hy.
Qed.

Lemma block_full_In : forall s b x, block_full s b x -> In x s.
Proof. intros s b x H. apply H. auto. Qed.

Lemma some_run_high : forall h s x, (forall y, In y s -> (y < pow2 h)%N) -> block_full s 2 x -> 2 <= h.
Proof.
  intros h s x Hb H.
  assert (I3 : In (x / 4 * 4 + 3)%N s).
  { apply H. change (2 ^ N.of_nat 2)%N with 4%N. rewrite N.div_add_l by lia. change (3 / 4)%N with 0%N. lia. }
  apply Hb in I3. destruct h as [|[|h]]; [change (pow2 0) with 1%N in I3|change (pow2 1) with 2%N in I3|]; lia.
Qed.

Lemma unit_member : forall (a : unit) p, aligned 0 p -> exists x, (p <= x < p + pow2 0)%N /\ umem a x = true.
Proof. intros a p _. exists p. change (pow2 0) with 1%N. split; [lia|reflexivity]. Qed.

(** * Level-wise tries *)

Section LevelRuns.
  Variables h : nat.
  Variable s : list N.
  Hypothesis Hh : 1 <= h.
  Let T := bin_tree h true s.
  Hypothesis Hwf : wf h T.
  Hypothesis E : sel umem h T 0 = s.

  Lemma in_lt : forall x, In x s -> (x < pow2 h)%N.
  Proof. intros x Hx. apply (sel_In _ _ _ _ _ E) in Hx. tauto. Qed.

  Lemma run_at : forall j x, j < h -> In x s -> (runat 0 j h T x = true <-> block_full s (Nat.max 2 (h - j)) x).
  Proof.
    intros j x Hj Hx. unfold T. rewrite (bin_runat h true s j x); auto.
    - split; [tauto|auto].
    - rewrite Nat.add_0_r. exact E.
    - rewrite Nat.add_0_r. apply in_lt; auto.
  Qed.

  Lemma run_found : (exists x, block_full s 2 x) -> exists i, i < h /\ In Full (F T i).
  Proof.
    intros (x & H). assert (Hx := block_full_In _ _ _ H).
    assert (R : runat 0 (h - 1) h T x = true).
    { apply run_at; auto; [lia|]. replace (Nat.max 2 (h - (h - 1))) with 2 by lia. auto. }
    apply runat_F in R. destruct R as (i & Hi & Hf). exists i. split; [lia|auto].
  Qed.

  Lemma node_member : forall i n, i <= h -> In n (F T i) ->
    exists x, In x s /\ runat 0 i h T x = is_full n.
  Proof.
    intros i n Hi Hn.
    destruct (F_runat 0 umem unit_member i T h 0 n Hwf Hi (aligned_0 _) Hn) as (x & Hx & M & R).
    rewrite Nat.add_0_r in *. exists x. split; auto. apply (sel_In _ _ _ _ _ E). split; [lia|auto].
  Qed.

  Lemma first_run : (exists i, i < h /\ In Full (F T i)) ->
    exists L, L < h /\ In Full (F T L) /\ forall i, i < L -> ~ In Full (F T i).
  Proof.
    intros (i & Hi & Hf). revert Hi Hf. induction i as [i IH] using lt_wf_ind. intros Hi Hf.
    assert (Dec : (exists j, j < i /\ In Full (F T j)) \/ forall j, j < i -> ~ In Full (F T j)).
    { clear. induction i as [|i [(j & Hj & Hf)|H]].
      - right. lia.
      - left. exists j. split; [lia|auto].
      - assert (D : {In Full (F T i)} + {~ In Full (F T i)}).
        { destruct (existsb is_full (F T i)) eqn:X.
          - left. apply existsb_exists in X. destruct X as (y & Hy & Ey). destruct y; try discriminate. auto.
          - right. intros N. assert (Y : existsb is_full (F T i) = true) by (apply existsb_exists; exists Full; auto).
            congruence. }
        destruct D; [left; exists i; split; [lia|auto]|].
        right. intros j Hj. destruct (Nat.eq_dec j i) as [->|]; auto. apply H. lia. }
    destruct Dec as [(j & Hj & Hf')|H]; eauto. apply (IH j); auto; lia.
  Qed.
End LevelRuns.

Theorem level_twice_equal : forall il u s v b,
  (2 <= u <= 2 ^ 48)%N -> s <> [] -> increasing s -> below u s ->
  equal_runs b s -> (2 ^ N.of_nat b < u)%N ->
  exists t t' t'', level_build il s u = Ok t /\ level_encodeRuns t = Ok t' /\
    level_encodeRuns t' = Ok t'' /\ level_decode t'' v = Ok (v ++ block_starts b s).
Proof.
  intros il u s v b Hu Hne Hs Hb (Hb2 & Heq & Hno) Hbu.
  destruct (level_built il u s Hu Hne Hs Hb) as (h & t & Ht & Hh & Hp & L & Hpl & Hr & He & E).
  set (T0 := tree_of unit_leaf 0 h s) in *.
  assert (W0 : wf h T0) by apply tree_of_wf.
  destruct (level_encodeRuns_spec _ _ _ L Hpl) as (t' & Ht' & L' & Hr' & Em & He' & _).
  assert (W : wf h (ucompress T0)) by (apply compress_wf; auto).
  assert (E' : sel umem h (ucompress T0) 0 = s) by (rewrite ucompress_sel; auto).
  assert (Hbh : b < h).
  { fold (pow2 b) in Hbu. destruct (Nat.lt_ge_cases b h) as [|G]; auto. exfalso.
    assert (P : (pow2 h <= pow2 b)%N) by (unfold pow2; apply N.pow_le_mono_r; lia). lia. }
  set (LL := h - b).
  assert (Above : forall i, i < LL -> ~ In Full (F (ucompress T0) i)).
  { intros i Hi Hf. destruct (node_member h s ltac:(lia) W E' i Full ltac:(lia) Hf) as (x & Hx & R).
    apply (run_at h s ltac:(lia) W E' i x) in R; auto; [|lia].
    apply (Hno x). apply (block_full_mono s (S b) (Nat.max 2 (h - i))); auto. lia. }
  assert (All : forall x, In x (F (ucompress T0) LL) -> x = Full).
  { intros n Hn. destruct (node_member h s ltac:(lia) W E' LL n ltac:(lia) Hn) as (x & Hx & R).
    assert (R' : runat 0 LL h (ucompress T0) x = true).
    { apply (run_at h s ltac:(lia) W E' LL x); auto; [lia|]. replace (Nat.max 2 (h - LL)) with b by lia. auto. }
    change (runat 0 LL h (bin_tree h true s) x = true) in R'.
    rewrite R' in R. destruct n; try discriminate. auto. }
  assert (HF : In Full (F (ucompress T0) LL)).
  { assert (Hx : exists x, In x s) by (clear - Hne; destruct s as [|x s']; [congruence|exists x; left; auto]).
    destruct Hx as (x & Hx).
    assert (R' : runat 0 LL h (ucompress T0) x = true).
    { apply (run_at h s ltac:(lia) W E' LL x); auto; [lia|]. replace (Nat.max 2 (h - LL)) with b by lia. auto. }
    apply runat_F in R'. destruct R' as (i & Hi & Hf). destruct (Nat.eq_dec i LL) as [->|]; auto.
    exfalso. apply (Above i); auto. lia. }
  destruct (nlev_L (ucompress T0) h LL W ltac:(lia) Above HF) as (_ & N). destruct N as (_ & N). specialize (N All).
  assert (Hset : settled ufull true (ucompress T0)) by (apply compress_settled; auto).
  assert (Hdeep : deep true h (ucompress T0)) by (apply compress_deep; auto).
  exists t, t'. eexists. split; [auto|]. split; [auto|]. split; [apply (level_again t' h _ L' Hset Hdeep)|].
  rewrite (level_twice_starts (ucompress T0) h) with (L := LL) (b := b); cbn [l_bTrie l_rank l_height_with_runs l_runs_encoded l_empty_trie]; auto; try lia; try congruence.
  - rewrite E'. reflexivity.
  - apply (band_F LL _ h); auto. lia.
Qed.

Theorem level_twice_lost : forall il u s v,
  (2 <= u <= 2 ^ 48)%N -> s <> [] -> increasing s -> below u s ->
  (exists x, block_full s 2 x) -> (forall b, equal_runs b s -> (u <= 2 ^ N.of_nat b)%N) ->
  exists t t' t'', level_build il s u = Ok t /\ level_encodeRuns t = Ok t' /\
    level_encodeRuns t' = Ok t'' /\ level_decode t'' v = UB OutOfBounds.
Proof.
  intros il u s v Hu Hne Hs Hb Hrun Hno.
  destruct (level_built_digits il u s Hu Hne Hs Hb) as (t0 & Ht0 & Hd1 & Hdp & Ld & _ & _).
  destruct (level_built il u s Hu Hne Hs Hb) as (h & t & Ht & Hh & Hp & L & Hpl & Hr & He & E).
  rewrite Ht in Ht0. injection Ht0 as <-.
  assert (Ehd : h = digits u).
  { apply level_height in L, Ld. congruence. }
  clear Ld. set (T0 := tree_of unit_leaf 0 h s) in *.
  assert (W0 : wf h T0) by apply tree_of_wf.
  destruct (level_encodeRuns_spec _ _ _ L Hpl) as (t' & Ht' & L' & Hr' & Em & He' & _).
  assert (W : wf h (ucompress T0)) by (apply compress_wf; auto).
  assert (E' : sel umem h (ucompress T0) 0 = s) by (rewrite ucompress_sel; auto).
  assert (H2 : 2 <= h).
  { destruct Hrun as (x & Hx). apply (some_run_high h s x); auto. intros y Hy. apply (in_lt h s E'); auto. }
  destruct (first_run h s ltac:(lia) (run_found h s ltac:(lia) W E' Hrun)) as (LL & HL & HF & Above).
  change (bin_tree h true s) with (ucompress T0) in HF, Above.
  assert (Hset : settled ufull true (ucompress T0)) by (apply compress_settled; auto).
  assert (Hdeep : deep true h (ucompress T0)) by (apply compress_deep; auto).
  exists t, t'. eexists. split; [auto|]. split; [auto|]. split; [apply (level_again t' h _ L' Hset Hdeep)|].
  destruct (nlev_L (ucompress T0) h LL W ltac:(lia) Above HF) as (NL & N).
  assert (Hst : LL < S (nlev (ucompress T0) - 1)).
  { destruct (Nat.eq_dec LL 0) as [->|N0]; [lia|].
    destruct (Nat.eq_dec (nlev (ucompress T0)) LL) as [EN|]; [|lia]. exfalso.
    assert (All := proj1 N EN).
    assert (Bd : band LL (ucompress T0)) by (apply (band_F LL _ h); auto; lia).
    assert (NoBig : forall x, ~ block_full s (S (h - LL)) x).
    { intros x Hx. assert (Hin := block_full_In _ _ _ Hx).
      assert (R : runat 0 (LL - 1) h (ucompress T0) x = true).
      { apply (run_at h s ltac:(lia) W E' (LL - 1) x); auto; [lia|].
        replace (Nat.max 2 (h - (LL - 1))) with (S (h - LL)) by lia. auto. }
      apply runat_F in R. destruct R as (i & Hi & Hf). apply (Above i); auto. lia. }
    assert (Blk : forall x, In x s -> block_full s (Nat.max 2 (h - LL)) x).
    { intros x Hx. apply (run_at h s ltac:(lia) W E' LL x); auto.
      apply band_runat; auto. apply (sel_In _ _ _ _ _ E') in Hx. tauto. }
    destruct (node_member h s ltac:(lia) W E' LL Full ltac:(lia) HF) as (x & Hx & _).
    assert (Hb2 : 2 <= h - LL).
    { destruct (Nat.eq_dec (h - LL) 1) as [E1|]; [|lia]. exfalso.
      apply (NoBig x). rewrite E1. specialize (Blk x Hx). rewrite E1 in Blk. exact Blk. }
    replace (Nat.max 2 (h - LL)) with (h - LL) in Blk by lia.
    assert (Big := Hno (h - LL) (conj Hb2 (conj Blk NoBig))).
    assert (G := N.log2_up_spec u ltac:(lia)). destruct G as (G & _).
    assert (P : (2 ^ N.of_nat (h - LL) <= 2 ^ N.pred (N.log2_up u))%N).
    { apply N.pow_le_mono_r; [lia|]. unfold digits in Ehd. lia. }
    lia. }
  apply (level_twice_out (ucompress T0) h) with (L := LL);
    cbn [l_bTrie l_rank l_height_with_runs l_runs_encoded l_empty_trie]; auto; try lia; try congruence.
Qed.

(** * Flat tries *)

Lemma nlev_deep : forall (t : tree unit) d, wf d t -> deep true d t -> nodelev t = d -> nlev t = d.
Proof.
  induction t as [a| |t IH|t IH|l IHl r IHr]; intros d W D N; cbn [wf deep nodelev nlev] in *; auto.
  - specialize (D eq_refl). lia.
  - rewrite (IH (pred d)); auto; try lia. apply W.
  - rewrite (IH (pred d)); auto; try lia. apply W.
  - destruct W as (H0 & W1 & W2), D as (D1 & D2).
    assert (B1 := nlev_le _ l _ W1). assert (B2 := nlev_le _ r _ W2).
    assert (C1 := nodelev_le _ l _ W1). assert (C2 := nodelev_le _ r _ W2).
    destruct (Nat.eq_dec (nodelev l) (pred d)) as [E|E].
    + rewrite (IHl _ W1 D1 E). lia.
    + rewrite (IHr (pred d) W2 D2) by lia. lia.
Qed.

Theorem flat_twice_lost : forall u s v,
  (3 <= u <= 2 ^ 48)%N -> s <> [] -> increasing s -> below u s -> shorter 32 s ->
  mixed_block s -> (exists x, block_full s 2 x) ->
  exists t t' t'', flat_build s u = Ok t /\ flat_encodeRuns t = Ok t' /\
    flat_encodeRuns t' = Ok t'' /\ flat_decode t'' v = UB OutOfBounds.
Proof.
  intros u s v Hu Hne Hs Hb Hl Hm Hrun.
  destruct (flat_built u s Hu Hne Hs Hb Hl) as (h & t & Ht & Hh & Hp & L & Hpl & Hr & He & E).
  set (T0 := tree_of unit_leaf 0 h s) in *.
  assert (W0 : wf h T0) by apply tree_of_wf.
  assert (W : wf h (ucompress T0)) by (apply compress_wf; auto).
  assert (E' : sel umem h (ucompress T0) 0 = s) by (rewrite ucompress_sel; auto).
  assert (Em : nodelev (ucompress T0) = h).
  { apply (deep_iff T0 h 0); auto using aligned_0; try lia.
    apply (mixed_block_iff u h s); auto. lia. }
  destruct (flat_layout_runs t h T0 L Hpl Em) as (t' & Ht' & L' & Hr' & He').
  assert (Hset : settled ufull true (ucompress T0)) by (apply compress_settled; auto).
  assert (Hdeep : deep true h (ucompress T0)) by (apply compress_deep; auto).
  assert (En := nlev_deep _ _ W Hdeep Em).
  exists t, t'. eexists. split; [auto|]. split; [auto|].
  split; [apply (flat_again t' h _ L' Hset Hdeep); lia|]. rewrite En.
  apply (flat_twice_decode (ucompress T0) h); cbn [f_height f_bTrie f_lastLevel f_rank f_runs_encoded f_empty_trie];
    auto; try lia; try congruence.
  - apply pre_kept.
  - apply nbits_nf.
  - intros P. destruct (run_found h s ltac:(lia) W E' Hrun) as (i & Hi & Hf).
    destruct Hrun as (x & Hx).
    assert (R : runat 0 (h - 1) h (ucompress T0) x = true).
    { apply (run_at h s ltac:(lia) W E' (h - 1) x); [lia|apply (block_full_In _ _ _ Hx)|].
      replace (Nat.max 2 (h - (h - 1))) with 2 by lia. auto. }
    rewrite runat_plain in R; auto. discriminate.
Qed.

Theorem flat_twice_blocks : forall u s,
  (3 <= u <= 2 ^ 48)%N -> s <> [] -> increasing s -> below u s -> shorter 32 s ->
  ~ mixed_block s ->
  exists t t', flat_build s u = Ok t /\ flat_encodeRuns t = Ok t' /\ flat_encodeRuns t' = UB OutOfBounds.
Proof.
  intros u s Hu Hne Hs Hb Hl Hm.
  destruct (flat_built u s Hu Hne Hs Hb Hl) as (h & t & Ht & Hh & Hp & L & Hpl & Hr & He & E).
  set (T := tree_of unit_leaf 0 h s) in *.
  assert (Hwf : wf h T) by apply L.
  assert (Em : nodelev (ucompress T) <> h).
  { intros Em. apply (deep_iff T h 0) in Em; auto using aligned_0; try lia.
    apply (mixed_block_iff u h s) in Em; auto. lia. }
  destruct (ucompress_nodelev T h Hwf ltac:(lia)).
  exists t. eexists. split; [auto|]. split; [apply (flat_encodeRuns_spec t h T L Hpl)|].
  apply (lost_encode (ucompress T) h); cbn; auto; try lia.
  - apply compress_wf; auto.
  - apply compress_settled; auto.
  - apply compress_deep; auto.
Qed.

(** * Fast tries *)

Lemma all_leaves_list : forall A (P : A -> Prop) (t : tree A), all_leaves P t -> Forall P (leaves t).
Proof.
  induction t as [a| |t IH|t IH|l IHl r IHr]; cbn [all_leaves leaves]; intros H; auto.
  apply Forall_app. split; tauto.
Qed.

Lemma plain_or_run : forall A lg (t : tree A) d p, wf d t -> aligned (d + lg) p ->
  plain t \/ 1 <= d /\ exists x, (p <= x < p + pow2 (d + lg))%N /\ runat lg (d - 1) d t x = true.
Proof.
  induction t as [a| |t IH|t IH|l IHl r IHr]; intros d p W Ha; cbn [wf plain] in *; auto.
  - right. split; [lia|]. exists p. assert (X := pow2_pos (d + lg)). split; [lia|]. destruct (d - 1); reflexivity.
  - destruct W as (H0 & W). destruct d as [|d]; [lia|]. cbn [pred Nat.add] in *.
    destruct (IH d p W (aligned_S _ _ Ha)) as [|(Hd & x & Hx & R)]; auto. right. split; [lia|]. exists x.
    rewrite pow2_S. split; [lia|]. replace (S d - 1) with (S (d - 1)) by lia. cbn [runat pred].
    rewrite (testbit_left (d + lg) p) by (auto; lia). auto.
  - destruct W as (H0 & W). destruct d as [|d]; [lia|]. cbn [pred Nat.add] in *.
    destruct (IH d _ W (aligned_right _ _ Ha)) as [|(Hd & x & Hx & R)]; auto. right. split; [lia|]. exists x.
    rewrite pow2_S. split; [lia|]. replace (S d - 1) with (S (d - 1)) by lia. cbn [runat pred].
    rewrite (testbit_right (d + lg) p) by (auto; rewrite pow2_S; lia). auto.
  - destruct W as (H0 & W1 & W2). destruct d as [|d]; [lia|]. cbn [pred Nat.add] in *.
    destruct (IHl d p W1 (aligned_S _ _ Ha)) as [|(Hd & x & Hx & R)].
    + destruct (IHr d _ W2 (aligned_right _ _ Ha)) as [|(Hd & x & Hx & R)]; auto. right. split; [lia|]. exists x.
      rewrite pow2_S. split; [lia|]. replace (S d - 1) with (S (d - 1)) by lia. cbn [runat pred].
      rewrite (testbit_right (d + lg) p) by (auto; rewrite pow2_S; lia). auto.
    + right. split; [lia|]. exists x.
      rewrite pow2_S. split; [lia|]. replace (S d - 1) with (S (d - 1)) by lia. cbn [runat pred].
      rewrite (testbit_left (d + lg) p) by (auto; lia). auto.
Qed.

Lemma compress_plain_id : forall A lfull keep (t : tree A), plain t -> plain (compress lfull keep t) ->
  compress lfull keep t = t.
Proof.
  induction t as [a| |t IH|t IH|l IHl r IHr]; cbn [plain compress]; intros P Q; auto.
  - f_equal. auto.
  - f_equal. auto.
  - destruct (_ && _)%bool; [destruct Q|]. cbn [plain] in Q. f_equal; [apply IHl|apply IHr]; tauto.
Qed.

Lemma big_block : forall d lw s x, (forall y, In y s -> (y < pow2 (d + lw))%N) -> block_full s (S lw) x -> 1 <= d.
Proof.
  intros d lw s x Hb H. destruct d as [|d]; [|lia]. exfalso. cbn [Nat.add] in Hb.
  assert (P := pow2_pos lw).
  assert (I : In (x / pow2 (S lw) * pow2 (S lw) + pow2 lw)%N s).
  { apply H. fold (pow2 (S lw)). rewrite N.div_add_l by (rewrite pow2_S; lia).
    rewrite (N.div_small (pow2 lw)) by (rewrite pow2_S; lia). lia. }
  apply Hb in I. revert I. generalize (x / pow2 (S lw) * pow2 (S lw))%N. lia.
Qed.

Theorem fast_twice_lost : forall lw jh u s v, In lw [3; 4; 5; 6] ->
  (2 ^ N.of_nat lw < 2 * u <= 2 * 2 ^ 48)%N ->
  s <> [] -> increasing s -> below u s -> shorter 32 s ->
  (exists x, block_full s (S lw) x) ->
  exists t t' t'', fast_build lw jh (Some false) s u = Ok t /\ fast_encodeRuns t = Ok t' /\
    fast_encodeRuns t' = Ok t'' /\ fast_decode t'' v = UB OutOfBounds.
Proof.
  intros lw jh u s v Hlw Hu Hne Hs Hb Hl (x & Hx).
  destruct (fast_built lw jh (Some false) u s Hlw Hu Hne Hs Hb Hl)
    as (d & t & Ht & Hd & Hp & L & Hpl & Hr & He & E1 & E2 & Hal & E).
  assert (Hxh : x_height t = S d) by apply L.
  destruct (fast_encodeRuns_spec t _ ltac:(rewrite Hxh; exact L) Hpl) as (t' & Ht' & L' & F1 & F2 & F3 & F4).
  rewrite Hxh, E1 in *. set (T0 := tree_of (word_of lw) lw d s) in *.
  assert (W : wf d (xcompress lw T0)) by (apply compress_wf, tree_of_wf).
  assert (E' : sel (wmem lw) (d + lw) (xcompress lw T0) 0 = s) by (rewrite xcompress_sel; auto).
  assert (Hin : forall y, In y s -> (y < pow2 (d + lw))%N).
  { intros y Hy. apply (sel_In _ _ _ _ _ E') in Hy. tauto. }
  assert (Hd1 := big_block d lw s x Hin Hx).
  assert (NP : ~ plain (xcompress lw T0)).
  { intros P. assert (R : runat lw (d - 1) d (xcompress lw T0) x = true).
    { apply (fast_runat lw d true s (d - 1) x W E'); [lia|apply Hin, (block_full_In _ _ _ Hx)|].
      split; auto. replace (d + lw - (d - 1)) with (S lw) by lia. auto. }
    rewrite runat_plain in R; auto. discriminate. }
  assert (Hx' : x_height t' = S d) by apply L'.
  assert (Hset : settled (xfull (x_lw t')) false (xcompress lw T0)) by (rewrite F1; apply compress_settled; auto).
  destruct (fast_again t' (S d) (xcompress lw T0) L' Hx' Hset) as (k & Ht'').
  exists t, t'. eexists. split; [auto|]. split; [auto|]. split; [exact Ht''|].
  apply (fast_twice_decode (xcompress lw T0) (S d) lw);
    cbn [x_height x_bTrie x_lastLevel x_rank x_runs_encoded x_empty_trie x_lw x_height_u];
    rewrite ?Nat.sub_succ, ?Nat.sub_0_r; auto; try lia; try congruence.
  - apply pre_kept.
  - unfold F. rewrite (leaves_level _ _ d W), map_length. auto.
  - apply all_leaves_list, all_leaves_compress. auto.
  - apply In_lw; auto.
Qed.

Theorem fast_twice_none : forall lw jh u s v, In lw [3; 4; 5; 6] ->
  (2 ^ N.of_nat lw < 2 * u <= 2 * 2 ^ 48)%N ->
  s <> [] -> increasing s -> below u s -> shorter 32 s ->
  (forall x, ~ block_full s (S lw) x) ->
  exists t t' t'', fast_build lw jh (Some false) s u = Ok t /\ fast_encodeRuns t = Ok t' /\
    fast_encodeRuns t' = Ok t'' /\ fast_decode t'' v = Ok (v ++ s).
Proof.
  intros lw jh u s v Hlw Hu Hne Hs Hb Hl Hno.
  destruct (fast_built lw jh (Some false) u s Hlw Hu Hne Hs Hb Hl)
    as (d & t & Ht & Hd & Hp & L & Hpl & Hr & He & E1 & E2 & Hal & E).
  assert (Hxh : x_height t = S d) by apply L.
  destruct (fast_encodeRuns_spec t _ ltac:(rewrite Hxh; exact L) Hpl) as (t' & Ht' & L' & F1 & F2 & F3 & F4).
  rewrite Hxh, E1 in *. set (T0 := tree_of (word_of lw) lw d s) in *.
  assert (W : wf d (xcompress lw T0)) by (apply compress_wf, tree_of_wf).
  assert (E' : sel (wmem lw) (d + lw) (xcompress lw T0) 0 = s) by (rewrite xcompress_sel; auto).
  assert (EC : xcompress lw T0 = T0).
  { apply compress_plain_id; auto.
    destruct (plain_or_run N lw (xcompress lw T0) d 0 W (aligned_0 _)) as [|(Hd1 & x & Hx & R)]; auto.
    exfalso. apply (fast_runat lw d true s (d - 1) x W E') in R; [|lia|lia].
    destruct R as (_ & R). replace (d + lw - (d - 1)) with (S lw) in R by lia. apply (Hno x). auto. }
  rewrite EC in *.
  assert (Hx' : x_height t' = S d) by apply L'.
  destruct (fast_encodeRuns_spec t' T0 ltac:(rewrite Hx'; exact L') Hpl) as (t'' & Ht'' & L'' & G1 & G2 & G3 & G4).
  rewrite Hx', F1, EC in *.
  exists t, t', t''. split; [auto|]. split; [auto|]. split; [auto|].
  rewrite (fast_decode_runs t'' lw d _ v L''); auto; try congruence; try lia.
  apply In_lw; auto.
Qed.

Lemma runs_twice_exact_example :
  let s := [0; 1; 2; 3; 8; 9; 10; 11]%N in
  let r := [0; 1; 2; 3; 4; 5; 6; 7; 8; 9; 10; 11; 12; 13; 14; 15; 40; 47]%N in
  let q := [0; 1; 2; 3; 4; 5; 6; 7; 9; 10; 11; 12; 13; 14; 15; 40; 47]%N in
  (equal_runs 2 s /\ block_starts 2 s = [0; 8]%N /\ ~ mixed_block s /\
   (let* t := level_build true s 16 in let* t' := level_encodeRuns t in
    let* t'' := level_encodeRuns t' in level_decode t'' []) = Ok [0; 8]%N) /\
  (block_full [0; 1; 2; 3; 9]%N 2 0%N /\ (forall b, ~ equal_runs b [0; 1; 2; 3; 9]%N) /\
   mixed_block [0; 1; 2; 3; 9]%N) /\
  block_full r 4 0%N /\
  ((forall x, ~ block_full q 4 x) /\
   (let* t := fast_build 3 None (Some false) q 64 in let* t' := fast_encodeRuns t in
    let* t'' := fast_encodeRuns t' in fast_decode t'' []) = Ok q).
Proof.
  assert (D : forall x k, (x / 4 = k -> 4 * k <= x < 4 * k + 4)%N).
  { intros x k <-. assert (E := N.div_mod' x 4). assert (M := N.mod_lt x 4 ltac:(lia)). lia. }
  assert (D16 : forall x k, (x / 16 = k -> 16 * k <= x < 16 * k + 16)%N).
  { intros x k <-. assert (E := N.div_mod' x 16). assert (M := N.mod_lt x 16 ltac:(lia)). lia. }
  assert (B2 : forall x, In x [0; 1; 2; 3; 8; 9; 10; 11]%N -> block_full [0; 1; 2; 3; 8; 9; 10; 11]%N 2 x).
  { intros x Hx y Hy. change (2 ^ N.of_nat 2)%N with 4%N in Hy. apply D in Hy.
    cbn [In] in Hx. repeat destruct Hx as [<-|Hx]; try contradiction; cbn in Hy; cbn [In]; lia. }
  cbv zeta. split; [|split; [|split]].
  - split; [|split; [reflexivity|split; [|reflexivity]]].
    + split; [lia|]. split; [exact B2|].
      intros x Hx. assert (I : In (x / 8 * 8 + 4)%N [0; 1; 2; 3; 8; 9; 10; 11]%N).
      { apply Hx. change (2 ^ N.of_nat 3)%N with 8%N. rewrite N.div_add_l by lia. change (4 / 8)%N with 0%N. lia. }
      cbn [In] in I. lia.
    + intros (x & y & Hx & Hy & Exy). apply Hy. apply (B2 x Hx y). change (2 ^ N.of_nat 2)%N with 4%N. auto.
  - split; [|split].
    + intros y Hy. change (2 ^ N.of_nat 2)%N with 4%N in Hy. apply D in Hy. cbn in Hy. cbn [In]. lia.
    + intros b (Hb & H & _). assert (I := H 9%N ltac:(cbn [In]; lia)).
      apply (block_full_mono _ 2 b) in I; auto. assert (J := I 8%N eq_refl). cbn [In] in J. lia.
    + exists 9%N, 8%N. cbn [In]. split; [lia|]. split; [lia|]. reflexivity.
  - intros y Hy. change (2 ^ N.of_nat 4)%N with 16%N in Hy. apply D16 in Hy. cbn in Hy. cbn [In]. lia.
  - split; [|reflexivity]. intros x Hx.
    assert (I : forall k, (k < 16)%N -> In (x / 16 * 16 + k)%N
      [0; 1; 2; 3; 4; 5; 6; 7; 9; 10; 11; 12; 13; 14; 15; 40; 47]%N).
    { intros k Hk. apply Hx. change (2 ^ N.of_nat 4)%N with 16%N. rewrite N.div_add_l, (N.div_small k) by lia. lia. }
    assert (I8 := I 8%N ltac:(lia)). assert (I0 := I 0%N ltac:(lia)). clear I. cbn [In] in I8, I0. lia.
Qed.
