(** How many arrays a parallel call leaves allocated. *)

From Coq Require Import Permutation.
From Verif Require Import Base FlatTrie LevelTrie FastTrie ParallelFor Intersection Tries Facts Tree
  Groups Reps Layout BuildFlat BuildLevel BuildFast WordBits Spec RoundTrip RoundTripFacts
  Compress CompressFast RunsFacts RunsThms SpecTries SpecLost SpecMeasures SpecCalls
  InterSpec InterSeq ParFacts InterPar InterPlan InterTop InterInst InterTight InterMain InterThms InterLost
  CallsThms CallsMain InterExact.

(** Over tries without runs the two plans are the same. *)
Section Plain.
  Context {A : Type}.
  Variable Ts : list trie_ops.
  Variable lg D : nat.
  Hypothesis Hn : 1 <= length Ts.
  Notation forest := (forest (A := A)).

  Lemma plains_all_full : forall X : forest, plains Ts X -> all_full Ts X = false.
  Proof.
    intros X H. unfold all_full. apply forallb_seq_false. exists 0. split; [lia|].
    destruct (X 0) as [[]|] eqn:E; auto. exfalso. eapply plains_notfull; eauto.
  Qed.

  Lemma walk_plain : forall c d (X : forest) p, plains Ts X ->
    walk Ts lg false c d X p = walk Ts lg true c d X p /\
    Forall (fun g => plains Ts (fst g)) (snd (walk Ts lg true c d X p)).
  Proof.
    induction c; intros d X p H.
    { destruct d; cbn; auto. }
    destruct d as [|d]; [cbn; auto|]. cbn [walk andb]. rewrite (plains_all_full X H).
    assert (HL : forall q, let b := all_left (length Ts) X in
      (if b then walk Ts lg false c d (lefts X) q else ([], [])) = (if b then walk Ts lg true c d (lefts X) q else ([], [])) /\
      Forall (fun g => plains Ts (fst g)) (snd (if b then walk Ts lg true c d (lefts X) q else ([], [])))).
    { intros q. cbv zeta. destruct (all_left (length Ts) X) eqn:E; [|cbn; auto].
      apply IHc. apply plains_left; auto. }
    assert (HR : forall q, let b := all_right (length Ts) X in
      (if b then walk Ts lg false c d (rights X) q else ([], [])) = (if b then walk Ts lg true c d (rights X) q else ([], [])) /\
      Forall (fun g => plains Ts (fst g)) (snd (if b then walk Ts lg true c d (rights X) q else ([], [])))).
    { intros q. cbv zeta. destruct (all_right (length Ts) X) eqn:E; [|cbn; auto].
      apply IHc. apply plains_right; auto. }
    cbv zeta in HL, HR. cbv zeta.
    destruct (HL p) as (L1 & L2). destruct (HR (p + pow2 (d + lg))%N) as (R1 & R2).
    rewrite L1, R1. split; auto. cbn [snd]. apply Forall_app. auto.
  Qed.

  Lemma expand_plain : forall cut nT (tl : list (ghost A)) made, Forall (fun g => plains Ts (fst g)) tl ->
    expand Ts lg D false cut nT tl made = expand Ts lg D true cut nT tl made.
  Proof.
    intros cut nT. induction tl as [|g tl IH]; intros made H; [reflexivity|].
    apply Forall_cons_iff in H. destruct H as (Hg & H). cbn [expand].
    destruct (N.ltb 1 _); [|reflexivity].
    destruct (walk_plain 1 (D - cut) (fst g) (snd g) Hg) as (E & _). rewrite E, IH by auto. reflexivity.
  Qed.

  Lemma divided_plain : forall cut nT (X : forest), plains Ts X ->
    plan_divided Ts lg D false cut nT X = plan_divided Ts lg D true cut nT X.
  Proof.
    intros cut nT X H. unfold plan_divided. destruct (walk_plain cut D X 0%N H) as (E & F).
    cbv zeta. rewrite E, expand_plain by auto. reflexivity.
  Qed.
End Plain.

Theorem bin_leak : forall (u : N) (l : list bitem) runs hc s1 s2,
  (3 <= u <= 2 ^ 48)%N -> 1 <= length l <= 16 -> Forall (bitem_ok u) l ->
  (runs = false -> Forall (fun x : bitem => snd (fst x) = false) l) ->
  (1 <= hc < 2 ^ 16)%N -> valid_scheduler s1 -> valid_scheduler s2 ->
  exists Ts r m, each_ok (make_bitem u) l = Ok Ts /\
    Intersect_mem Bin s1 s2 hc (map bin_ops Ts) runs true = Ok (r, m) /\
    ((rounded u < 4 * 2 ^ N.log2 hc)%N -> m_next m = 0 /\ m_freed m = []) /\
    ((4 * 2 ^ N.log2 hc <= rounded u)%N ->
     leaves (thread_block u hc) (N.to_nat (2 ^ N.log2 hc)) (map b_part l) runs m).
Proof.
  intros u l runs hc s1 s2 Hu Hn Hl He Hhc V1 V2.
  destruct (bin_family_runs u l ltac:(lia) Hl) as (h & Ts & ts & H1 & Hp & H2 & Hh & E & HR & HS & HB).
  specialize (H2 ltac:(lia)).
  assert (Ln : length (map bin_ops Ts) = length l).
  { rewrite (Forall2_length HR), (Forall2_length HS), map_length. auto. }
  assert (Hpl : runs = false -> Forall plain ts).
  { intros Hr. specialize (He Hr). clear - He HB. revert He. induction HB; intros He; auto.
    apply Forall_cons_iff in He. destruct He as (E1 & He). constructor; auto. apply H; auto. }
  assert (OK : okf (map bin_ops Ts) (leafok lok_bin (map bin_ops Ts)) true h 0 init_roots (forest_of ts))
    by (eapply inst_okf; eauto; lia).
  assert (SM : somes (map bin_ops Ts) (forest_of ts)) by (eapply inst_somes; eauto).
  assert (HH : forall T, In T (map bin_ops Ts) -> t_height T = h) by (eapply inst_heights; eauto).
  assert (PL : runs = false -> plains (map bin_ops Ts) (forest_of ts)).
  { intros Hr. eapply inst_plains; eauto. }
  assert (Hbr : (4 * 2 ^ N.log2 hc <= rounded u)%N <-> par_branch h hc true = true).
  { rewrite (height_rounded u h) by (auto; lia). unfold par_branch. cbn [andb].
    replace (h <? 2) with false by (symmetry; apply Nat.ltb_ge; lia). cbn [orb]. rewrite Nat.leb_le.
    change 4%N with (2 ^ 2)%N. rewrite <- N.pow_add_r. unfold pow2.
    rewrite <- N.pow_le_mono_r_iff by lia. lia. }
  destruct (hc_threads hc ltac:(lia) ltac:(lia)) as (H15 & H3 & _).
  destruct (par_branch h hc true) eqn:Hb.
  - destruct (bin_cut h H1 hc ltac:(lia) ltac:(lia) ltac:(lia) true Hb) as (C1 & C2).
    destruct (par_intersect Bin (map bin_ops Ts) h umem 0 h (leafok lok_bin (map bin_ops Ts)) true ltac:(lia) ltac:(lia)
               (bin_end h) (bin_tot h) ltac:(lia) ltac:(lia) (bin_last h) (bin_leaf h (map bin_ops Ts)) runs
               (forest_of ts)) with (hc := hc) (s1 := s1) (s2 := s2) (parallel := true)
      as (r & m & Er & _ & _ & _ & _ & _ & _ & Em); auto; try lia.
    exists Ts, r, m. split; auto. split; auto. split; [lia|]. intros _.
    assert (Hcut : S (N.to_nat (N.log2 hc)) <= pred h).
    { unfold par_branch in Hb. cbn [andb] in Hb. apply orb_prop in Hb.
      destruct Hb as [Hb|Hb]; [apply Nat.ltb_lt in Hb; lia|]. apply Nat.leb_le in Hb. lia. }
    assert (HF : Forall2 (stands ufull umem 0 h (pred h)) ts (map b_part l)).
    { apply Forall2_map_both. apply Forall2_unmap_r in HS.
      assert (HW : forall t, In t ts -> wf h t).
      { intros t Ht. apply In_nth_error in Ht. destruct Ht as (i & Ei).
        apply Forall2_flip in HR. destruct (Forall2_nth _ _ _ _ _ _ _ HR Ei) as (o & _ & (_ & W & _)). auto. }
      eapply Forall2_impl; [|exact (Forall2_in_l _ _ _ _ _ _ HW (Forall2_and _ _ _ _ _ _ HS HB))].
      cbn. intros t x (W & Hsel & Hf & Ht). split; auto. split; auto. split; auto.
      intros Hx. split; [apply Ht; auto|apply unit_gaps]. }
    assert (HI : Forall (inhabited 0 umem) ts) by (apply Forall_forall; intros t _; apply unit_inhabited).
    assert (EX := divided_sets ufull umem 0 h (pred h) ltac:(lia) (map bin_ops Ts) ts (map b_part l) ltac:(lia)
                    (Forall2_length HR) HF HI _ Hcut (2 ^ N.log2 hc)%N).
    rewrite Nat.add_0_r in EX. rewrite (thread_block_pow2 u h hc) by (auto; lia).
    destruct EX as (qs & es & rest & Q1 & Q2 & Q3 & Q4). exists qs, es, rest.
    split; auto. split; auto. split; auto. rewrite Em. unfold per_task. destruct runs.
    + rewrite Q4. auto.
    + rewrite divided_plain by (auto; lia). rewrite Q4. auto.
  - exists Ts, (inter umem 0 (length (map bin_ops Ts)) h (forest_of ts) 0%N), (mkMem 0 []). split; auto. split.
    + apply (seq_intersect Bin (map bin_ops Ts) h umem 0 h (leafok lok_bin (map bin_ops Ts)) true ltac:(lia) ltac:(lia)
               (bin_end h) (bin_tot h) ltac:(lia) ltac:(lia) (bin_last h) (bin_leaf h (map bin_ops Ts)) runs); auto; lia.
    + split; [auto|]. intros H4. apply Hbr in H4. discriminate.
Qed.

Theorem fast_leak : forall (u : N) (lw : nat) (l : list fitem) runs hc s1 s2,
  fast_universe u lw -> (2 ^ N.of_nat lw < u)%N -> 1 <= length l <= 16 -> Forall (fitem_ok u) l ->
  (runs = false -> Forall (fun x => f_enc x = false) l) ->
  (1 <= hc < 2 ^ 16)%N -> valid_scheduler s1 -> valid_scheduler s2 ->
  exists Ts r m, each_ok (make_fitem u lw) l = Ok Ts /\
    Intersect_mem (Fast lw) s1 s2 hc (map fast_ops Ts) runs true = Ok (r, m) /\
    ((rounded u < 2 * 2 ^ N.of_nat lw * 2 ^ N.log2 hc)%N -> m_next m = 0 /\ m_freed m = []) /\
    ((2 * 2 ^ N.of_nat lw * 2 ^ N.log2 hc <= rounded u)%N ->
     leaves (thread_block u hc) (N.to_nat (2 ^ N.log2 hc)) (map f_part l) runs m).
Proof.
  intros u lw l runs hc s1 s2 (Hlw & Hu) Hbig Hn Hl He Hhc V1 V2.
  assert (H8 : (2 ^ N.of_nat 3 <= 2 ^ N.of_nat lw)%N).
  { apply N.pow_le_mono_r; [lia|]. cbn in Hlw. lia. }
  change (2 ^ N.of_nat 3)%N with 8%N in H8.
  destruct (height_of_spec u ltac:(lia)) as (h & Hh & H1 & Hp & H2 & Hk).
  assert (Hlh : lw < h).
  { apply Hk. exact Hbig. }
  assert (H6 : lw <= 6) by (cbn in Hlw; lia).
  assert (Eh : h - lw + lw = h) by lia. assert (Hd : 1 <= h - lw) by lia. set (d := h - lw) in *.
  destruct (each_ok_spec _ _ (make_fitem u lw) (fun x t => exists T, T = fast_tree lw d (f_enc x) (snd x) /\
    repr lok_fast d (S d) (fast_ops t) T /\ sel (wmem lw) (d + lw) T 0 = snd x /\ snd x <> []) l) as (Ts & E & HT).
  { eapply Forall_impl; [|exact Hl]. intros [[[jh je] e] s] Hx.
    destruct (fast_make_tree u h lw jh je e s Hh H6 ltac:(lia) ltac:(lia) Hp Hx) as (t & ? & ? & ?). exists t. split; auto.
    destruct Hx as (Hne & _). eauto 6. }
  apply Forall2_split in HT. destruct HT as (ts & HA & HB).
  assert (HR : Forall2 (repr lok_fast d (S d)) (map fast_ops Ts) ts).
  { apply Forall2_map_l. eapply Forall2_impl; [|exact HA]. cbn. intros t T (x & _ & _ & ? & _). auto. }
  assert (HF : Forall2 (stands (xfull lw) (wmem lw) lw d d) ts (map f_part l)).
  { apply Forall2_map_both. eapply Forall2_impl; [|exact HB]. cbn. intros T x (t & -> & (_ & W & _) & Es & Hne).
    split; auto. split; auto. unfold f_part. cbn [fst]. unfold fast_tree in *. split; intros Hx; rewrite Hx in *.
    - apply tree_of_plain.
    - split; [|apply words_gaps]. apply (compress_tight (xfull lw) false _ d); auto; [|discriminate]. apply tree_of_wf. }
  assert (HI : Forall (inhabited lw (wmem lw)) ts).
  { apply Forall_forall. intros T HTi. apply In_nth_error in HTi. destruct HTi as (i & Ei).
    destruct (Forall2_nth _ _ _ _ _ _ _ HB Ei) as (x & Ex & (t & -> & _ & _ & Hne)). apply fast_inhabited; auto. }
  assert (Ln : length (map fast_ops Ts) = length l).
  { rewrite (Forall2_length HR), (Forall2_length HF), map_length. auto. }
  assert (Hpl : runs = false -> Forall plain ts).
  { intros Hr. specialize (He Hr). clear - He HB. revert He. induction HB; intros He; auto.
    apply Forall_cons_iff in He. destruct He as (E1 & He). constructor; auto.
    destruct H as (t & -> & _). rewrite E1. apply tree_of_plain. }
  assert (OK : okf (map fast_ops Ts) (leafok lok_fast (map fast_ops Ts)) false d 0 init_roots (forest_of ts))
    by (eapply inst_okf; eauto; lia).
  assert (SM : somes (map fast_ops Ts) (forest_of ts)) by (eapply inst_somes; eauto).
  assert (HH : forall T, In T (map fast_ops Ts) -> t_height T = S d) by (eapply inst_heights; eauto).
  assert (PL : runs = false -> plains (map fast_ops Ts) (forest_of ts)).
  { intros Hr. eapply inst_plains; eauto. }
  assert (Hbr : (2 * 2 ^ N.of_nat lw * 2 ^ N.log2 hc <= rounded u)%N <-> par_branch (S d) hc true = true).
  { rewrite (height_rounded u h) by (auto; lia). unfold par_branch. cbn [andb].
    replace (S d <? 2) with false by (symmetry; apply Nat.ltb_ge; lia). cbn [orb]. rewrite Nat.leb_le.
    rewrite <- N.pow_succ_r', <- N.pow_add_r. unfold pow2. rewrite <- N.pow_le_mono_r_iff by lia. lia. }
  destruct (hc_threads hc ltac:(lia) ltac:(lia)) as (H15 & H3 & _).
  destruct (par_branch (S d) hc true) eqn:Hb.
  - destruct (fast_cut d hc ltac:(lia) true Hb) as (C1 & C2).
    destruct (par_intersect (Fast lw) (map fast_ops Ts) (S d) (wmem lw) lw d (leafok lok_fast (map fast_ops Ts)) false
               ltac:(lia) ltac:(lia)
               (fast_end lw d) (fast_tot lw d) ltac:(lia) ltac:(lia) (fast_last d)
               (fast_leaf lw d H6 (map fast_ops Ts)) runs
               (forest_of ts)) with (hc := hc) (s1 := s1) (s2 := s2) (parallel := true)
      as (r & m & Er & _ & _ & _ & _ & _ & _ & Em); auto; try lia.
    exists Ts, r, m. split; auto. split; auto. split; [lia|]. intros _.
    assert (Hcut : S (N.to_nat (N.log2 hc)) <= d).
    { unfold par_branch in Hb. cbn [andb] in Hb. apply orb_prop in Hb.
      destruct Hb as [Hb|Hb]; [apply Nat.ltb_lt in Hb; lia|]. apply Nat.leb_le in Hb. lia. }
    rewrite (thread_block_pow2 u h hc) by (auto; lia).
    assert (EX := divided_sets (xfull lw) (wmem lw) lw d d ltac:(lia) (map fast_ops Ts) ts (map f_part l) ltac:(lia)
                    (Forall2_length HR) HF HI _ Hcut (2 ^ N.log2 hc)%N).
    replace (d - N.to_nat (N.log2 hc) + lw) with (h - N.to_nat (N.log2 hc)) in EX by lia.
    destruct EX as (qs & es & rest & Q1 & Q2 & Q3 & Q4). exists qs, es, rest.
    split; auto. split; auto. split; auto. rewrite Em. unfold per_task. destruct runs.
    + rewrite Q4. auto.
    + rewrite divided_plain by (auto; lia). rewrite Q4. auto.
  - exists Ts, (inter (wmem lw) lw (length (map fast_ops Ts)) d (forest_of ts) 0%N), (mkMem 0 []). split; auto. split.
    + apply (seq_intersect (Fast lw) (map fast_ops Ts) (S d) (wmem lw) lw d (leafok lok_fast (map fast_ops Ts)) false
               ltac:(lia) ltac:(lia)
               (fast_end lw d) (fast_tot lw d) ltac:(lia) ltac:(lia) (fast_last d)
               (fast_leaf lw d H6 (map fast_ops Ts)) runs); auto; lia.
    + split; [auto|]. intros H4. apply Hbr in H4. discriminate.
Qed.
