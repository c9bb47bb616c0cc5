(** Decoding run-encoded tries, and their sizes. *)

From Verif Require Import Base Split FlatTrie LevelTrie FastTrie Facts Tree Groups Reps Layout
  BuildFlat BuildLevel BuildFast WordBits DecodeFast Spec RoundTrip Compress WriteOnes CompressFast.

(** * Membership is unchanged *)

Lemma ucompress_sel : forall k t p, sel umem k (ucompress t) p = sel umem k t p.
Proof.
  intros. unfold sel. apply filter_ext. intros x. unfold ucompress. apply compress_mem.
  reflexivity.
Qed.

Lemma xcompress_sel : forall lw k t p, sel (wmem lw) k (xcompress lw t) p = sel (wmem lw) k t p.
Proof.
  intros. unfold sel. apply filter_ext. intros x. unfold xcompress. apply compress_mem.
  intros. apply xfull_mem; auto.
Qed.

Lemma testbit_right' : forall k p x,
  aligned (S k) p -> (p + pow2 k <= x < p + 2 * pow2 k)%N -> N.testbit x (N.of_nat k) = true.
Proof. intros. apply (testbit_right k p); auto. rewrite pow2_S. auto. Qed.

(** * When a flat trie keeps its height *)

(** A block of four aligned values holds both members and non-members. *)
Definition mixed_in (p : N) (d : nat) (m : N -> bool) : Prop :=
  exists x y, (p <= x < p + pow2 d)%N /\ (p <= y < p + pow2 d)%N /\
    (x / 4 = y / 4)%N /\ m x = true /\ m y = false.

Lemma same_half : forall d p x y, 3 <= d -> aligned d p ->
  (p <= x < p + pow2 d)%N -> (x / 4 = y / 4)%N ->
  (p <= y < p + pow2 d)%N /\ ((x < p + pow2 (pred d))%N <-> (y < p + pow2 (pred d))%N).
Proof.
  intros d p x y Hd Ha Hx E. apply aligned_ex in Ha. destruct Ha as (q & ->).
  destruct d as [|[|[|d]]]; try lia. cbn [pred]. rewrite !pow2_S in *.
  assert (Ex := N.div_mod' x 4). assert (Ey := N.div_mod' y 4).
  assert (Mx := N.mod_lt x 4). assert (My := N.mod_lt y 4). rewrite E in Ex.
  generalize dependent (y / 4)%N. intros. nia.
Qed.

Lemma same_block : forall p x, aligned 2 p -> (p <= x < p + pow2 2)%N -> (x / 4 = p / 4)%N.
Proof.
  intros p x Ha Hx. apply aligned_ex in Ha. destruct Ha as (q & ->).
  change (pow2 2) with 4%N in *. symmetry.
  rewrite N.div_mul by lia. apply N.div_unique with (r := (x - q * 4)%N); lia.
Qed.

Lemma plain_member : forall t d p, wf d t -> plain t -> aligned d p ->
  exists x, (p <= x < p + pow2 d)%N /\ mem umem d t x = true.
Proof.
  induction t as [a| |t IH|t IH|l IHl r IHr]; intros d p Hwf Hp Ha; cbn in Hwf, Hp.
  - subst. exists p. rewrite pow2_0. split; [lia|]. reflexivity.
  - tauto.
  - destruct Hwf as (Hd & Hwf). destruct d as [|d]; [lia|]. cbn [pred] in *.
    destruct (IH d p Hwf Hp) as (x & Hx & Hm). { apply aligned_S; auto. }
    exists x. rewrite pow2_S. split; [lia|]. cbn [mem pred].
    rewrite (testbit_left d p x) by auto. auto.
  - destruct Hwf as (Hd & Hwf). destruct d as [|d]; [lia|]. cbn [pred] in *.
    destruct (IH d (p + pow2 d)%N Hwf Hp) as (x & Hx & Hm). { apply aligned_right; auto. }
    exists x. rewrite pow2_S. split; [lia|]. cbn [mem pred].
    rewrite (testbit_right' d p x) by (auto; lia). auto.
  - destruct Hwf as (Hd & Hwf & _). destruct d as [|d]; [lia|]. cbn [pred] in *. destruct Hp as (Hp & _).
    destruct (IHl d p Hwf Hp) as (x & Hx & Hm). { apply aligned_S; auto. }
    exists x. rewrite pow2_S. split; [lia|]. cbn [mem pred].
    rewrite (testbit_left d p x) by auto. auto.
Qed.

Lemma not_full_member : forall t d p, wf d t -> plain t -> aligned d p -> ufullt t = false ->
  exists x, (p <= x < p + pow2 d)%N /\ mem umem d t x = false.
Proof.
  induction t as [a| |t IH|t IH|l IHl r IHr]; intros d p Hwf Hp Ha Hf; cbn in Hwf, Hp, Hf; try tauto; try discriminate.
  - destruct d as [|d]; [lia|]. exists (p + pow2 d)%N. assert (G := pow2_pos d). rewrite pow2_S.
    split; [lia|]. cbn [mem pred]. rewrite (testbit_right' d p) by (auto; lia). auto.
  - destruct d as [|d]; [lia|]. exists p. assert (G := pow2_pos d). rewrite pow2_S.
    split; [lia|]. cbn [mem pred]. rewrite (testbit_left d p) by (auto; lia). auto.
  - destruct Hwf as (Hd & W1 & W2), Hp as (P1 & P2). destruct d as [|d]; [lia|]. cbn [pred] in *.
    apply andb_false_iff in Hf. destruct Hf as [Hf|Hf].
    + destruct (IHl d p W1 P1) as (x & Hx & Hm); auto. { apply aligned_S; auto. }
      exists x. rewrite pow2_S. split; [lia|]. cbn [mem pred]. rewrite (testbit_left d p x) by auto. auto.
    + destruct (IHr d (p + pow2 d)%N W2 P2) as (x & Hx & Hm); auto. { apply aligned_right; auto. }
      exists x. rewrite pow2_S. split; [lia|]. cbn [mem pred]. rewrite (testbit_right' d p x) by (auto; lia). auto.
Qed.

Lemma deep_iff : forall t d p, wf d t -> plain t -> 2 <= d -> aligned d p ->
  (nodelev (ucompress t) = d <-> mixed_in p d (mem umem d t)).
Proof.
  induction t as [a| |t IH|t IH|l IHl r IHr]; intros d p Hwf Hp Hd Ha; cbn in Hwf, Hp; try lia; try tauto.
  - destruct Hwf as (_ & Hwf). destruct (Nat.eq_dec d 2) as [->|N2].
    + cbn [pred] in Hwf. split.
      * intros _. destruct (plain_member (TL t) 2 p) as (x & Hx & Mx); cbn; auto.
        destruct (not_full_member (TL t) 2 p) as (y & Hy & My); cbn; auto.
        exists x, y. repeat split; auto; try tauto.
        rewrite (same_block p x), (same_block p y); auto.
      * intros _. unfold ucompress. cbn [compress nodelev].
        assert (E := nodelev_le _ _ _ (compress_wf ufull true t 1 Hwf)).
        destruct (ucompress_nodelev t 1 Hwf ltac:(lia)). unfold ucompress in *. lia.
    + destruct d as [|d]; [lia|]. cbn [pred] in *. unfold ucompress. cbn [compress nodelev].
      fold ucompress. assert (Ad : aligned d p) by (apply aligned_S; auto).
      specialize (IH d p Hwf Hp ltac:(lia) Ad).
      transitivity (nodelev (ucompress t) = d); [unfold ucompress; lia|]. rewrite IH.
      split; intros (x & y & Hx & Hy & E & Mx & My).
      * exists x, y. rewrite pow2_S. cbn [mem pred]. rewrite !(testbit_left d p) by auto.
        repeat split; auto; lia.
      * destruct (same_half (S d) p x y) as (_ & HH); auto; try lia. cbn [pred] in HH.
        cbn [mem pred] in Mx, My. rewrite pow2_S in *.
        destruct (N.lt_ge_cases x (p + pow2 d)) as [L|L].
        -- rewrite (testbit_left d p) in Mx by (auto; lia). apply HH in L as L'.
           rewrite (testbit_left d p) in My by (auto; lia).
           exists x, y. repeat split; auto; lia.
        -- rewrite (testbit_right' d p) in Mx by (auto; lia). discriminate.
  - destruct Hwf as (_ & Hwf). destruct (Nat.eq_dec d 2) as [->|N2].
    + cbn [pred] in Hwf. split.
      * intros _. destruct (plain_member (TR t) 2 p) as (x & Hx & Mx); cbn; auto.
        destruct (not_full_member (TR t) 2 p) as (y & Hy & My); cbn; auto.
        exists x, y. repeat split; auto; try tauto.
        rewrite (same_block p x), (same_block p y); auto.
      * intros _. unfold ucompress. cbn [compress nodelev].
        assert (E := nodelev_le _ _ _ (compress_wf ufull true t 1 Hwf)).
        destruct (ucompress_nodelev t 1 Hwf ltac:(lia)). unfold ucompress in *. lia.
    + destruct d as [|d]; [lia|]. cbn [pred] in *. unfold ucompress. cbn [compress nodelev].
      fold ucompress. assert (Ad : aligned d (p + pow2 d)) by (apply aligned_right; auto).
      specialize (IH d (p + pow2 d)%N Hwf Hp ltac:(lia) Ad).
      transitivity (nodelev (ucompress t) = d); [unfold ucompress; lia|]. rewrite IH.
      split; intros (x & y & Hx & Hy & E & Mx & My).
      * exists x, y. rewrite pow2_S. cbn [mem pred]. rewrite !(testbit_right' d p) by (auto; lia).
        repeat split; auto; lia.
      * destruct (same_half (S d) p x y) as (_ & HH); auto; try lia. cbn [pred] in HH.
        cbn [mem pred] in Mx, My. rewrite pow2_S in *.
        destruct (N.lt_ge_cases x (p + pow2 d)) as [L|L].
        -- rewrite (testbit_left d p) in Mx by (auto; lia). discriminate.
        -- rewrite (testbit_right' d p) in Mx by (auto; lia).
           assert (L' : (p + pow2 d <= y)%N) by lia.
           rewrite (testbit_right' d p) in My by (auto; lia).
           exists x, y. repeat split; auto; lia.
  - destruct Hwf as (_ & W1 & W2), Hp as (P1 & P2).
    assert (EC : ucompress (TB l r) = if (ufullt l && ufullt r)%bool then Full
                   else TB (ucompress l) (ucompress r)).
    { unfold ucompress, ufullt. cbn [compress]. rewrite (wf_not_leaf (pred d) l), andb_false_r by (auto; lia).
      cbn [andb negb]. rewrite andb_true_r. reflexivity. }
    rewrite EC. destruct (ufullt l && ufullt r)%bool eqn:EF.
    + cbn [nodelev]. split; [lia|]. intros (x & y & _ & _ & _ & _ & My).
      rewrite (full_mem ufull umem) in My; [discriminate|reflexivity|]. exact EF.
    + destruct (Nat.eq_dec d 2) as [->|N2].
      * cbn [pred] in *. split.
        -- intros _. destruct (plain_member (TB l r) 2 p) as (x & Hx & Mx); cbn; auto.
           destruct (not_full_member (TB l r) 2 p) as (y & Hy & My); cbn; auto.
           exists x, y. repeat split; auto; try tauto.
           rewrite (same_block p x), (same_block p y); auto.
        -- intros _. cbn [nodelev]. destruct (ucompress_nodelev l 1 W1 ltac:(lia)).
           destruct (ucompress_nodelev r 1 W2 ltac:(lia)). lia.
      * destruct d as [|d]; [lia|]. cbn [pred] in *. cbn [nodelev].
        assert (A1 : aligned d p) by (apply aligned_S; auto).
        assert (A2 : aligned d (p + pow2 d)) by (apply aligned_right; auto).
        specialize (IHl d p W1 P1 ltac:(lia) A1). specialize (IHr d (p + pow2 d)%N W2 P2 ltac:(lia) A2).
        destruct (ucompress_nodelev l d W1 ltac:(lia)). destruct (ucompress_nodelev r d W2 ltac:(lia)).
        transitivity (nodelev (ucompress l) = d \/ nodelev (ucompress r) = d); [lia|].
        rewrite IHl, IHr. split.
        -- intros [(x & y & Hx & Hy & E & Mx & My)|(x & y & Hx & Hy & E & Mx & My)];
           exists x, y; rewrite pow2_S; cbn [mem pred].
           ++ rewrite !(testbit_left d p) by (auto; lia). repeat split; auto; lia.
           ++ rewrite !(testbit_right' d p) by (auto; lia). repeat split; auto; lia.
        -- intros (x & y & Hx & Hy & E & Mx & My).
           destruct (same_half (S d) p x y) as (_ & HH); auto; try lia. cbn [pred] in HH.
           cbn [mem pred] in Mx, My. rewrite pow2_S in *.
           destruct (N.lt_ge_cases x (p + pow2 d)) as [L|L].
           ++ left. rewrite (testbit_left d p) in Mx by (auto; lia). apply HH in L as L'.
              rewrite (testbit_left d p) in My by (auto; lia).
              exists x, y. repeat split; auto; lia.
           ++ right. rewrite (testbit_right' d p) in Mx by (auto; lia).
              assert (L' : (p + pow2 d <= y)%N) by lia.
              rewrite (testbit_right' d p) in My by (auto; lia).
              exists x, y. repeat split; auto; lia.
Qed.

(** * A flat trie that lost its last level *)

Section Lost.
  Variable T : tree unit.
  Variable h : nat.
  Let m := nodelev T.
  Hypothesis Hwf : wf h T.
  Hypothesis Hm1 : 1 <= m.
  Hypothesis Hmh : m < h.
  Hypothesis Hh : h < 64.
  Variable t : flat.
  Hypothesis Eh : f_height t = h.
  Hypothesis Eb : f_bTrie t = prebits T (m - 1).
  Hypothesis Er : f_rank t = prebits T (m - 1).

  Lemma lost_decode : forall s i k id p dec fuel,
    nth_error (F T i) k = Some s -> id = off T i + k -> is_leaf s = false ->
    wf (h - i) s -> i + nodelev s <= m -> nodelev s <= fuel ->
    let r := runsRecursiveDecode h h (flat_getNode t) (flat_getLeftChild t) (flat_getRightChild t)
               fuel dec p id i in
    (i + nodelev s < m -> exists dec', r = Ok dec') /\
    (i + nodelev s = m -> r = UB OutOfBounds).
  Proof.
    assert (Node : forall i k s, nth_error (F T i) k = Some s -> i < m - 1 ->
       flat_getNode t (off T i + k) i = Ok (node_code (has_left s) (has_right s)) /\
       (has_left s = true -> flat_getLeftChild t (off T i + k) i = Ok (off T (S i) + idx T i k)) /\
       (has_right s = true -> flat_getRightChild t (off T i + k) i
          = Ok (off T (S i) + (idx T i k + b2n (has_left s))))).
    { intros i k s Hs Hi.
      destruct (prebits_node _ T h (m - 1) i k s Hwf ltac:(lia) Hi Hs) as (V1 & V2 & RL & RR).
      unfold flat_getNode, flat_getLeftChild, flat_getRightChild. rewrite Eh, Eb, Er.
      replace (S i <? h) with true by (symmetry; apply Nat.ltb_lt; lia).
      replace (h <=? S i) with false by (symmetry; apply Nat.leb_gt; lia).
      rewrite V1. cbn [bind]. rewrite V2. cbn [bind]. auto. }
    assert (Last : forall k, flat_getNode t (off T (m - 1) + k) (m - 1) = UB OutOfBounds).
    { intros k. unfold flat_getNode. rewrite Eh, Eb.
      replace (S (m - 1) <? h) with true by (symmetry; apply Nat.ltb_lt; lia).
      unfold vget at 1. replace (nth_error _ _) with (@None bool); [reflexivity|].
      symmetry. apply nth_error_None. rewrite (prebits_length T h Hwf) by lia. lia. }
    assert (Sh : forall n, n < 64 -> exists b, shl1 n = Ok b).
    { intros n Hn. unfold shl1. replace (n <? 64) with true by (symmetry; apply Nat.ltb_lt; auto). eauto. }
    assert (Lf : forall i k c, nth_error (F T i) k = Some c -> i < h -> is_leaf c = false).
    { intros. eapply F_notleaf; eauto. eapply nth_error_In; eauto. }
    induction s as [a| |s IH|s IH|s1 IH1 s2 IH2]; intros i k id p dec fuel Hs -> Hl Hw Hm Hf r.
    - discriminate.
    - cbn [nodelev] in *. destruct fuel as [|fuel]; [lia|]. subst r. cbn [runsRecursiveDecode].
      replace (i =? h) with false by (symmetry; apply Nat.eqb_neq; lia). split; intros E.
      + destruct (Node _ _ _ Hs ltac:(lia)) as (-> & _). cbn [bind N.eqb node_code has_left has_right].
        change (node_code false false =? 0)%N with true. cbv iota.
        destruct (Sh (h - i) ltac:(lia)) as (b & ->). cbn [bind]. eauto.
      + replace i with (m - 1) by lia. rewrite Last. reflexivity.
    - cbn [nodelev wf] in *. destruct fuel as [|fuel]; [lia|]. subst r. cbn [runsRecursiveDecode].
      replace (i =? h) with false by (symmetry; apply Nat.eqb_neq; lia).
      destruct (Nat.eq_dec i (m - 1)) as [Ei|Ei].
      { split; [lia|]. intros _. rewrite Ei, Last. reflexivity. }
      destruct (Node _ _ _ Hs ltac:(lia)) as (-> & HL & _).
      cbn [bind has_left has_right]. change (node_code true false) with 2%N.
      cbn [N.eqb Pos.eqb orb]. rewrite HL by auto. cbn [bind].
      assert (Hc := idx_child T _ _ _ 0 s Hs eq_refl).
      specialize (IH (S i) _ _ p dec fuel Hc ltac:(rewrite Nat.add_0_r; reflexivity)
                     (Lf _ _ _ Hc ltac:(lia))).
      destruct IH as (IHa & IHb); try lia.
      { replace (h - S i) with (pred (h - i)) by lia. tauto. }
      split; intros E.
      + destruct IHa as (d' & ->); [lia|]. cbn [bind]. eauto.
      + rewrite IHb by lia. reflexivity.
    - cbn [nodelev wf] in *. destruct fuel as [|fuel]; [lia|]. subst r. cbn [runsRecursiveDecode].
      replace (i =? h) with false by (symmetry; apply Nat.eqb_neq; lia).
      destruct (Nat.eq_dec i (m - 1)) as [Ei|Ei].
      { split; [lia|]. intros _. rewrite Ei, Last. reflexivity. }
      destruct (Node _ _ _ Hs ltac:(lia)) as (-> & _ & HR).
      cbn [bind has_left has_right]. change (node_code false true) with 1%N.
      cbn [N.eqb Pos.eqb orb bind]. rewrite HR by auto.
      destruct (Sh (h - i - 1) ltac:(lia)) as (b & ->). cbn [bind has_left b2n].
      assert (Hc := idx_child T _ _ _ 0 s Hs eq_refl).
      specialize (IH (S i) _ _ (N.lor p b) dec fuel Hc eq_refl (Lf _ _ _ Hc ltac:(lia))).
      destruct IH as (IHa & IHb); try lia.
      { replace (h - S i) with (pred (h - i)) by lia. tauto. }
      split; intros E.
      + destruct IHa as (d' & ->); [lia|]. eauto.
      + rewrite IHb by lia. reflexivity.
    - cbn [nodelev wf] in *. destruct fuel as [|fuel]; [lia|]. subst r. cbn [runsRecursiveDecode].
      replace (i =? h) with false by (symmetry; apply Nat.eqb_neq; lia).
      destruct (Nat.eq_dec i (m - 1)) as [Ei|Ei].
      { split; [lia|]. intros _. rewrite Ei, Last. reflexivity. }
      destruct (Node _ _ _ Hs ltac:(lia)) as (-> & HL & HR).
      cbn [bind has_left has_right]. change (node_code true true) with 3%N.
      cbn [N.eqb Pos.eqb orb bind]. rewrite HL, HR by auto.
      destruct (Sh (h - i - 1) ltac:(lia)) as (b & ->). cbn [bind has_left b2n].
      assert (Hc1 := idx_child T _ _ _ 0 s1 Hs eq_refl).
      assert (Hc2 := idx_child T _ _ _ 1 s2 Hs eq_refl).
      assert (WW : wf (h - S i) s1 /\ wf (h - S i) s2).
      { replace (h - S i) with (pred (h - i)) by lia. tauto. }
      specialize (IH1 (S i) _ _ p dec fuel Hc1 ltac:(rewrite Nat.add_0_r; reflexivity)
                     (Lf _ _ _ Hc1 ltac:(lia)) ltac:(tauto) ltac:(lia) ltac:(lia)).
      destruct IH1 as (I1a & I1b).
      destruct (Nat.eq_dec (S i + nodelev s1) m) as [E1|E1].
      { rewrite I1b by auto. split; [lia|]. reflexivity. }
      destruct I1a as (d1 & ->); [lia|]. cbn [bind].
      specialize (IH2 (S i) _ _ (N.lor p b) d1 fuel Hc2 eq_refl
                     (Lf _ _ _ Hc2 ltac:(lia)) ltac:(tauto) ltac:(lia) ltac:(lia)).
      destruct IH2 as (I2a & I2b).
      split; intros E.
      + destruct I2a as (d' & ->); [lia|]. eauto.
      + rewrite I2b by lia. reflexivity.
  Qed.

  Theorem lost_decode_root : forall dec, f_runs_encoded t = true -> f_empty_trie t = false ->
    flat_decode t dec = UB OutOfBounds.
  Proof.
    intros dec E1 E2. unfold flat_decode. rewrite E1, E2, Eh.
    refine (proj2 (lost_decode T 0 0 0 0%N dec (S h) eq_refl eq_refl _ _ _ _) eq_refl).
    - destruct T; auto; cbn in *; lia.
    - rewrite Nat.sub_0_r. auto.
    - fold m. lia.
    - fold m. lia.
  Qed.
End Lost.

(** * Decoding after encodeRuns *)

Lemma flat_layout_runs : forall t h T, flat_layout t h T -> plain T ->
  let T' := ucompress T in nodelev T' = h ->
  exists t', flat_encodeRuns t = Ok t' /\ flat_layout t' h T' /\ f_runs_encoded t' = true /\
    f_empty_trie t' = f_empty_trie t.
Proof.
  intros t h T L Hp T' Em. rewrite (flat_encodeRuns_spec t h T L Hp). fold T'. rewrite Em.
  eexists. split; [reflexivity|]. destruct L as (H2 & Hwf & _). cbn.
  unfold flat_layout. cbn. repeat split; auto. apply compress_wf; auto.
Qed.

Lemma flat_decode_runs : forall t h T dec, flat_layout t h T -> h < 64 ->
  f_runs_encoded t = true -> f_empty_trie t = false ->
  flat_decode t dec = Ok (dec ++ sel umem h T 0).
Proof.
  intros t h T dec L Hh Hr He. unfold flat_decode. rewrite Hr, He.
  assert (R := flat_reps _ _ _ L). destruct L as (H2 & Hwf & EH & _). rewrite EH.
  assert (Hn := nodelev_le _ _ _ Hwf).
  apply runsRecursiveDecode_spec; auto using aligned_0; try lia.
  intros Hl. destruct T; try discriminate. cbn in Hwf. lia.
Qed.

Lemma level_decode_runs : forall t h T dec, level_layout t h T -> h < 64 ->
  l_runs_encoded t = true -> l_empty_trie t = false -> l_height_with_runs t = nodelev T ->
  level_decode t dec = Ok (dec ++ sel umem h T 0).
Proof.
  intros t h T dec L Hh Hr He Em. unfold level_decode. rewrite Hr, He, Em.
  assert (R := level_reps _ _ _ L). assert (EH := level_height _ _ _ L).
  destruct L as (H2 & Hwf & _). rewrite EH.
  assert (Hn := nodelev_le _ _ _ Hwf).
  apply runsRecursiveDecode_spec; auto using aligned_0; try lia.
  intros Hl. destruct T; try discriminate. cbn in Hwf. lia.
Qed.

Lemma fast_decode_runs : forall t lw d T dec, fast_layout t (S d) T -> x_lw t = lw ->
  all_leaves (fun w => w < 2 ^ pow2 lw)%N T ->
  lw <= 6 -> x_height_u t = d + lw -> d + lw < 64 ->
  x_runs_encoded t = true -> x_empty_trie t = Some false ->
  fast_decode t dec = Ok (dec ++ sel (wmem lw) (d + lw) T 0).
Proof.
  intros t lw d T dec L <- Hl Hlw Hhu H64 Hr He. unfold fast_decode. rewrite Hr, He.
  assert (R := fast_reps _ _ _ L). cbn [oget bind].
  destruct L as (H2 & Hwf & EH & _). rewrite EH. rewrite Nat.sub_succ, Nat.sub_0_r in Hwf.
  apply fast_runsRecursiveDecode_spec; auto; try lia. apply aligned_0.
Qed.
