(** The levels of a fast trie are the first levels of the plain trie of the same set. *)

From Verif Require Import Base Facts Tree Groups Reps Layout BuildFlat BuildFast CompressFast DecodeFast FlatTrie FastTrie
  Spec RoundTrip RoundTripFacts Compress WriteOnes RunsFacts RunsThms SpecMeasures NodeCount SpecLayout LayoutBits
  LayoutThms.

(** The same nodes down to depth [d]. *)
Fixpoint agree (leaf : N -> tree unit -> Prop) (d : nat) (X : tree N) (U : tree unit) : Prop :=
  match d, X, U with
  | O, Leaf w, _ => leaf w U
  | S _, Full, Full => True
  | S d', TL a, TL b => agree leaf d' a b
  | S d', TR a, TR b => agree leaf d' a b
  | S d', TB a a', TB b b' => agree leaf d' a b /\ agree leaf d' a' b'
  | _, _, _ => False
  end.

Lemma agree_bits : forall leaf d X U l, agree leaf d X U -> l < d -> bits (fiter l [X]) = bits (fiter l [U]).
Proof.
  intros leaf. induction d as [|d IH]; intros X U l H Hl; [lia|].
  destruct l as [|l].
  - cbn [agree] in H. destruct X, U; try tauto; reflexivity.
  - rewrite !fiter_S. cbn [agree] in H. destruct X, U; try tauto; cbn [kids].
    + rewrite !fiter_kids_nil. auto.
    + apply IH; auto. lia.
    + apply IH; auto. lia.
    + destruct H as (H1 & H2). change [X1; X2] with ([X1] ++ [X2]). change [U1; U2] with ([U1] ++ [U2]).
      rewrite !fiter_app, !bits_app. f_equal; apply IH; auto; lia.
Qed.

Section Compress.
  Variable lw : nat.
  Hypothesis Hlw : 1 <= lw.
  Let lf (w : N) (U : tree unit) : Prop := xfull lw w = ufullt U.

  Lemma agree_full : forall d X U, agree lf d X U -> xfullt lw X = ufullt U.
  Proof.
    unfold xfullt, ufullt. induction d as [|d IH]; intros X U H; cbn [agree] in H.
    - destruct X; try contradiction. exact H.
    - destruct X, U; try contradiction; cbn [full]; auto. destruct H as (H1 & H2). f_equal; apply IH; auto.
  Qed.

  Lemma agree_compress : forall d X U, agree lf d X U -> wf (d + lw) U ->
    agree (fun _ _ => True) d (xcompress lw X) (ucompress U).
  Proof.
    induction d as [|d IH]; intros X U H W; cbn [agree] in H.
    - destruct X; try contradiction. exact I.
    - destruct X as [w| |a|a|a a'], U as [u| |b|b|b b']; try contradiction; unfold xcompress, ucompress; cbn [compress].
      + exact I.
      + cbn [wf Nat.add pred] in W. apply IH; tauto.
      + cbn [wf Nat.add pred] in W. apply IH; tauto.
      + destruct H as (H1 & H2). cbn [wf Nat.add pred] in W. destruct W as (_ & W1 & W2).
        replace (true && is_leaf b && is_leaf b')%bool with false.
        2:{ destruct b; auto. cbn [wf] in W1. lia. }
        change (full (xfull lw) a) with (xfullt lw a). change (full (xfull lw) a') with (xfullt lw a').
        rewrite (agree_full d a b H1), (agree_full d a' b' H2).
        change (full ufull b) with (ufullt b). change (full ufull b') with (ufullt b').
        cbn [negb andb]. rewrite andb_true_r. destruct (ufullt b && ufullt b')%bool; [exact I|].
        cbn [agree]. split; apply IH; auto.
  Qed.
End Compress.

(** A full word. *)
Lemma xfull_iff : forall lw w, (w < 2 ^ pow2 lw)%N ->
  (xfull lw w = true <-> forall i, (i < pow2 lw)%N -> N.testbit w i = true).
Proof.
  intros lw w Hw. unfold xfull. rewrite N.eqb_eq. unfold wmax, wbits. fold (pow2 lw).
  split.
  - intros -> i Hi. apply N.ones_spec_low. auto.
  - intros H. apply N.bits_inj. intros i. destruct (N.lt_ge_cases i (pow2 lw)).
    + rewrite N.ones_spec_low by auto. auto.
    + rewrite N.ones_spec_high by auto. apply N.bits_above_log2.
      destruct (N.eq_dec w 0) as [->|Hn].
      * cbn. assert (P := pow2_pos lw). lia.
      * apply N.log2_lt_pow2; [lia|]. eapply N.lt_le_trans; [exact Hw|]. apply N.pow_le_mono_r; lia.
Qed.

Section Build.
  Variable lw : nat.

  Lemma agree_tree_of : forall d s p, s <> [] -> nondecreasing s -> aligned (d + lw) p -> within p (d + lw) s ->
    agree (fun w U => xfull lw w = ufullt U) d (tree_of (word_of lw) lw d s) (tree_of unit_leaf 0 (d + lw) s).
  Proof.
    induction d as [|d IH]; intros s p Hne Hs Ha Hw.
    - cbn [Nat.add] in *. cbn [tree_of agree]. apply bool_iff. rewrite xfull_iff by apply word_of_bound.
      assert (Wt := tree_of_wf unit_leaf 0 lw s). assert (Pt := tree_of_plain unit_leaf 0 lw s).
      rewrite (full_iff _ lw p) by auto.
      assert (EM : forall x, (p <= x < p + pow2 lw)%N ->
        (mem umem lw (tree_of unit_leaf 0 lw s) x = true <-> In x s)).
      { intros x Hx. replace lw with (lw + 0) at 1 by lia.
        apply tree_of_mem with (p := p); rewrite ?Nat.add_0_r; auto. apply unit_leaf_spec. }
      split; intros H x Hx.
      + apply EM; auto. apply (word_leaf_spec lw s p x); auto. unfold wmem. apply H. apply low_lt.
      + specialize (H (p + x)%N ltac:(lia)). apply EM in H; [|lia].
        apply (word_leaf_spec lw s p) in H; auto; [|lia]. unfold wmem in H.
        rewrite (low_bits lw p) in H by (auto; lia). replace (p + x - p)%N with x in H by lia. auto.
    - cbn [Nat.add] in *. cbn [tree_of]. rewrite Nat.add_0_r.
      destruct (lefts_spec (word_of lw) (wmem lw) lw (word_leaf_spec lw) _ _ _ Ha Hw Hs) as (IL & IR & SL & SR).
      destruct (within_lefts (word_of lw) (wmem lw) lw (word_leaf_spec lw) _ _ _ Ha Hw Hs) as (WL & WR).
      assert (AL : aligned (d + lw) p) by (apply aligned_S; auto).
      assert (AR : aligned (d + lw) (p + pow2 (d + lw))) by (apply aligned_right; auto).
      assert (E := lefts_rights (d + lw) s). clear IL IR. revert E SL SR WL WR.
      destruct (lefts (d + lw) s) as [|a l] eqn:El, (rights (d + lw) s) as [|b r] eqn:Er; cbn [agree];
        intros E SL SR WL WR.
      + cbn in E. congruence.
      + apply (IH _ (p + pow2 (d + lw))%N); auto; discriminate.
      + apply (IH _ p); auto; discriminate.
      + split; [apply (IH _ p)|apply (IH _ (p + pow2 (d + lw))%N)]; auto; discriminate.
  Qed.

  Lemma Forall2_impl_l : forall A B (P Q : A -> B -> Prop) l m,
    (forall x y, In x l -> P x y -> Q x y) -> Forall2 P l m -> Forall2 Q l m.
  Proof.
    intros A B P Q l m H F. induction F; constructor.
    - apply H; auto. left; auto.
    - apply IHF. intros. apply H; auto. right; auto.
  Qed.

  (** The words stand at the positions of the nodes of depth [d]. *)
  Lemma words_at : forall leaf d X U p, agree leaf d X U -> wf (d + lw) U -> aligned (d + lw) p ->
    Forall2 (fun q st => exists w, st = Leaf w /\
               forall x, (q <= x < q + pow2 lw)%N -> mem (wmem lw) (d + lw) X x = wmem lw w x)
      (npos (d + lw) d U p) (fiter d [X]).
  Proof.
    intros leaf. induction d as [|d IH]; intros X U p H W Ha.
    - cbn [agree] in H. destruct X; try contradiction. cbn [npos fiter]. constructor; [|constructor].
      eexists. split; [reflexivity|]. intros x _. reflexivity.
    - cbn [agree] in H. rewrite fiter_S. cbn [Nat.add] in *.
      assert (AL := aligned_S _ _ Ha). assert (AR := aligned_right _ _ Ha).
      assert (RL : forall (U : tree unit) q x, wf (d + lw) U -> In q (npos (d + lw) d U p) ->
         (q <= x < q + pow2 lw)%N -> N.testbit x (N.of_nat (d + lw)) = false).
      { intros V q x WV Hq Hx. apply npos_range in Hq; auto; [|lia].
        replace (d + lw - d) with lw in Hq by lia. apply (testbit_left (d + lw) p); auto. lia. }
      assert (RR : forall (U : tree unit) q x, wf (d + lw) U -> In q (npos (d + lw) d U (p + pow2 (d + lw))) ->
         (q <= x < q + pow2 lw)%N -> N.testbit x (N.of_nat (d + lw)) = true).
      { intros V q x WV Hq Hx. apply npos_range in Hq; auto; [|lia].
        replace (d + lw - d) with lw in Hq by lia. apply (testbit_right (d + lw) p); auto. rewrite pow2_S. lia. }
      destruct X as [w| |a|a|a a'], U as [u| |b|b|b b']; try contradiction; cbn [kids npos pred].
      + rewrite fiter_kids_nil. constructor.
      + cbn [wf pred] in W. destruct W as (_ & W).
        eapply Forall2_impl_l; [|apply (IH a b p); auto].
        intros q st Hq (w & -> & Hx). exists w. split; auto. intros x Hr. cbn [mem pred].
        rewrite (RL b q x) by auto. auto.
      + cbn [wf pred] in W. destruct W as (_ & W).
        eapply Forall2_impl_l; [|apply (IH a b (p + pow2 (d + lw))%N); auto].
        intros q st Hq (w & -> & Hx). exists w. split; auto. intros x Hr. cbn [mem pred].
        rewrite (RR b q x) by auto. auto.
      + cbn [wf pred] in W. destruct W as (_ & W1 & W2). destruct H as (H1 & H2).
        change [a; a'] with ([a] ++ [a']). rewrite fiter_app. apply Forall2_app.
        * eapply Forall2_impl_l; [|apply (IH a b p); auto].
          intros q st Hq (w & -> & Hx). exists w. split; auto. intros x Hr. cbn [mem pred].
          rewrite (RL b q x) by auto. auto.
        * eapply Forall2_impl_l; [|apply (IH a' b' (p + pow2 (d + lw))%N); auto].
          intros q st Hq (w & -> & Hx). exists w. split; auto. intros x Hr. cbn [mem pred].
          rewrite (RR b' q x) by auto. auto.
  Qed.

  Lemma agree_mono : forall (P Q : N -> tree unit -> Prop) d X U, (forall w U, P w U -> Q w U) ->
    agree P d X U -> agree Q d X U.
  Proof.
    intros P Q d X U H. revert X U. induction d as [|d IH]; intros X U A; destruct X, U; cbn [agree] in *; auto; try tauto.
    split; apply IH; tauto.
  Qed.
End Build.

Lemma fast_built_digits : forall lw jh je u s, In lw [3; 4; 5; 6] ->
  (2 ^ N.of_nat lw < 2 * u <= 2 * 2 ^ 48)%N ->
  s <> [] -> increasing s -> below u s -> shorter 32 s ->
  exists t, fast_build lw jh je s u = Ok t /\ lw <= digits u /\ (u <= pow2 (digits u))%N /\
    let d := digits u - lw in
    let X := tree_of (word_of lw) lw d s in
    fast_layout t (S d) X /\ plain X /\ x_lw t = lw /\ all_leaves (fun w => w < 2 ^ pow2 lw)%N X /\
    sel (wmem lw) (d + lw) X 0 = s.
Proof.
  intros lw jh je u s Hlw Hu Hne Hs Hb Hl.
  assert (H8 : (2 ^ N.of_nat 3 <= 2 ^ N.of_nat lw)%N).
  { apply N.pow_le_mono_r; [lia|]. cbn in Hlw. lia. }
  change (2 ^ N.of_nat 3)%N with 8%N in H8.
  destruct (height_of_spec u ltac:(lia)) as (h & Hh & Hr & Hp & H2 & Hk).
  assert (Hlh : lw <= h).
  { destruct lw as [|lw]; [lia|]. change (2 ^ N.of_nat (S lw))%N with (pow2 (S lw)) in Hu.
    rewrite pow2_S in Hu. assert (lw < h) by (apply Hk; lia). lia. }
  assert (Ed := height_digits u h ltac:(lia) Hh). subst h.
  destruct (fast_build_layout lw jh je s u _ Hh) as (t & Ht & L & E1 & E2 & Hre & Hje); auto; try lia.
  assert (Eh : digits u - lw + lw = digits u) by lia.
  exists t. split; [auto|]. split; [auto|]. split; [auto|]. cbv zeta. split; [exact L|].
  split; [apply tree_of_plain|]. split; [auto|]. split.
  - apply all_leaves_tree_of. apply word_of_bound.
  - assert (D := distinct_fast_set lw (digits u - lw) s Hne (increasing_nondecreasing _ Hs)).
    unfold distinct_fast in D.
    apply (is_set_of_unique s); [|apply is_set_of_self; auto]. apply D.
    rewrite Eh. eapply below_within; eauto.
Qed.

(** The words of a tree, against its set. *)
Lemma words_spec : forall lw d (X : tree N) U s qs ws leaf, agree leaf d X U -> wf (d + lw) U ->
  all_leaves (fun w => w < 2 ^ pow2 lw)%N X -> (forall x, In x s -> (x < pow2 (d + lw))%N) ->
  (forall x, (x < pow2 (d + lw))%N -> (mem (wmem lw) (d + lw) X x = true <-> In x s)) ->
  npos (d + lw) d U 0 = map (fun q => (q * pow2 lw)%N) qs -> fiter d [X] = map Leaf ws ->
  Forall2 (fun q w => forall i, N.testbit w i = true <-> (i < pow2 lw)%N /\ In (q * pow2 lw + i)%N s) qs ws.
Proof.
  intros lw d X U s qs ws leaf A W Hal Hb HM En Ew.
  assert (H := words_at lw leaf d X U 0 A W (aligned_0 _)).
  assert (R : forall q, In q qs -> (q * pow2 lw + pow2 lw <= pow2 (d + lw))%N).
  { intros q Hq. assert (I : In (q * pow2 lw)%N (npos (d + lw) d U 0)) by (rewrite En; apply in_map_iff; eauto).
    apply npos_range in I; auto using aligned_0; [|lia]. replace (d + lw - d) with lw in I by lia. lia. }
  rewrite En, Ew in H.
  assert (HW : Forall (fun w => (w < 2 ^ pow2 lw)%N) ws).
  { assert (Q : forall d (X : tree N) ws, all_leaves (fun w => w < 2 ^ pow2 lw)%N X -> incl (map Leaf ws) (fiter d [X]) ->
      Forall (fun w => (w < 2 ^ pow2 lw)%N) ws).
    { clear. induction d as [|d IH]; intros X ws Hal Hi.
      - cbn [fiter] in Hi. rewrite Forall_forall. intros w Hw.
        assert (In (Leaf w) [X]) as [->|[]] by (apply Hi, in_map; auto). exact Hal.
      - rewrite fiter_S in Hi. rewrite Forall_forall. intros w Hw.
        assert (I : In (Leaf w) (fiter d (kids X))) by (apply Hi, in_map; auto).
        assert (G : forall Y, all_leaves (fun w => w < 2 ^ pow2 lw)%N Y -> In (Leaf w) (fiter d [Y]) -> (w < 2 ^ pow2 lw)%N).
        { intros Y HY IY. assert (Q := IH Y [w] HY). assert (Forall (fun w => (w < 2 ^ pow2 lw)%N) [w]).
          { apply Q. intros z [<-|[]]; auto. } inversion H; auto. }
        destruct X as [v| |a|a|a b]; cbn [kids all_leaves] in *.
        + rewrite fiter_kids_nil in I. destruct I.
        + rewrite fiter_kids_nil in I. destruct I.
        + apply (G a); auto.
        + apply (G a); auto.
        + change [a; b] with ([a] ++ [b]) in I. rewrite fiter_app in I. apply in_app_or in I.
          destruct I as [I|I]; [apply (G a)|apply (G b)]; tauto. }
    apply (Q d X); auto. rewrite Ew. apply incl_refl. }
  clear En Ew A W Hal. revert ws H HW. induction qs as [|q qs IH]; intros ws H HW.
  - destruct ws; [constructor|inversion H].
  - destruct ws as [|w ws]; [inversion H|]. cbn [map] in H. inversion H as [|? ? ? ? (w' & Ew & Hx) H']; subst.
    injection Ew as <-. inversion HW; subst. constructor.
    + intros i. specialize (R q (or_introl eq_refl)). split.
      * intros Hi. assert (Li : (i < pow2 lw)%N).
        { destruct (N.lt_ge_cases i (pow2 lw)) as [|G]; auto.
          rewrite N.bits_above_log2 in Hi; [discriminate|]. destruct (N.eq_dec w 0) as [->|Hn].
          - rewrite N.bits_0 in Hi. discriminate.
          - apply N.log2_lt_pow2; [lia|]. eapply N.lt_le_trans; [eauto|]. apply N.pow_le_mono_r; lia. }
        split; auto. apply HM; [lia|]. rewrite Hx by lia. unfold wmem.
        rewrite (low_bits lw (q * pow2 lw)) by (try lia; apply aligned_ex; eauto).
        replace (q * pow2 lw + i - q * pow2 lw)%N with i by lia. auto.
      * intros (Li & Hi). apply HM in Hi; [|lia]. rewrite Hx in Hi by lia. unfold wmem in Hi.
        rewrite (low_bits lw (q * pow2 lw)) in Hi by (try lia; apply aligned_ex; eauto).
        replace (q * pow2 lw + i - q * pow2 lw)%N with i in Hi by lia. auto.
    + apply IH; auto. intros; apply R; right; auto.
Qed.

Theorem fast_stored : forall lw jh je u s, In lw [3; 4; 5; 6] ->
  (2 ^ N.of_nat lw < 2 * u <= 2 * 2 ^ 48)%N ->
  s <> [] -> increasing s -> below u s -> shorter 32 s ->
  exists t, fast_build lw jh je s u = Ok t /\
    x_bTrie t = concat (firstn (digits u - lw) (set_levels (digits u) s)) /\
    Forall2 (fun q w => forall i, N.testbit w i = true <->
               (i < 2 ^ N.of_nat lw)%N /\ In (q * 2 ^ N.of_nat lw + i)%N s)
      (prefixes s lw) (x_lastLevel t).
Proof.
  intros lw jh je u s Hlw Hu Hne Hs Hb Hl.
  destruct (fast_built_digits lw jh je u s Hlw Hu Hne Hs Hb Hl) as (t & Ht & Hd & Hp & L & Hpl & _ & Hal & E).
  set (h := digits u) in *. set (d := h - lw) in *. set (X := tree_of (word_of lw) lw d s) in *.
  destruct L as (_ & W & _ & Eb & El & _). rewrite Nat.sub_succ, Nat.sub_0_r in *.
  exists t. split; [auto|]. assert (Edh : d + lw = h) by lia.
  set (U := tree_of unit_leaf 0 h s).
  assert (A : agree (fun w U => xfull lw w = ufullt U) d X U).
  { unfold X, U. rewrite <- Edh. apply (agree_tree_of lw d s 0); auto using aligned_0, increasing_nondecreasing.
    eapply below_within; eauto. rewrite Edh. auto. }
  assert (WU : wf h U) by apply tree_of_wf. assert (PU : plain U) by apply tree_of_plain.
  assert (EU : sel umem h U 0 = s) by (eapply sel_is_set; eauto).
  split.
  - rewrite Eb. rewrite <- (levels_set h s U) by (eauto using below_pow2).
    rewrite <- prebits_levels by lia.
    assert (Q : forall n, n <= d -> prebits X n = prebits U n).
    { induction n; intros Hn; auto. cbn [prebits]. rewrite IHn by lia. f_equal.
      apply (agree_bits _ d _ _ _ A); auto. }
    apply Q. auto.
  - eapply (words_spec lw d X U); eauto; rewrite ?Edh; auto.
    + eauto using below_pow2.
    + intros x Hx. rewrite <- Edh in Hx |- *. rewrite <- E. unfold sel. rewrite filter_In, In_half.
      intuition lia.
    + replace d with (h - lw) by lia. apply npos_prefixes; eauto using below_pow2.
Qed.

Theorem fast_stored_runs : forall lw jh je u s, In lw [3; 4; 5; 6] ->
  (2 ^ N.of_nat lw < 2 * u <= 2 * 2 ^ 48)%N ->
  s <> [] -> increasing s -> below u s -> shorter 32 s ->
  exists t t', fast_build lw jh je s u = Ok t /\ fast_encodeRuns t = Ok t' /\
    x_bTrie t' = concat (firstn (digits u - lw) (run_levels (digits u) s)) /\
    Forall2 (fun q w => forall i, N.testbit w i = true <->
               (i < 2 ^ N.of_nat lw)%N /\ In (q * 2 ^ N.of_nat lw + i)%N s)
      (filter (fun q => negb (all_in s (S lw) (q / 2))) (prefixes s lw)) (x_lastLevel t').
Proof.
  intros lw jh je u s Hlw Hu Hne Hs Hb Hl.
  destruct (fast_built_digits lw jh je u s Hlw Hu Hne Hs Hb Hl) as (t & Ht & Hd & Hp & L & Hpl & Et & Hal & E).
  set (h := digits u) in *. set (d := h - lw) in *. set (X := tree_of (word_of lw) lw d s) in *.
  assert (Hx : x_height t = S d) by apply L.
  destruct (fast_encodeRuns_spec t _ ltac:(rewrite Hx; exact L) Hpl) as (t' & Ht' & L' & _).
  exists t, t'. split; [auto|]. split; [auto|]. rewrite Hx, Et in L'.
  assert (Edh : d + lw = h) by lia. assert (L3 : 1 <= lw) by (cbn in Hlw; lia).
  set (U := tree_of unit_leaf 0 h s).
  assert (WU : wf h U) by apply tree_of_wf. assert (PU : plain U) by apply tree_of_plain.
  assert (A : agree (fun _ _ => True) d (xcompress lw X) (ucompress U)).
  { apply agree_compress; auto; [|rewrite Edh; auto].
    unfold X, U. rewrite <- Edh. apply (agree_tree_of lw d s 0); auto using aligned_0, increasing_nondecreasing.
    eapply below_within; eauto. rewrite Edh. auto. }
  destruct L' as (_ & W & _ & Eb & El & _). rewrite Nat.sub_succ, Nat.sub_0_r in *.
  assert (EU : sel umem h U 0 = s) by (eapply sel_is_set; eauto).
  split.
  - rewrite Eb. rewrite <- (levels_runs h s U) by (eauto using below_pow2).
    rewrite <- prebits_levels by lia.
    assert (Q : forall n, n <= d -> prebits (xcompress lw X) n = prebits (ucompress U) n).
    { induction n; intros Hn; auto. cbn [prebits]. rewrite IHn by lia. f_equal.
      apply (agree_bits _ d _ _ _ A); auto. }
    apply Q. auto.
  - eapply (words_spec lw d (xcompress lw X) (ucompress U)); eauto; rewrite ?Edh; auto.
    + apply compress_wf; auto.
    + apply all_leaves_compress. auto.
    + eauto using below_pow2.
    + intros x Hxx. rewrite <- Edh in Hxx |- *.
      assert (E2 : sel (wmem lw) (d + lw) (xcompress lw X) 0 = s) by (rewrite xcompress_sel; auto).
      rewrite <- E2. unfold sel. rewrite filter_In, In_half. intuition lia.
    + replace d with (h - lw) by lia. apply npos_run_prefixes; eauto using below_pow2; lia.
Qed.
