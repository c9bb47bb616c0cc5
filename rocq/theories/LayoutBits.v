(** The levels of a tree in terms of its members. *)

From Verif Require Import Base Facts Tree Groups Reps Layout BuildFlat FlatTrie LevelTrie Spec RoundTrip
  RoundTripFacts Compress WriteOnes RunsFacts RunsThms SpecMeasures NodeCount SpecLayout.

Local Notation T := (tree unit).

Lemma fiter_kids_nil : forall A j, fiter j ([] : list (tree A)) = [].
Proof. induction j; auto. cbn [fiter]. rewrite IHj. auto. Qed.

Section Generic.
  Variable P : nat -> T -> Prop.
  Variable M : N -> bool.
  Variable code : nat -> N -> list bool.
  Hypothesis HL : forall k l, P (S k) (TL l) -> P k l.
  Hypothesis HR : forall k r, P (S k) (TR r) -> P k r.
  Hypothesis HB : forall k l r, P (S k) (TB l r) -> P k l /\ P k r.
  Hypothesis Hcode : forall k q st, wf (S k) st -> P (S k) st -> aligned (S k) q ->
    (forall x, (q <= x < q + pow2 (S k))%N -> mem umem (S k) st x = M x) -> code2 st = code (S k) q.

  Lemma bits_npos : forall j d t p, j < d -> wf d t -> P d t -> aligned d p ->
    (forall x, (p <= x < p + pow2 d)%N -> mem umem d t x = M x) ->
    bits (fiter j [t]) = flat_map (code (d - j)) (npos d j t p).
  Proof.
    induction j; intros d t p Hj W HP Ha HM.
    - destruct d as [|d]; [lia|]. cbn [fiter npos bits flat_map]. rewrite Nat.sub_0_r. f_equal. auto.
    - destruct d as [|d]; [lia|]. rewrite fiter_S. change (S d - S j) with (d - j).
      assert (AL := aligned_S _ _ Ha). assert (AR := aligned_right _ _ Ha). rewrite pow2_S in HM.
      destruct t as [a| |l|r|l r]; cbn [wf] in W; cbn [kids npos pred].
      + lia.
      + rewrite fiter_kids_nil. auto.
      + destruct W as (_ & W). cbn [pred] in W. apply IHj; auto; [lia|].
        intros x Hx. rewrite <- HM by lia. cbn [mem pred]. rewrite (testbit_left d p); auto.
      + destruct W as (_ & W). cbn [pred] in W. apply IHj; auto; [lia|].
        intros x Hx. rewrite <- HM by lia. cbn [mem pred]. rewrite (testbit_right d p); auto.
        rewrite pow2_S. lia.
      + destruct W as (_ & W1 & W2). cbn [pred] in W1, W2. apply HB in HP. destruct HP as (P1 & P2).
        change [l; r] with ([l] ++ [r]). rewrite fiter_app, bits_app, flat_map_app'.
        f_equal; apply IHj; auto; try lia; intros x Hx; (rewrite <- HM by lia); cbn [mem pred].
        * rewrite (testbit_left d p); auto.
        * rewrite (testbit_right d p); auto. rewrite pow2_S. lia.
  Qed.
End Generic.

Lemma npos_sorted : forall (t : T) d j p, wf d t -> j <= d -> aligned d p ->
  StronglySorted N.lt (npos d j t p).
Proof.
  induction t; intros d j p W Hj Ha; destruct j as [|j]; cbn [npos];
    try (constructor; auto; constructor); try constructor.
  - destruct W as (Hd & W). destruct d as [|d]; [lia|]. cbn [pred] in *.
    apply IHt; auto using aligned_S. lia.
  - destruct W as (Hd & W). destruct d as [|d]; [lia|]. cbn [pred] in *.
    apply IHt; auto using aligned_right. lia.
  - destruct W as (Hd & W1 & W2). destruct d as [|d]; [lia|]. cbn [pred] in *.
    assert (A1 := aligned_S _ _ Ha). assert (A2 := aligned_right _ _ Ha).
    assert (N1 : StronglySorted N.lt (npos d j t1 p)) by (apply IHt1; auto; lia).
    assert (N2 : StronglySorted N.lt (npos d j t2 (p + pow2 d))) by (apply IHt2; auto; lia).
    assert (D : forall q q', In q (npos d j t1 p) -> In q' (npos d j t2 (p + pow2 d)%N) -> (q < q')%N).
    { intros q q' H1 H2. apply npos_range in H1; auto; [|lia]. apply npos_range in H2; auto; [|lia].
      assert (P := pow2_pos (d - j)). lia. }
    clear - N1 N2 D. induction N1 as [|x l N1 IH Hx]; auto. cbn [app]. constructor.
    + apply IH. intros q q' Hq. apply D. right; auto.
    + apply Forall_app. split; auto. rewrite Forall_forall. intros q' Hq'. apply D; auto. left; auto.
Qed.

(** * Prefixes *)

Lemma prefixes_In : forall s k q, In q (prefixes s k) <-> prefix_of_member s k q.
Proof.
  intros. unfold prefixes, prefix_of_member. rewrite nodup_In, in_map_iff.
  split; intros (x & A & B); exists x; auto.
Qed.

Lemma nodup_sorted : forall l, StronglySorted N.le l -> StronglySorted N.lt (nodup N.eq_dec l).
Proof.
  induction 1 as [|x l Hl IH Hx]; cbn [nodup]; [constructor|].
  destruct (in_dec N.eq_dec x l); auto. constructor; auto.
  rewrite Forall_forall in *. intros y Hy. apply nodup_In in Hy. specialize (Hx y Hy).
  assert (x <> y) by (intros ->; auto). lia.
Qed.

Lemma prefixes_sorted : forall s k, increasing s -> StronglySorted N.lt (prefixes s k).
Proof.
  intros s k Hs. apply nodup_sorted. induction Hs as [|x s Hs IH Hx]; cbn [map]; constructor; auto.
  rewrite Forall_forall in *. intros y Hy. apply in_map_iff in Hy. destruct Hy as (z & <- & Hz).
  apply N.div_le_mono; [apply pow2_nz|]. specialize (Hx z Hz). lia.
Qed.

Lemma has_prefix_iff : forall s k q, has_prefix s k q = true <-> prefix_of_member s k q.
Proof.
  intros. unfold has_prefix, prefix_of_member. rewrite existsb_exists.
  split; intros (x & Hx & E); exists x; split; auto.
  - apply N.eqb_eq in E. auto.
  - apply N.eqb_eq. auto.
Qed.

Lemma bool_iff : forall a b : bool, (a = true <-> b = true) -> a = b.
Proof. intros [] []; intuition congruence. Qed.

Lemma StronglySorted_map : forall (f : N -> N) l, (forall x y, (x < y)%N -> (f x < f y)%N) ->
  StronglySorted N.lt l -> StronglySorted N.lt (map f l).
Proof.
  intros f l Hf. induction 1 as [|x l Hl IH Hx]; cbn; constructor; auto.
  rewrite Forall_forall in *. intros y Hy. apply in_map_iff in Hy. destruct Hy as (z & <- & Hz). auto.
Qed.

Lemma flat_map_map : forall A B C (f : A -> B) (g : B -> list C) l,
  flat_map g (map f l) = flat_map (fun x => g (f x)) l.
Proof. induction l; cbn; auto. rewrite IHl. auto. Qed.

Lemma flat_map_ext_in : forall A B (f g : A -> list B) l, (forall x, In x l -> f x = g x) ->
  flat_map f l = flat_map g l.
Proof. induction l; intros H; cbn; auto. rewrite H, IHl; auto; intros; try apply H; cbn; auto. Qed.

(** The block of the node at a prefix. *)
Lemma block_div : forall k q x, (q * pow2 k <= x < q * pow2 k + pow2 k)%N <-> (x / pow2 k = q)%N.
Proof.
  intros k q x. rewrite (blk k (q * pow2 k)); [|apply aligned_ex; eauto].
  rewrite N.div_mul by apply pow2_nz. tauto.
Qed.

(** * The bits of a node *)

Lemma code2_plain : forall (st : T) k p, wf (S k) st -> aligned (S k) p -> (plain st) ->
  exists b1 b2, code2 st = [b1; b2] /\
   (b1 = true <-> exists x, (p <= x < p + pow2 k)%N /\ mem umem (S k) st x = true) /\
   (b2 = true <-> exists x, (p + pow2 k <= x < p + pow2 k + pow2 k)%N /\ mem umem (S k) st x = true).
Proof.
  intros st k p W Ha Pl. assert (AL := aligned_S _ _ Ha). assert (AR := aligned_right _ _ Ha).
  assert (L : forall x, (p <= x < p + pow2 k)%N -> N.testbit x (N.of_nat k) = false)
    by (intros; apply (testbit_left k p); auto).
  assert (R : forall x, (p + pow2 k <= x < p + pow2 k + pow2 k)%N -> N.testbit x (N.of_nat k) = true)
    by (intros; apply (testbit_right k p); auto; rewrite pow2_S; lia).
  destruct st as [a| |l|r|l r]; cbn [wf plain pred] in W, Pl; try lia; try tauto; do 2 eexists;
    (split; [reflexivity|]); cbn [mem pred].
  - destruct (wf_member l k p ltac:(tauto) AL) as (x & Hx & Hm). split; split; try discriminate; auto.
    + intros _. exists x. rewrite L; auto.
    + intros (y & Hy & E). rewrite R in E; auto.
  - destruct (wf_member r k (p + pow2 k) ltac:(tauto) AR) as (x & Hx & Hm). split; split; try discriminate; auto.
    + intros (y & Hy & E). rewrite L in E; auto.
    + intros _. exists x. rewrite R; auto.
  - destruct (wf_member l k p ltac:(tauto) AL) as (x & Hx & Hm).
    destruct (wf_member r k (p + pow2 k) ltac:(tauto) AR) as (y & Hy & Hn). split; split; auto; intros _.
    + exists x. rewrite L; auto.
    + exists y. rewrite R; auto.
Qed.

Section SetBits.
  Variables (h : nat) (s : list N) (t : T).
  Hypothesis Hwf : wf h t.
  Hypothesis Hpl : plain t.
  Hypothesis Hsel : sel umem h t 0 = s.
  Hypothesis Hb : forall x, In x s -> (x < pow2 h)%N.
  Hypothesis Hs : increasing s.

  Let M (x : N) : bool := if in_dec N.eq_dec x s then true else false.

  Lemma M_iff : forall x, M x = true <-> In x s.
  Proof. intros. unfold M. destruct (in_dec _ _ _); split; auto; discriminate. Qed.

  Lemma mem_M : forall x, (0 <= x < 0 + pow2 h)%N -> mem umem h t x = M x.
  Proof.
    intros x Hx. apply bool_iff. rewrite M_iff. apply (mem_iff h t s); auto. lia.
  Qed.

  Lemma npos_prefixes : forall k, k <= h ->
    npos h (h - k) t 0 = map (fun q => (q * pow2 k)%N) (prefixes s k).
  Proof.
    intros k Hk. apply sorted_unique.
    - apply npos_sorted; auto using aligned_0. lia.
    - apply StronglySorted_map; [|apply prefixes_sorted; auto]. intros x y H. assert (P := pow2_pos k). nia.
    - intros q. rewrite in_map_iff. split.
      + intros Hq. assert (A := Hq). apply npos_range in A; auto using aligned_0; try lia.
        replace (h - (h - k)) with k in A by lia. destruct A as (A & _). apply aligned_ex in A.
        destruct A as (a & ->). exists a. split; auto. apply prefixes_In. apply (prefix_pos h s t); auto.
      + intros (a & <- & Ha). apply (prefix_pos h s t); auto. apply prefixes_In; auto.
  Qed.

  Lemma half_bits : forall k q (st : T), wf (S k) st -> plain st ->
    (forall x, (q * pow2 (S k) <= x < q * pow2 (S k) + pow2 (S k))%N -> mem umem (S k) st x = M x) ->
    code2 st = node_bits s (S k) q.
  Proof.
    intros k q st W Pl HM.
    destruct (code2_plain st k (q * pow2 (S k))) as (b1 & b2 & -> & E1 & E2); auto.
    { apply aligned_ex; eauto. }
    unfold node_bits. rewrite Nat.sub_succ, Nat.sub_0_r. rewrite pow2_S in *. f_equal; [|f_equal]; apply bool_iff.
    - rewrite E1, has_prefix_iff. unfold prefix_of_member. change (2 ^ N.of_nat k)%N with (pow2 k). split.
      + intros (x & Hx & Hm). rewrite HM in Hm by lia. exists x. rewrite <- M_iff. split; auto.
        symmetry. apply block_div. lia.
      + intros (x & Hx & Eq). symmetry in Eq. apply block_div in Eq. exists x. split; [lia|].
        rewrite HM by lia. apply M_iff; auto.
    - rewrite E2, has_prefix_iff. unfold prefix_of_member. change (2 ^ N.of_nat k)%N with (pow2 k). split.
      + intros (x & Hx & Hm). rewrite HM in Hm by lia. exists x. rewrite <- M_iff. split; auto.
        symmetry. apply block_div. lia.
      + intros (x & Hx & Eq). symmetry in Eq. apply block_div in Eq. exists x. split; [lia|].
        rewrite HM by lia. apply M_iff; auto.
  Qed.

  Lemma bits_set : forall l, l < h -> bits (F t l) = level_bits s (h - l).
  Proof.
    intros l Hl. unfold F, level_bits.
    rewrite (bits_npos (fun _ t => plain t) M (fun k p => node_bits s k (p / pow2 k))) with (d := h) (p := 0%N);
      auto using aligned_0.
    - replace (npos h l t 0) with (npos h (h - (h - l)) t 0) by (f_equal; lia).
      rewrite npos_prefixes by lia. rewrite flat_map_map. apply flat_map_ext_in. intros q _.
      rewrite N.div_mul by apply pow2_nz. auto.
    - intros k q st W Pl Ha HM. apply aligned_ex in Ha. destruct Ha as (a & ->).
      rewrite N.div_mul by apply pow2_nz. apply half_bits; auto.
    - exact mem_M.
  Qed.

  Lemma levels_set : levels h t = set_levels h s.
  Proof.
    rewrite <- levels_map. unfold set_levels. apply map_ext_in. intros l Hl. apply in_seq in Hl.
    apply bits_set. lia.
  Qed.

  (** * With runs *)

  Lemma increasing_NoDup : NoDup s.
  Proof.
    clear - Hs. induction Hs as [|x s0 Hs0 IH Hx]; constructor; auto. intros Hin.
    rewrite Forall_forall in Hx. specialize (Hx x Hin). lia.
  Qed.

  Lemma all_in_iff : forall k q, all_in s k q = true <-> forall x, (x / pow2 k = q)%N -> In x s.
  Proof.
    intros k q. unfold all_in. change (2 ^ N.of_nat k)%N with (pow2 k). rewrite N.eqb_eq.
    set (f := filter _ s).
    assert (Nf : NoDup f) by (apply NoDup_filter, increasing_NoDup).
    assert (If : forall x, In x f <-> In x s /\ (x / pow2 k = q)%N).
    { intros x. unfold f. rewrite filter_In, N.eqb_eq. tauto. }
    assert (Ir : forall x, In x (nrange (q * pow2 k) (2 ^ k)) <-> (x / pow2 k = q)%N).
    { intros x. rewrite In_half. apply block_div. }
    assert (Nr : NoDup (nrange (q * pow2 k) (2 ^ k))).
    { generalize (nrange_sorted (2 ^ k) (q * pow2 k)). generalize (nrange (q * pow2 k) (2 ^ k)). clear.
      intros l H. induction H as [|x l Hl IH Hx]; constructor; auto. intros Hin.
      rewrite Forall_forall in Hx. specialize (Hx x Hin). lia. }
    assert (Lr := nrange_length (2 ^ k) (q * pow2 k)).
    assert (If' : incl f (nrange (q * pow2 k) (2 ^ k))) by (intros x Hx; apply Ir, If; auto).
    assert (EP := of_nat_pow2 k). split.
    - intros E x Hx. apply Ir in Hx.
      apply (NoDup_length_incl Nf) in If'; [|rewrite Lr; lia]. apply If. auto.
    - intros H. rewrite <- EP. f_equal. apply Nat.le_antisymm.
      + rewrite <- Lr. apply NoDup_incl_length; auto.
      + rewrite <- Lr at 1. apply NoDup_incl_length; auto. intros x Hx. apply If. apply Ir in Hx. auto.
  Qed.

  Lemma code2_ucompress : forall k q (st : T), wf (S k) st -> plain st ->
    (forall x, (q * pow2 (S k) <= x < q * pow2 (S k) + pow2 (S k))%N -> mem umem (S k) st x = M x) ->
    code2 (ucompress st) = run_bits s (S k) q.
  Proof.
    intros k q st W Pl HM. assert (HB := half_bits k q st W Pl HM).
    assert (Af : aligned (S k) (q * pow2 (S k))) by (apply aligned_ex; eauto).
    assert (Ef : ufullt st = all_in s (S k) q).
    { apply bool_iff. rewrite (full_iff st (S k) (q * pow2 (S k))), all_in_iff by auto. split; intros H x Hx.
      - apply M_iff. rewrite <- HM; [apply H|]; apply block_div; auto.
      - rewrite HM by auto. apply M_iff, H, block_div; auto. }
    unfold run_bits. rewrite <- Ef, <- HB. clear HB Ef HM Af.
    destruct st as [a| |l|r|l r]; cbn [wf plain pred] in W, Pl; try lia; try tauto; unfold ucompress, ufullt;
      cbn [compress full code2]; rewrite ?andb_false_r; auto.
    destruct W as (_ & W1 & W2).
    replace (true && is_leaf l && is_leaf r)%bool with (negb (2 <=? S k)).
    - rewrite negb_involutive, andb_comm. destruct ((2 <=? S k) && (full ufull l && full ufull r))%bool; auto.
    - destruct k as [|k].
      + destruct l, r; cbn in W1, W2; try lia; auto.
      + destruct l; cbn [wf] in W1; try discriminate; cbn [is_leaf andb]; auto.
  Qed.

  Lemma npos_run_prefixes : forall k, 1 <= k <= h ->
    npos h (h - k) (ucompress t) 0 =
    map (fun q => (q * pow2 k)%N) (filter (fun q => negb (all_in s (S k) (q / 2))) (prefixes s k)).
  Proof.
    intros k Hk. apply sorted_unique.
    - apply npos_sorted; auto using aligned_0; [|lia]. apply compress_wf; auto.
    - apply StronglySorted_map; [intros x y H; assert (P := pow2_pos k); nia|].
      apply filter_sorted. apply prefixes_sorted; auto.
    - intros q. rewrite npos_compress by (auto using aligned_0; lia).
      rewrite npos_prefixes by lia. rewrite !in_map_iff.
      assert (G : forall a, In a (prefixes s k) ->
        (survives h (h - k) (mem umem h t) (a * pow2 k) <-> negb (all_in s (S k) (a / 2)) = true)).
      { intros a Ha. apply prefixes_In in Ha.
        assert (Eb : forall y, (y / pow2 (S k) = a * pow2 k / pow2 (S k) <-> y / pow2 (S k) = a / 2)%N).
        { intros y. rewrite pow2_S. rewrite (N.mul_comm 2 (pow2 k)), <- !N.div_div by (try apply pow2_nz; lia).
          rewrite N.div_mul by apply pow2_nz. tauto. }
        assert (La : (a * pow2 k < pow2 h)%N).
        { destruct Ha as (x & Hx & ->). specialize (Hb x Hx).
          assert (D := N.div_mod x (pow2 k) (pow2_nz k)). change (2 ^ N.of_nat k)%N with (pow2 k). lia. }
        assert (N0 : (exists y, (y / pow2 (S k) = a / 2)%N /\ ~ In y s) <-> negb (all_in s (S k) (a / 2)) = true).
        { rewrite negb_true_iff. destruct (all_in s (S k) (a / 2)) eqn:E.
          - split; [|discriminate]. intros (y & Ey & Hy). exfalso. apply Hy. rewrite all_in_iff in E. auto.
          - split; auto. intros _. destruct (forallb M (nrange (a / 2 * pow2 (S k)) (2 ^ S k))) eqn:EF.
            + exfalso. assert (all_in s (S k) (a / 2) = true); [|congruence]. apply all_in_iff. intros x Hx.
              rewrite forallb_forall in EF. apply M_iff. apply EF. apply In_half. apply block_div. auto.
            + assert (X : exists y, In y (nrange (a / 2 * pow2 (S k)) (2 ^ S k)) /\ M y = false).
              { clear - EF. induction (nrange (a / 2 * pow2 (S k)) (2 ^ S k)) as [|x l IH]; [discriminate|].
                cbn [forallb] in EF. destruct (M x) eqn:E.
                - destruct (IH EF) as (y & ? & ?). exists y. split; auto. right; auto.
                - exists x. split; auto. left; auto. }
              destruct X as (y & Hy & En). exists y. split; [apply block_div, In_half; auto|].
              rewrite <- M_iff. congruence. }
        rewrite <- N0. destruct (Nat.eq_dec k h) as [->|Hn].
        - split; [|intros _; unfold survives; left; lia]. intros _.
          exists (a / 2 * pow2 (S h) + pow2 h)%N. split.
          + apply block_div. assert (P := pow2_pos h). rewrite pow2_S. lia.
          + intros Hin. apply Hb in Hin. lia.
        - rewrite (survives_iff h s t) by (auto; lia). replace (Nat.max 2 (S k)) with (S k) by lia.
          split; intros (y & Ey & Hy); exists y; (split; [|auto]); apply Eb; auto. }
      split.
      + intros ((a & <- & Ha) & S0). exists a. split; auto. apply filter_In. split; auto. apply G; auto.
      + intros (a & <- & Ha). apply filter_In in Ha. destruct Ha as (Ha & E). split; [eauto|]. apply G; auto.
  Qed.

  Lemma bits_runs : forall l, l < h -> bits (F (ucompress t) l) = run_level_bits s (h - l).
  Proof.
    intros l Hl. unfold F, run_level_bits.
    rewrite (bits_npos (fun k st => exists t0, wf k t0 /\ plain t0 /\ st = ucompress t0) M
      (fun k p => run_bits s k (p / pow2 k))) with (d := h) (p := 0%N); auto using aligned_0.
    - replace (npos h l (ucompress t) 0) with (npos h (h - (h - l)) (ucompress t) 0) by (f_equal; lia).
      rewrite npos_run_prefixes by lia. rewrite flat_map_map. apply flat_map_ext_in. intros q _.
      rewrite N.div_mul by apply pow2_nz. auto.
    - intros k a (t0 & W & Pl & E). destruct t0; try discriminate.
      + unfold ucompress in E. cbn [compress] in E. injection E as ->. cbn [wf plain pred] in W, Pl.
        exists t0. tauto.
      + unfold ucompress in E. cbn [compress] in E. destruct (_ && _)%bool; discriminate.
    - intros k a (t0 & W & Pl & E). destruct t0; try discriminate.
      + unfold ucompress in E. cbn [compress] in E. injection E as ->. cbn [wf plain pred] in W, Pl.
        exists t0. tauto.
      + unfold ucompress in E. cbn [compress] in E. destruct (_ && _)%bool; discriminate.
    - intros k a b (t0 & W & Pl & E). destruct t0; try discriminate.
      unfold ucompress in E. cbn [compress] in E. destruct (_ && _)%bool; [discriminate|].
      injection E as -> ->. cbn [wf plain pred] in W, Pl. split; [exists t0_1|exists t0_2]; tauto.
    - intros k q st W (t0 & W0 & P0 & ->) Ha HM. apply aligned_ex in Ha. destruct Ha as (a & ->).
      rewrite N.div_mul by apply pow2_nz. apply code2_ucompress; auto.
      intros x Hx. rewrite <- HM by auto. symmetry. apply compress_mem. reflexivity.
    - apply compress_wf; auto.
    - exists t. auto.
    - intros x Hx. rewrite <- mem_M by auto. apply compress_mem. reflexivity.
  Qed.

  Lemma levels_runs : levels h (ucompress t) = run_levels h s.
  Proof.
    rewrite <- levels_map. unfold run_levels. apply map_ext_in. intros l Hl. apply in_seq in Hl.
    apply bits_runs; lia.
  Qed.
End SetBits.
