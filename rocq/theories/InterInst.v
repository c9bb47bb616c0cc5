(** From lists of tries to forests, and the two instances of the intersection:
    tries of bits ([Bin]) and tries of words ([Fast]). *)

From Coq Require Import Permutation.
From Verif Require Import Base FlatTrie LevelTrie FastTrie ParallelFor Intersection Facts Tree Groups Reps
  Layout BuildFast WordBits Spec RunsFacts InterSpec InterSeq ParFacts InterPar InterPlan InterTop.

Section Inst.
  Context {A : Type}.
  Variable lok : trie_ops -> nat -> A -> Prop.
  Variable lmem : A -> N -> bool.
  Variable lg D maxLevel : nat.

  (** A trie seen through its methods holds the tree [t]. *)
  Definition repr (o : trie_ops) (t : tree A) : Prop :=
    t_height o = maxLevel /\ wf D t /\
    reps (t_getNode o) (t_getLeft o) (t_getRight o) (lok o) t 0 0.

  Definition forest_of (ts : list (tree A)) : forest (A := A) := fun i => nth_error ts i.

  Variable Ts : list trie_ops.
  Variable ts : list (tree A).
  Hypothesis HR : Forall2 repr Ts ts.

  Definition leafok (i : nat) : nat -> A -> Prop := lok (T Ts i).

  Lemma inst_length : length Ts = length ts.
  Proof. eapply Forall2_length; eauto. Qed.

  Lemma inst_nth : forall i t, nth_error ts i = Some t -> repr (T Ts i) t.
  Proof.
    intros i t E. destruct (nth_error Ts i) as [o|] eqn:Eo.
    - destruct (Forall2_nth _ _ _ _ _ _ _ HR Eo) as (t' & E' & H).
      rewrite E in E'. inversion E'; subst.
      unfold T. erewrite nth_error_nth; eauto.
    - apply nth_error_None in Eo. assert (nth_error ts i <> None) by congruence.
      apply nth_error_Some in H. rewrite inst_length in Eo. lia.
  Qed.

  Lemma inst_heights : forall o, In o Ts -> t_height o = maxLevel.
  Proof.
    intros o Ho. apply In_nth_error in Ho. destruct Ho as (i & Ei).
    destruct (Forall2_nth _ _ _ _ _ _ _ HR Ei) as (t & _ & (H & _)). auto.
  Qed.

  Lemma inst_okf : forall noroot, length Ts <= 16 ->
    okf Ts leafok noroot D 0 init_roots (forest_of ts).
  Proof.
    intros noroot Hn i t Hi E. destruct (inst_nth i t E) as (_ & W & R). split; auto.
    right. exists 0. split; auto. apply aget_Some. apply nth_error_repeat. lia.
  Qed.

  Lemma inst_somes : somes Ts (forest_of ts).
  Proof.
    intros i Hi. unfold forest_of. rewrite inst_length in Hi. apply nth_error_Some. auto.
  Qed.

  Lemma inst_plains : Forall plain ts -> plains Ts (forest_of ts).
  Proof.
    intros H i Hi. unfold forest_of. rewrite inst_length in Hi.
    destruct (nth_error ts i) as [t|] eqn:E; [|apply nth_error_None in E; lia].
    exists t. split; auto. rewrite Forall_forall in H. apply H. eapply nth_error_In; eauto.
  Qed.

  Lemma inst_noruns : forall c, Forall (noruns c) ts -> noruns_f Ts c (forest_of ts).
  Proof.
    intros c H i t Hi E. rewrite Forall_forall in H. apply H. eapply nth_error_In; eauto.
  Qed.

  (** The intersection of the trees is the intersection of their sets. *)
  Lemma inst_inter : forall sets, 1 <= length Ts ->
    Forall2 (fun t s => sel lmem (D + lg) t 0 = s) ts sets ->
    is_intersection sets (inter lmem lg (length Ts) D (forest_of ts) 0).
  Proof.
    intros sets H1 Hs. split.
    { apply filter_sorted, nrange_sorted. }
    intros x. unfold inter. rewrite filter_In, In_nrange, of_nat_pow2. unfold fmem.
    rewrite forallb_seq, inst_length. unfold forest_of. split.
    - intros (Hx & Hall). apply Forall_forall. intros s Hin.
      apply In_nth_error in Hin. destruct Hin as (i & Ei).
      destruct (nth_error ts i) as [t|] eqn:Et.
      + destruct (Forall2_nth _ _ _ _ _ _ _ Hs Et) as (s' & E' & Hsel).
        rewrite Ei in E'. injection E' as <-. rewrite <- Hsel. unfold sel.
        apply filter_In. rewrite In_nrange, of_nat_pow2. split; auto.
        specialize (Hall i). rewrite Et in Hall. apply Hall.
        apply nth_error_Some. congruence.
      + apply nth_error_None in Et. rewrite (Forall2_length Hs) in Et.
        assert (nth_error sets i <> None) by congruence. apply nth_error_Some in H. lia.
    - intros Hall. rewrite Forall_forall in Hall. split.
      + assert (E0 : exists t, nth_error ts 0 = Some t).
        { destruct (nth_error ts 0) eqn:E; eauto. apply nth_error_None in E. rewrite inst_length in H1. lia. }
        destruct E0 as (t & E0).
        destruct (Forall2_nth _ _ _ _ _ _ _ Hs E0) as (s' & E' & Hsel).
        assert (Hx : In x s') by (apply Hall; eapply nth_error_In; eauto).
        rewrite <- Hsel in Hx. unfold sel in Hx. rewrite filter_In, In_nrange, of_nat_pow2 in Hx. tauto.
      + intros i Hi. destruct (nth_error ts i) as [t|] eqn:Et; auto.
        destruct (Forall2_nth _ _ _ _ _ _ _ Hs Et) as (s' & E' & Hsel).
        assert (Hx : In x s') by (apply Hall; eapply nth_error_In; eauto).
        rewrite <- Hsel in Hx. unfold sel in Hx. rewrite filter_In in Hx. tauto.
  Qed.
End Inst.

(** * Runs and full blocks *)

Lemma aligned_block : forall b d p q, b <= d -> aligned d p -> aligned b q ->
  (p <= q < p + pow2 d)%N -> (q + pow2 b <= p + pow2 d)%N.
Proof.
  intros b d p q Hb Hp Hq Hl. apply aligned_ex in Hp, Hq. destruct Hp as (i & ->), Hq as (j & ->).
  assert (E : pow2 d = (pow2 (d - b) * pow2 b)%N).
  { unfold pow2. rewrite <- N.pow_add_r. f_equal. lia. }
  rewrite E in *. assert (G := pow2_pos b). set (m := pow2 b) in *. set (k := pow2 (d - b)) in *.
  assert (j < i * k + k)%N by (apply (N.mul_lt_mono_pos_r m); lia).
  replace (j * m + m)%N with ((j + 1) * m)%N by lia.
  replace (i * (k * m) + k * m)%N with ((i * k + k) * m)%N by lia.
  apply N.mul_le_mono_r. lia.
Qed.

(** Without a full aligned block of 2^b values under the root, no run is above
    depth c. *)
Lemma noruns_blocks : forall A (lmem : A -> N -> bool) lg b t c d p,
  wf d t -> aligned (d + lg) p -> b + c = S (d + lg) ->
  (forall q, aligned b q -> (p <= q < p + pow2 (d + lg))%N ->
     exists x, (q <= x < q + pow2 b)%N /\ mem lmem (d + lg) t x = false) ->
  noruns c t.
Proof.
  intros A lmem lg b. induction t as [a| |t IH|t IH|l IHl r IHr]; intros [|c] d p W Ha Hb Hq; auto;
    cbn [wf] in W; cbn [noruns]; auto.
  - destruct (Hq p) as (x & _ & M).
    + apply aligned_le with (d + lg); auto. lia.
    + assert (G := pow2_pos (d + lg)). lia.
    + discriminate.
  - destruct W as (H0 & W). destruct d as [|d]; [lia|]. cbn [pred Nat.add] in *.
    destruct c as [|c]; [destruct t; cbn; auto|].
    apply (IH (S c) d p); auto using aligned_S; try lia.
    intros q Aq Lq. destruct (Hq q Aq ltac:(rewrite pow2_S; lia)) as (x & Hx & M).
    exists x. split; auto. cbn [mem pred] in M.
    rewrite (testbit_left (d + lg) p) in M; auto.
    assert (Hle := aligned_block b (d + lg) p q ltac:(lia) (aligned_S _ _ Ha) Aq Lq). lia.
  - destruct W as (H0 & W). destruct d as [|d]; [lia|]. cbn [pred Nat.add] in *.
    destruct c as [|c]; [destruct t; cbn; auto|].
    apply (IH (S c) d (p + pow2 (d + lg))%N); auto using aligned_right; try lia.
    intros q Aq Lq. destruct (Hq q Aq ltac:(rewrite pow2_S; lia)) as (x & Hx & M).
    exists x. split; auto. cbn [mem pred] in M.
    assert (Hle := aligned_block b (d + lg) _ q ltac:(lia) (aligned_right _ _ Ha) Aq Lq).
    rewrite (testbit_right' (d + lg) p) in M; auto. lia.
  - destruct W as (H0 & W1 & W2). destruct d as [|d]; [lia|]. cbn [pred Nat.add] in *.
    destruct c as [|c]; [destruct l, r; cbn; auto|]. split.
    + apply (IHl (S c) d p); auto using aligned_S; try lia.
      intros q Aq Lq. destruct (Hq q Aq ltac:(rewrite pow2_S; lia)) as (x & Hx & M).
      exists x. split; auto. cbn [mem pred] in M.
      assert (Hle := aligned_block b (d + lg) p q ltac:(lia) (aligned_S _ _ Ha) Aq Lq).
      rewrite (testbit_left (d + lg) p) in M; auto. lia.
    + apply (IHr (S c) d (p + pow2 (d + lg))%N); auto using aligned_right; try lia.
      intros q Aq Lq. destruct (Hq q Aq ltac:(rewrite pow2_S; lia)) as (x & Hx & M).
      exists x. split; auto. cbn [mem pred] in M.
      assert (Hle := aligned_block b (d + lg) _ q ltac:(lia) (aligned_right _ _ Ha) Aq Lq).
      rewrite (testbit_right' (d + lg) p) in M; auto. lia.
Qed.

(** * The two kinds of tries *)

Section BinInst.
  Variable h : nat.
  Variable Ts : list trie_ops.
  Notation n := (length Ts).

  Definition lok_bin (o : trie_ops) : nat -> unit -> Prop := uok.

  Lemma bin_end : forall lvl, lvl <= h -> at_end Bin h lvl = (lvl =? h).
  Proof. auto. Qed.

  Lemma bin_tot : total_bits Bin h = h + 0.
  Proof. clear. cbn. lia. Qed.

  Lemma bin_last : forall lvl, lvl < h -> S lvl = h -> true = true /\ S lvl = h.
  Proof. auto. Qed.

  Lemma bin_leaf : forall active roots (X : forest (A := unit)) p r,
    (forall i, i < n -> active i = Ok (is_some (X i))) ->
    okf Ts (leafok lok_bin Ts) true 0 h roots X -> aligned 0 p ->
    and_leaf Bin Ts n active roots p r = Ok (r ++ inter umem 0 n 0 X p).
  Proof.
    intros active roots X p r Ha HX Hp. cbn [and_leaf]. do 2 f_equal.
    unfold inter. cbn [Nat.add Nat.pow nrange filter].
    replace (fmem umem n 0 X p) with true; auto. symmetry. apply forallb_seq. intros i Hi.
    destruct (X i) as [t|] eqn:E; auto. destruct (HX i t Hi E) as (W & _).
    apply wf_leaf in W. destruct W as (a & ->). reflexivity.
  Qed.
End BinInst.

Section FastInst.
  Variables lw d : nat.
  Hypothesis Hlw : lw <= 6.
  Variable Ts : list trie_ops.
  Notation n := (length Ts).

  Definition lok_fast (o : trie_ops) (id : nat) (w : N) : Prop := t_getWord o id = Ok w.

  Lemma fast_end : forall lvl, lvl <= d -> at_end (Fast lw) (S d) lvl = (lvl =? d).
  Proof. intros. reflexivity. Qed.

  Lemma fast_tot : total_bits (Fast lw) (S d) = d + lw.
  Proof. clear. cbn. lia. Qed.

  Lemma fast_last : forall lvl, lvl < d -> S lvl = S d -> false = true /\ S lvl = d.
  Proof. clear. intros; lia. Qed.

  Lemma wmax_bound : (wmax lw < 2 ^ pow2 lw)%N.
  Proof.
    unfold wmax. rewrite wbits_pow2, N.ones_equiv.
    assert (0 < 2 ^ pow2 lw)%N by (apply N.neq_0_lt_0, N.pow_nonzero; lia). lia.
  Qed.

  Lemma fast_leaf : forall active roots (X : forest (A := N)) p r,
    (forall i, i < n -> active i = Ok (is_some (X i))) ->
    okf Ts (leafok lok_fast Ts) false 0 d roots X -> aligned lw p ->
    and_leaf (Fast lw) Ts n active roots p r = Ok (r ++ inter (wmem lw) lw n 0 X p).
  Proof.
    intros active roots X p r Ha HX Hp. cbn [and_leaf].
    loop_inv (fun j w => (w < 2 ^ pow2 lw)%N /\ forall x,
      wmem lw w x = forallb (fun i => match X i with Some t => mem (wmem lw) lw t x | None => true end) (seq 0 j)) LI.
    destruct LI as (w & -> & (B & E)).
    - split; [apply wmax_bound|]. intros x. unfold wmem, wmax.
      rewrite wbits_pow2, N.ones_spec_low; auto. apply low_lt.
    - intros j w Hj (B & E). cbn [Nat.add] in *. rewrite (Ha j) by lia. cbn [bind].
      destruct (X j) as [t|] eqn:EX; cbn [is_some].
      + destruct (HX j t ltac:(lia) EX) as (W & [(? & _)|(id & Er & R)]); [discriminate|].
        apply wf_leaf in W. destruct W as (a & ->). cbn in R. unfold leafok, lok_fast in R.
        rewrite vget_T by lia. cbn [bind]. rewrite Er. cbn [bind]. rewrite R. cbn [bind].
        eexists; split; [reflexivity|]. split.
        * destruct (N.eq_dec (N.land w a) 0) as [->|Nz]; [lia|].
          apply N.log2_lt_pow2; [lia|]. assert (L := N.log2_land w a).
          destruct (N.eq_dec w 0) as [->|Nw]; [rewrite N.land_0_l in Nz; congruence|].
          apply N.log2_lt_pow2 in B; lia.
        * intros x. rewrite forallb_seq_S, <- E, EX. cbn [mem]. unfold wmem. apply N.land_spec.
      + eexists; split; [reflexivity|]. split; auto. intros x.
        rewrite forallb_seq_S, <- E, EX, andb_true_r. auto.
    - cbn [bind]. rewrite word_bits_spec by auto. do 2 f_equal. unfold inter.
      apply filter_ext_in'. intros x _. cbn [Nat.add] in *. rewrite E. reflexivity.
  Qed.
End FastInst.
