(** A second encodeRuns on a flat trie that lost its last level. *)

From Verif Require Import Base FlatTrie Facts Tree Groups Reps Layout BuildFlat Compress WriteOnes InterLimits
  TwiceRuns TwiceWrite TwiceDecode.

Section Lost.
  Variable T : tree unit.
  Variable h : nat.
  Let m := nodelev T.
  Hypothesis Hwf : wf h T.
  Hypothesis Hm1 : 1 <= m.
  Hypothesis Hmh : m < h.
  Variable t : flat.
  Hypothesis Eh : f_height t = h.
  Hypothesis Eb : f_bTrie t = prebits T (m - 1).
  Hypothesis Er : f_rank t = prebits T (m - 1).
  Let R := reps (flat_getNode t) (flat_getLeftChild t) (flat_getRightChild t) uok.

  Lemma lost_node : forall i k s, nth_error (F T i) k = Some s -> i < m - 1 ->
    flat_getNode t (off T i + k) i = Ok (node_code (has_left s) (has_right s)) /\
    (has_left s = true -> flat_getLeftChild t (off T i + k) i = Ok (off T (S i) + idx T i k)) /\
    (has_right s = true -> flat_getRightChild t (off T i + k) i
       = Ok (off T (S i) + (idx T i k + b2n (has_left s)))).
  Proof.
    intros i k s Hs Hi.
    destruct (prebits_node _ T h (m - 1) i k s Hwf ltac:(lia) Hi Hs) as (V1 & V2 & RL & RR).
    unfold flat_getNode, flat_getLeftChild, flat_getRightChild. rewrite Eh, Eb, Er.
    replace (S i <? h) with true by (symmetry; apply Nat.ltb_lt; lia).
    replace (h <=? S i) with false by (symmetry; apply Nat.leb_gt; lia).
    rewrite V1. cbn [bind]. rewrite V2. cbn [bind]. auto.
  Qed.

  Lemma lost_end : forall k, flat_getNode t (off T (m - 1) + k) (m - 1) = UB OutOfBounds.
  Proof.
    intros k. unfold flat_getNode. rewrite Eh, Eb.
    replace (S (m - 1) <? h) with true by (symmetry; apply Nat.ltb_lt; lia).
    unfold vget at 1. replace (nth_error _ _) with (@None bool); [reflexivity|].
    symmetry. apply nth_error_None. rewrite (prebits_length T h Hwf) by lia. lia.
  Qed.

  (** What stays inside the bit vector is still represented. *)
  Lemma lost_reps : forall s i k, nth_error (F T i) k = Some s -> i + nodelev s < m -> R s i (off T i + k).
  Proof.
    induction s as [a| |s IH|s IH|s1 IH1 s2 IH2]; intros i k Hs Hm; cbn [nodelev] in Hm; unfold R; cbn [reps].
    - exact I.
    - destruct (lost_node _ _ _ Hs ltac:(lia)) as (-> & _). reflexivity.
    - destruct (lost_node _ _ _ Hs ltac:(lia)) as (-> & HL & _). split; [reflexivity|].
      rewrite HL by auto. eexists; split; [reflexivity|]. apply IH; [|lia].
      assert (Hc := idx_child T _ _ _ 0 s Hs eq_refl). rewrite Nat.add_0_r in Hc. exact Hc.
    - destruct (lost_node _ _ _ Hs ltac:(lia)) as (-> & _ & HR). split; [reflexivity|].
      rewrite HR by auto. eexists; split; [reflexivity|]. apply IH; [|lia].
      exact (idx_child T _ _ _ 0 s Hs eq_refl).
    - destruct (lost_node _ _ _ Hs ltac:(lia)) as (-> & HL & HR).
      assert (Hc1 := idx_child T _ _ _ 0 s1 Hs eq_refl). rewrite Nat.add_0_r in Hc1.
      assert (Hc2 := idx_child T _ _ _ 1 s2 Hs eq_refl).
      split; [reflexivity|]. rewrite HL, HR by auto. split; eexists; (split; [reflexivity|]).
      + split; [apply IH1; auto; lia|]. rewrite <- Nat.add_assoc. apply IH2; auto; lia.
      + apply IH2; auto; lia.
  Qed.

  Lemma lost_compress : forall s i k O P fuel,
    nth_error (F T i) k = Some s -> is_leaf s = false -> wf (h - i) s ->
    settled ufull true s -> deep true (h - i) s -> i + nodelev s = m -> h - i <= fuel ->
    writeCompressTrie h (flat_getNode t) (flat_getLeftChild t) (flat_getRightChild t) fuel
      (mk h O P) i (off T i + k) false = UB OutOfBounds.
  Proof.
    assert (Lf : forall i k c, nth_error (F T i) k = Some c -> i < h -> is_leaf c = false).
    { intros. eapply F_notleaf; eauto. eapply nth_error_In; eauto. }
    induction s as [a| |s IH|s IH|s1 IH1 s2 IH2]; intros i k O P fuel Hs Hl Hw Hse Hdp Hm Hf;
      (destruct fuel as [|fuel]; [cbn [nodelev] in Hm; lia|]); cbn [writeCompressTrie];
      (destruct (Nat.eq_dec i (m - 1)) as [->|Ei]; [rewrite lost_end; reflexivity|]); cbn [nodelev] in Hm.
    - discriminate.
    - lia.
    - destruct (lost_node _ _ _ Hs ltac:(lia)) as (-> & HL & _).
      cbn [bind has_left has_right]. change (node_code true false) with 2%N.
      replace (S i =? h) with false by (symmetry; apply Nat.eqb_neq; lia).
      rewrite vget_pos by lia. cbn [bind N.eqb Pos.eqb]. rewrite HL by auto. cbn [bind].
      rewrite vget_pos by lia. cbn [bind]. rewrite push_one_mk by lia. cbn [bind].
      assert (Hc := idx_child T _ _ _ 0 s Hs eq_refl). rewrite Nat.add_0_r in Hc.
      cbn [wf settled deep] in *. replace (pred (h - i)) with (h - S i) in * by lia.
      rewrite (IH (S i) _ _ _ fuel Hc (Lf _ _ _ Hc ltac:(lia))); auto; try lia. apply Hw.
    - destruct (lost_node _ _ _ Hs ltac:(lia)) as (-> & _ & HR).
      cbn [bind has_left has_right]. change (node_code false true) with 1%N.
      replace (S i =? h) with false by (symmetry; apply Nat.eqb_neq; lia).
      rewrite vget_pos by lia. cbn [bind N.eqb Pos.eqb]. rewrite add_pos_mk by lia. cbn [bind].
      rewrite HR by auto. cbn [bind].
      rewrite vget_pos by lia. cbn [bind]. rewrite push_one_mk by lia. cbn [bind].
      assert (Hc := idx_child T _ _ _ 0 s Hs eq_refl).
      cbn [wf settled deep] in *. replace (pred (h - i)) with (h - S i) in * by lia.
      rewrite (IH (S i) _ _ _ fuel Hc (Lf _ _ _ Hc ltac:(lia))); auto; try lia. apply Hw.
    - destruct (lost_node _ _ _ Hs ltac:(lia)) as (-> & HL & _).
      cbn [bind has_left has_right]. change (node_code true true) with 3%N.
      replace (S i =? h) with false by (symmetry; apply Nat.eqb_neq; lia).
      rewrite vget_pos by lia. cbn [bind N.eqb Pos.eqb]. rewrite HL by auto. cbn [bind].
      assert (Hc1 := idx_child T _ _ _ 0 s1 Hs eq_refl). rewrite Nat.add_0_r in Hc1.
      assert (Hc2 := idx_child T _ _ _ 1 s2 Hs eq_refl).
      cbn [wf settled deep] in *. replace (pred (h - i)) with (h - S i) in * by lia.
      destruct Hw as (_ & W1 & W2), Hse as (_ & S1 & S2), Hdp as (D1 & D2).
      destruct (Nat.eq_dec (S i + nodelev s1) m) as [E1|E1].
      { rewrite (IH1 (S i) _ _ _ fuel Hc1 (Lf _ _ _ Hc1 ltac:(lia))); auto; lia. }
      destruct (wc_again h (flat_getNode t) (flat_getLeftChild t) (flat_getRightChild t)
                  s1 (h - S i) (S i) (off T (S i) + idx T i k) O P fuel) as (O' & P' & -> & _); auto; try lia.
      { apply lost_reps; auto. lia. }
      cbn [bind]. rewrite <- Nat.add_assoc.
      rewrite (IH2 (S i) _ _ _ fuel Hc2 (Lf _ _ _ Hc2 ltac:(lia))); auto; lia.
  Qed.

  Theorem lost_encode : settled ufull true T -> deep true h T -> flat_encodeRuns t = UB OutOfBounds.
  Proof.
    intros Hs Hd. unfold flat_encodeRuns. rewrite Eh. unfold compress_run.
    replace (repeat [] h, repeat 0 h) with (mk h (fun _ => []) (fun _ => 0)).
    2:{ unfold mk. rewrite !map_const_seq. reflexivity. }
    assert (E := lost_compress T 0 0 (fun _ => []) (fun _ => 0) (S h) eq_refl).
    cbn [off Nat.add] in E. rewrite E; auto; try lia.
    - destruct T; auto; cbn in *; lia.
    - rewrite Nat.sub_0_r. auto.
    - rewrite Nat.sub_0_r. auto.
  Qed.
End Lost.
