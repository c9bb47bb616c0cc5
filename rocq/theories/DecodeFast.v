(** Decoding of fast tries, against the abstract tree. *)

From Verif Require Import Base FlatTrie FastTrie Facts Tree Groups Reps Layout BuildFlat BuildFast WordBits.

Fixpoint all_leaves {A} (P : A -> Prop) (t : tree A) : Prop :=
  match t with
  | Leaf a => P a
  | Full => True
  | TL l => all_leaves P l
  | TR r => all_leaves P r
  | TB l r => all_leaves P l /\ all_leaves P r
  end.

Lemma all_leaves_tree_of : forall A (P : A -> Prop) mk lg d s,
  (forall s, P (mk s)) -> all_leaves P (tree_of mk lg d s).
Proof.
  intros A P mk lg d. induction d; intros s HP; cbn; auto.
  destruct (lefts _ s), (rights _ s); cbn; auto.
Qed.

Lemma all_leaves_compress : forall A (P : A -> Prop) lfull keep t,
  all_leaves P t -> all_leaves P (compress lfull keep t).
Proof.
  intros A P lfull keep t. induction t; cbn [compress all_leaves]; intros; auto.
  destruct H. destruct (_ && _)%bool; cbn; auto.
Qed.

Section Decode.
  Variable t : fast.
  Let lw := x_lw t.
  Hypothesis Hlw : lw <= 6.

  Let R := reps (fast_getNode t) (fast_getLeftChild t) (fast_getRightChild t)
                (fun id w => fast_getWord t id = Ok w).
  Let small (w : N) : Prop := (w < 2 ^ pow2 lw)%N.

  Lemma fast_recursiveDecode_spec : forall T d lvl id p dec fuel,
    wf d T -> plain T -> all_leaves small T ->
    lvl + d + 1 = x_height t -> lvl + d + lw = x_height_u t -> x_height_u t <= 64 ->
    aligned (d + lw) p -> d <= fuel -> R T lvl id ->
    fast_recursiveDecode fuel t dec p id lvl = Ok (dec ++ sel (wmem lw) (d + lw) T p).
  Proof.
    induction T; intros d lvl id p dec fuel Hwf Hpl Hsm Hh Hhu H64 Ha Hf Hr; cbn in Hwf, Hpl, Hsm.
    - subst d.
      assert (E : fast_recursiveDecode fuel t dec p id lvl =
                  let* w := fast_getWord t id in word_bits (word_fuel (x_lw t)) (x_lw t) w p dec).
      { destruct fuel; cbn [fast_recursiveDecode];
        replace (S lvl =? x_height t) with true by (symmetry; apply Nat.eqb_eq; lia); reflexivity. }
      rewrite E. cbn in Hr. rewrite Hr. cbn [bind]. fold lw. rewrite word_bits_spec by auto. reflexivity.
    - tauto.
    - destruct Hwf as (H0 & Hwf). destruct d as [|d]; [lia|]. cbn [pred Nat.add] in *.
      destruct fuel as [|fuel]; [lia|]. cbn [fast_recursiveDecode].
      replace (S lvl =? x_height t) with false by (symmetry; apply Nat.eqb_neq; lia).
      destruct Hr as (Hn & c & Hc & Hr). rewrite Hn. cbn [bind N.eqb orb Pos.eqb].
      rewrite Hc. cbn [bind]. rewrite (IHT d) by (auto using aligned_S; lia).
      cbn [bind]. rewrite sel_TL by auto. auto.
    - destruct Hwf as (H0 & Hwf). destruct d as [|d]; [lia|]. cbn [pred Nat.add] in *.
      destruct fuel as [|fuel]; [lia|]. cbn [fast_recursiveDecode].
      replace (S lvl =? x_height t) with false by (symmetry; apply Nat.eqb_neq; lia).
      destruct Hr as (Hn & c & Hc & Hr). rewrite Hn. cbn [bind N.eqb orb Pos.eqb].
      replace (x_height_u t - lvl - 1) with (d + lw) by lia.
      rewrite shl1_pow2 by lia. cbn [bind]. rewrite Hc. cbn [bind].
      rewrite lor_right by auto. rewrite (IHT d) by (auto using aligned_right; lia).
      rewrite sel_TR by auto. auto.
    - destruct Hwf as (H0 & Hwf1 & Hwf2). destruct d as [|d]; [lia|]. cbn [pred Nat.add] in *.
      destruct Hpl as (P1 & P2). destruct Hsm as (S1 & S2).
      destruct fuel as [|fuel]; [lia|]. cbn [fast_recursiveDecode].
      replace (S lvl =? x_height t) with false by (symmetry; apply Nat.eqb_neq; lia).
      destruct Hr as (Hn & (c & Hc & Hr1 & _) & (c' & Hc' & Hr2)). rewrite Hn.
      cbn [bind N.eqb orb Pos.eqb]. rewrite Hc. cbn [bind].
      rewrite (IHT1 d) by (auto using aligned_S; lia). cbn [bind].
      replace (x_height_u t - lvl - 1) with (d + lw) by lia.
      rewrite shl1_pow2 by lia. cbn [bind]. rewrite Hc'. cbn [bind].
      rewrite lor_right by auto. rewrite (IHT2 d) by (auto using aligned_right; lia).
      rewrite sel_TB by auto. rewrite app_assoc. auto.
  Qed.

  Lemma fast_runsRecursiveDecode_spec : forall T d lvl id p dec fuel,
    wf d T -> all_leaves small T ->
    lvl + d + 1 = x_height t -> lvl + d + lw = x_height_u t -> x_height_u t < 64 ->
    aligned (d + lw) p -> d <= fuel -> R T lvl id ->
    fast_runsRecursiveDecode fuel t dec p id lvl = Ok (dec ++ sel (wmem lw) (d + lw) T p).
  Proof.
    induction T; intros d lvl id p dec fuel Hwf Hsm Hh Hhu H64 Ha Hf Hr; cbn in Hwf, Hsm.
    - subst d.
      assert (E : fast_runsRecursiveDecode fuel t dec p id lvl =
                  let* w := fast_getWord t id in word_bits (word_fuel (x_lw t)) (x_lw t) w p dec).
      { destruct fuel; cbn [fast_runsRecursiveDecode];
        replace (S lvl =? x_height t) with true by (symmetry; apply Nat.eqb_eq; lia); reflexivity. }
      rewrite E. cbn in Hr. rewrite Hr. cbn [bind]. fold lw. rewrite word_bits_spec by auto. reflexivity.
    - destruct fuel as [|fuel]; [lia|]. cbn [fast_runsRecursiveDecode].
      replace (S lvl =? x_height t) with false by (symmetry; apply Nat.eqb_neq; lia).
      cbn in Hr. rewrite Hr. cbn [bind N.eqb].
      replace (x_height_u t - lvl) with (d + lw) by lia.
      rewrite shl1_pow2 by lia. cbn [bind].
      rewrite push_range_aligned by auto. rewrite sel_Full. auto.
    - destruct Hwf as (H0 & Hwf). destruct d as [|d]; [lia|]. cbn [pred Nat.add] in *.
      destruct fuel as [|fuel]; [lia|]. cbn [fast_runsRecursiveDecode].
      replace (S lvl =? x_height t) with false by (symmetry; apply Nat.eqb_neq; lia).
      destruct Hr as (Hn & c & Hc & Hr). rewrite Hn. cbn [bind N.eqb orb Pos.eqb].
      rewrite Hc. cbn [bind]. rewrite (IHT d) by (auto using aligned_S; lia).
      cbn [bind]. rewrite sel_TL by auto. auto.
    - destruct Hwf as (H0 & Hwf). destruct d as [|d]; [lia|]. cbn [pred Nat.add] in *.
      destruct fuel as [|fuel]; [lia|]. cbn [fast_runsRecursiveDecode].
      replace (S lvl =? x_height t) with false by (symmetry; apply Nat.eqb_neq; lia).
      destruct Hr as (Hn & c & Hc & Hr). rewrite Hn. cbn [bind N.eqb orb Pos.eqb].
      replace (x_height_u t - lvl - 1) with (d + lw) by lia.
      rewrite shl1_pow2 by lia. cbn [bind]. rewrite Hc. cbn [bind].
      rewrite lor_right by auto. rewrite (IHT d) by (auto using aligned_right; lia).
      rewrite sel_TR by auto. auto.
    - destruct Hwf as (H0 & Hwf1 & Hwf2). destruct d as [|d]; [lia|]. cbn [pred Nat.add] in *.
      destruct Hsm as (S1 & S2).
      destruct fuel as [|fuel]; [lia|]. cbn [fast_runsRecursiveDecode].
      replace (S lvl =? x_height t) with false by (symmetry; apply Nat.eqb_neq; lia).
      destruct Hr as (Hn & (c & Hc & Hr1 & _) & (c' & Hc' & Hr2)). rewrite Hn.
      cbn [bind N.eqb orb Pos.eqb]. rewrite Hc. cbn [bind].
      rewrite (IHT1 d) by (auto using aligned_S; lia). cbn [bind].
      replace (x_height_u t - lvl - 1) with (d + lw) by lia.
      rewrite shl1_pow2 by lia. cbn [bind]. rewrite Hc'. cbn [bind].
      rewrite lor_right by auto. rewrite (IHT2 d) by (auto using aligned_right; lia).
      rewrite sel_TB by auto. rewrite app_assoc. auto.
  Qed.
End Decode.
