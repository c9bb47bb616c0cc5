(** The bit sequences stored by each variant, and why the methods of the variant
    then represent the tree. *)

From Verif Require Import Base FlatTrie LevelTrie FastTrie Facts Tree Reps.

Definition b2n (b : bool) : nat := if b then 1 else 0.

Section Layout.
  Context {A : Type}.
  Variable T : tree A.

  Definition F (i : nat) : list (tree A) := fiter i [T].

  (** Bits of the levels before [i], and number of nodes before level [i]. *)
  Fixpoint prebits (i : nat) : list bool :=
    match i with
    | O => []
    | S i' => prebits i' ++ bits (F i')
    end.

  Fixpoint off (i : nat) : nat :=
    match i with
    | O => 0
    | S i' => off i' + length (F i')
    end.

  Lemma prebits_count : forall i, count_true (prebits i) + 1 = off i + length (F i).
  Proof.
    induction i; cbn [prebits off]; auto.
    rewrite count_true_app, count_bits. change (flat_map kids (F i)) with (F (S i)). lia.
  Qed.

  Lemma off_S : forall i, off (S i) = count_true (prebits i) + 1.
  Proof. intros. rewrite prebits_count. reflexivity. Qed.

  Lemma prebits_split : forall n i, i < n ->
    exists rest, prebits n = prebits i ++ bits (F i) ++ rest.
  Proof.
    induction n; intros; [lia|]. destruct (Nat.eq_dec i n).
    - subst. exists []. cbn. rewrite app_nil_r. auto.
    - destruct (IHn i ltac:(lia)) as (rest & E). exists (rest ++ bits (F n)).
      cbn [prebits]. rewrite E, <- !app_assoc. auto.
  Qed.

  Lemma prebits_levels : forall D i, i <= D -> prebits i = concat (firstn i (levels D T)).
  Proof.
    intros D. induction i; intros H; auto.
    cbn [prebits]. rewrite IHi by lia.
    assert (E : nth_error (levels D T) i = Some (bits (F i))) by (apply levelsF_nth; lia).
    revert E. generalize (bits (F i)) (levels D T). clear. induction i; intros b [|x l] E; cbn in *;
      try discriminate.
    - injection E; intros; subst. rewrite app_nil_r. auto.
    - rewrite <- app_assoc. f_equal. apply IHi; auto.
  Qed.

  Variable D : nat.
  Hypothesis HT : wf D T.

  Lemma F_wf : forall i, i <= D -> Forall (wf (D - i)) (F i).
  Proof. intros. apply fiter_wf; auto. Qed.

  Lemma F_notleaf : forall i t, i < D -> In t (F i) -> is_leaf t = false.
  Proof.
    intros i t H Ht. assert (Hw := F_wf i ltac:(lia)). rewrite Forall_forall in Hw.
    apply Hw in Ht. apply (wf_not_leaf (D - i)); auto; lia.
  Qed.

  Lemma prebits_length : forall i, i <= D -> length (prebits i) = 2 * off i.
  Proof.
    induction i; intros; auto. cbn [prebits off]. rewrite app_length, IHi by lia.
    rewrite bits_length; [lia|]. intros; eapply F_notleaf; [|eauto]. lia.
  Qed.

  (** Position of node [k] of level [i]. *)
  Lemma F_split : forall i k t, nth_error (F i) k = Some t ->
    exists F1 F2, F i = F1 ++ t :: F2 /\ length F1 = k /\
      F (S i) = flat_map kids F1 ++ kids t ++ flat_map kids F2 /\
      bits (F i) = bits F1 ++ code2 t ++ bits F2 /\
      count_true (bits F1) = length (flat_map kids F1) /\
      (i < D -> length (bits F1) = 2 * k).
  Proof.
    intros i k t H. apply split_at in H. destruct H as (F1 & F2 & E & Hk).
    exists F1, F2. repeat split; auto.
    - change (F (S i)) with (flat_map kids (F i)). rewrite E, flat_map_app'. reflexivity.
    - rewrite E, bits_app. reflexivity.
    - apply count_bits.
    - intros. rewrite bits_length; [lia|]. intros t' Ht'.
      eapply F_notleaf; [eassumption|]. rewrite E. apply in_or_app; auto.
  Qed.

  (** Child number [j] of node [k]. *)
  Lemma nth_child : forall i k t F1 F2 j c, nth_error (kids t) j = Some c ->
    F (S i) = flat_map kids F1 ++ kids t ++ flat_map kids F2 -> length F1 = k ->
    nth_error (F (S i)) (length (flat_map kids F1) + j) = Some c.
  Proof.
    intros. rewrite H0, nth_error_app2 by lia.
    replace (_ + j - _) with j by lia. rewrite nth_error_app1; auto.
    apply nth_error_Some. congruence.
  Qed.
End Layout.

(** Reading a two-bit node and counting the ones around it. *)
Section Node.
  Context {A : Type}.

  Lemma node_read : forall (t : tree A) X Y n, is_leaf t = false -> length X = n ->
    vget (X ++ code2 t ++ Y) n = Ok (has_left t) /\
    vget (X ++ code2 t ++ Y) (n + 1) = Ok (has_right t) /\
    rank1 (X ++ code2 t ++ Y) n = Ok (count_true X) /\
    rank1 (X ++ code2 t ++ Y) (n + 1) = Ok (count_true X + b2n (has_left t)) /\
    rank1 (X ++ code2 t ++ Y) (n + 2) = Ok (count_true X + b2n (has_left t) + b2n (has_right t)).
  Proof.
    intros t X Y n Hl Hn.
    assert (E : code2 t = [has_left t; has_right t]) by (destruct t; try discriminate; auto).
    rewrite E. cbn [app]. split; [|split; [|split; [|split]]].
    - apply vget_app_mid; auto.
    - change (X ++ has_left t :: has_right t :: Y) with (X ++ [has_left t] ++ has_right t :: Y).
      rewrite app_assoc. apply vget_app_mid. rewrite app_length; cbn; lia.
    - apply rank1_app; auto.
    - change (X ++ has_left t :: has_right t :: Y) with (X ++ [has_left t] ++ has_right t :: Y).
      rewrite app_assoc, rank1_app by (rewrite app_length; cbn; lia).
      rewrite count_true_app. destruct (has_left t); auto.
    - change (X ++ has_left t :: has_right t :: Y) with (X ++ [has_left t; has_right t] ++ Y).
      rewrite app_assoc, rank1_app by (rewrite app_length; cbn; lia).
      rewrite count_true_app. destruct (has_left t), (has_right t); cbn; f_equal; lia.
  Qed.

  Lemma node_code_tree : forall t : tree A,
    node_code (has_left t) (has_right t) =
    match t with Leaf _ | Full => 0%N | TL _ => 2%N | TR _ => 1%N | TB _ _ => 3%N end.
  Proof. destruct t; reflexivity. Qed.
End Node.

Section Index.
  Context {A : Type}.
  Variable T : tree A.

  (** Index, in the next level, of the first child of node [k] of level [i]. *)
  Definition idx (i k : nat) : nat := length (flat_map kids (firstn k (F T i))).

  Lemma idx_child : forall i k s j c, nth_error (F T i) k = Some s ->
    nth_error (kids s) j = Some c -> nth_error (F T (S i)) (idx i k + j) = Some c.
  Proof.
    intros i k s j c Hs Hc. unfold idx.
    assert (E := nth_error_firstn_skipn _ _ _ _ Hs).
    assert (E2 : F T (S i) = flat_map kids (firstn k (F T i)) ++ kids s
                             ++ flat_map kids (skipn (S k) (F T i))).
    { change (F T (S i)) with (flat_map kids (F T i)). rewrite E at 1.
      rewrite flat_map_app'. reflexivity. }
    rewrite E2, nth_error_app2 by lia.
    replace (_ + j - _) with j by lia. rewrite nth_error_app1; auto.
    apply nth_error_Some. congruence.
  Qed.

  Variable D : nat.
  Hypothesis HT : wf D T.

  (** Bits before node [k] of level [i] inside its level. *)
  Lemma F_firstn : forall i k s, nth_error (F T i) k = Some s -> i < D ->
    is_leaf s = false /\
    length (bits (firstn k (F T i))) = 2 * k /\
    count_true (bits (firstn k (F T i))) = idx i k /\
    bits (F T i) = bits (firstn k (F T i)) ++ code2 s ++ bits (skipn (S k) (F T i)).
  Proof.
    intros i k s Hs Hi. repeat split.
    - eapply F_notleaf; eauto using nth_error_In.
    - rewrite bits_length.
      + rewrite firstn_length. assert (k < length (F T i)) by (apply nth_error_Some; congruence).
        lia.
      + intros t Ht. eapply F_notleaf; [eassumption|eassumption|].
        rewrite <- (firstn_skipn k (F T i)). apply in_or_app; auto.
    - apply count_bits.
    - rewrite (nth_error_firstn_skipn _ _ _ _ Hs) at 1. rewrite bits_app. reflexivity.
  Qed.
End Index.

(** From facts on single nodes to the whole tree. *)
Section Generic.
  Context {A : Type}.
  Variable T : tree A.
  Variable D : nat.
  Hypothesis HT : wf D T.
  Variable getNode : nat -> nat -> result N.
  Variable getLeft getRight : nat -> nat -> result nat.
  Variable leafok : nat -> A -> Prop.
  (** Identifier of node [k] of level [i]. *)
  Variable ident : nat -> nat -> nat.

  Definition idt (i c k : nat) : Prop := c = ident i k \/ (i = D /\ forall n a, leafok n a).

  Hypothesis Hnode : forall i k s, nth_error (F T i) k = Some s -> i < D ->
    getNode (ident i k) i = Ok (node_code (has_left s) (has_right s)).
  Hypothesis Hleft : forall i k s, nth_error (F T i) k = Some s -> i < D ->
    has_left s = true ->
    exists c, getLeft (ident i k) i = Ok c /\ idt (S i) c (idx T i k)
              /\ idt (S i) (c + 1) (idx T i k + 1).
  Hypothesis Hright : forall i k s, nth_error (F T i) k = Some s -> i < D ->
    has_right s = true ->
    exists c, getRight (ident i k) i = Ok c /\ idt (S i) c (idx T i k + b2n (has_left s)).
  Hypothesis Hleaf : forall k a, nth_error (F T D) k = Some (Leaf a) -> leafok (ident D k) a.

  Lemma F_lt : forall i k s, nth_error (F T i) k = Some s -> i <= D ->
    is_leaf s = false -> i < D.
  Proof.
    intros i k s Hs Hi Hl. assert (Hw := F_wf T D HT i Hi). rewrite Forall_forall in Hw.
    apply nth_error_In, Hw in Hs. destruct s; cbn in *; try discriminate; lia.
  Qed.

  Lemma F_eq : forall i k a, nth_error (F T i) k = Some (Leaf a) -> i <= D -> i = D.
  Proof.
    intros i k a Hs Hi. assert (Hw := F_wf T D HT i Hi). rewrite Forall_forall in Hw.
    apply nth_error_In, Hw in Hs. cbn in Hs. lia.
  Qed.

  Lemma reps_generic : forall s i k c, nth_error (F T i) k = Some s -> i <= D -> idt i c k ->
    reps getNode getLeft getRight leafok s i c.
  Proof.
    induction s as [a| |s IH|s IH|s1 IH1 s2 IH2]; intros i k c Hs Hi Hc.
    - destruct Hc as [->|(_ & Hc)]; cbn; auto. assert (i = D) by (eapply F_eq; eauto).
      subst. auto.
    - assert (Hi' : i < D) by (eapply F_lt; eauto).
      destruct Hc as [->|(E & _)]; [|lia]. cbn. rewrite (Hnode _ _ _ Hs) by auto. auto.
    - assert (Hi' : i < D) by (eapply F_lt; eauto).
      destruct Hc as [->|(E & _)]; [|lia]. cbn. rewrite (Hnode _ _ _ Hs) by auto.
      split; auto. destruct (Hleft _ _ _ Hs Hi' eq_refl) as (c & Hc & Hd & _).
      exists c; split; auto. eapply IH; [|lia|eassumption].
      generalize (idx_child T _ _ _ 0 s Hs eq_refl). rewrite Nat.add_0_r. auto.
    - assert (Hi' : i < D) by (eapply F_lt; eauto).
      destruct Hc as [->|(E & _)]; [|lia]. cbn. rewrite (Hnode _ _ _ Hs) by auto.
      split; auto. destruct (Hright _ _ _ Hs Hi' eq_refl) as (c & Hc & Hd).
      exists c; split; auto. eapply IH; [|lia|eassumption].
      apply (idx_child T _ _ _ 0 s Hs eq_refl).
    - assert (Hi' : i < D) by (eapply F_lt; eauto).
      destruct Hc as [->|(E & _)]; [|lia]. cbn. rewrite (Hnode _ _ _ Hs) by auto.
      assert (K0 := idx_child T _ _ _ 0 s1 Hs eq_refl). rewrite Nat.add_0_r in K0.
      assert (K1 := idx_child T _ _ _ 1 s2 Hs eq_refl).
      split; auto. split.
      + destruct (Hleft _ _ _ Hs Hi' eq_refl) as (c & Hc & Hd & He).
        exists c; split; auto. split; [eapply IH1|eapply IH2]; eauto; lia.
      + destruct (Hright _ _ _ Hs Hi' eq_refl) as (c & Hc & Hd).
        exists c; split; auto. eapply IH2; eauto.
  Qed.

  Lemma reps_root : ident 0 0 = 0 -> reps getNode getLeft getRight leafok T 0 0.
  Proof.
    intros E. apply reps_generic with (k := 0); auto with arith. left; auto.
  Qed.

End Generic.

Lemma uok_all : forall n a, uok n a.
Proof. intros; exact I. Qed.

Lemma nth_error_firstn_lt : forall X (l : list X) n i,
  i < n -> nth_error (firstn n l) i = nth_error l i.
Proof.
  induction l; intros [|n] [|i] H; cbn; auto; try lia. apply IHl; lia.
Qed.

(** * Level-wise tries *)

Definition level_layout (t : level_trie) (h : nat) (T : tree unit) : Prop :=
  1 <= h /\ wf h T /\ l_bTrie t = levels h T /\ l_rank t = firstn (h - 1) (levels h T).

Lemma level_height : forall t h T, level_layout t h T -> level_getHeight t = h.
Proof.
  intros t h T (_ & _ & E & _). unfold level_getHeight. rewrite E. apply levelsF_length.
Qed.

Theorem level_reps : forall t h T, level_layout t h T ->
  reps (level_getNode t) (level_getLeftChild t) (level_getRightChild t) uok T 0 0.
Proof.
  intros t h T L. assert (Hh := level_height _ _ _ L). destruct L as (H1 & Hwf & Hb & Hr).
  assert (NR : forall i, S i < h -> vget (l_rank t) i = Ok (bits (F T i))).
  { intros. apply vget_nth. rewrite Hr, nth_error_firstn_lt by lia. apply levelsF_nth; lia. }
  apply reps_root with (D := h) (ident := fun i k => k); auto; [| | |intros; exact I];
    intros i k s Hs Hi; destruct (F_firstn T h Hwf i k s Hs Hi) as (Hl & E1 & E2 & E3);
    destruct (node_read s _ (bits (skipn (S k) (F T i))) _ Hl E1) as (V1 & V2 & R1 & R2 & R3);
    rewrite <- E3 in *; rewrite E2 in *.
  - unfold level_getNode.
    rewrite (vget_nth _ _ i (bits (F T i))) by (rewrite Hb; apply levelsF_nth; auto).
    cbn [bind]. rewrite V1. cbn [bind]. rewrite V2. reflexivity.
  - intros Hc. rewrite Hc in *. unfold level_getLeftChild. rewrite Hh.
    destruct (Nat.leb_spec h (S i)).
    + exists 0. split; auto. split; right; split; auto using uok_all; lia.
    + rewrite NR by lia. cbn [bind]. exists (idx T i k). split.
      * destruct (l_il t); auto. unfold rank1_pred. rewrite R2. cbn [bind b2n].
        replace (_ =? 0) with false by (symmetry; apply Nat.eqb_neq; lia). f_equal. lia.
      * split; left; auto.
  - intros Hc. rewrite Hc in *. unfold level_getRightChild. rewrite Hh.
    destruct (Nat.leb_spec h (S i)).
    + exists 0. split; auto. right; split; auto using uok_all; lia.
    + rewrite NR by lia. cbn [bind]. exists (idx T i k + b2n (has_left s)). split.
      * destruct (l_il t); auto. unfold rank1_pred. rewrite R3. cbn [bind b2n].
        replace (_ =? 0) with false by (symmetry; apply Nat.eqb_neq; lia). f_equal. lia.
      * left; auto.
Qed.

(** * Flat tries *)

Definition flat_layout (t : flat) (h : nat) (T : tree unit) : Prop :=
  2 <= h /\ wf h T /\ f_height t = h /\ f_bTrie t = prebits T (h - 1) /\
  f_lastLevel t = bits (F T (h - 1)) /\ f_rank t = f_bTrie t.

(** A node of a flat sequence of levels. *)
Lemma prebits_node : forall A (T : tree A) D n i k s, wf D T -> n <= D -> i < n ->
  nth_error (F T i) k = Some s ->
  let v := prebits T n in
  let id := off T i + k in
  vget v (2 * id) = Ok (has_left s) /\ vget v (2 * id + 1) = Ok (has_right s) /\
  (has_left s = true -> rank1 v (2 * id + 1) = Ok (off T (S i) + idx T i k)) /\
  (has_right s = true ->
   rank1 v (2 * id + 2) = Ok (off T (S i) + (idx T i k + b2n (has_left s)))).
Proof.
  intros A T D n i k s Hwf Hn Hi Hs v id.
  destruct (F_firstn T D Hwf i k s Hs ltac:(lia)) as (Hl & E1 & E2 & E3).
  destruct (prebits_split T n i Hi) as (rest & E).
  assert (Ev : v = (prebits T i ++ bits (firstn k (F T i))) ++ code2 s
                   ++ (bits (skipn (S k) (F T i)) ++ rest)).
  { subst v. rewrite E, E3, <- !app_assoc. reflexivity. }
  destruct (node_read s (prebits T i ++ bits (firstn k (F T i)))
              (bits (skipn (S k) (F T i)) ++ rest) (2 * id) Hl) as (V1 & V2 & R1 & R2 & R3).
  { rewrite app_length, E1, (prebits_length T D Hwf) by lia. subst id. lia. }
  rewrite <- Ev in *. rewrite count_true_app, E2 in *. rewrite off_S.
  split; [auto|]. split; [auto|]. split; intros Hc; rewrite Hc in *; cbn [b2n] in *.
  - rewrite R2. f_equal. lia.
  - rewrite R3. f_equal. lia.
Qed.

Theorem flat_reps : forall t h T, flat_layout t h T ->
  reps (flat_getNode t) (flat_getLeftChild t) (flat_getRightChild t) uok T 0 0.
Proof.
  intros t h T (H2 & Hwf & Hh & Hb & Hll & Hr).
  apply reps_root with (D := h) (ident := fun i k => off T i + k); auto;
    [| | |intros; exact I]; intros i k s Hs Hi.
  - unfold flat_getNode. rewrite Hh. destruct (Nat.ltb_spec (S i) h).
    + destruct (prebits_node _ T h (h - 1) i k s Hwf) as (V1 & V2 & _); auto; try lia.
      rewrite Hb, V1. cbn [bind]. rewrite V2. reflexivity.
    + assert (Ei : i = h - 1) by lia. subst i.
      destruct (F_firstn T h Hwf (h - 1) k s Hs Hi) as (Hl & E1 & E2 & E3).
      destruct (node_read s _ (bits (skipn (S k) (F T (h - 1)))) _ Hl E1) as (V1 & V2 & _).
      rewrite <- E3 in *. rewrite Hb, (prebits_length T h Hwf) by lia.
      replace (_ <? _) with false by (symmetry; apply Nat.ltb_ge; lia).
      replace (2 * (off T (h - 1) + k) - 2 * off T (h - 1)) with (2 * k) by lia.
      rewrite Hll, V1. cbn [bind]. rewrite V2. reflexivity.
  - intros Hc. unfold flat_getLeftChild. rewrite Hh. destruct (Nat.leb_spec h (S i)).
    + exists 0. split; auto. split; right; split; auto using uok_all; lia.
    + destruct (prebits_node _ T h (h - 1) i k s Hwf) as (_ & _ & RL & _); auto; try lia.
      rewrite Hr, Hb, RL by auto. eexists; split; [reflexivity|]. split; left; lia.
  - intros Hc. unfold flat_getRightChild. rewrite Hh. destruct (Nat.leb_spec h (S i)).
    + exists 0. split; auto. right; split; auto using uok_all; lia.
    + destruct (prebits_node _ T h (h - 1) i k s Hwf) as (_ & _ & _ & RR); auto; try lia.
      rewrite Hr, Hb, RR by auto. eexists; split; [reflexivity|]. left; lia.
Qed.

(** * Fast tries *)

Definition fast_layout (t : fast) (h : nat) (T : tree N) : Prop :=
  1 <= h /\ wf (h - 1) T /\ x_height t = h /\ x_bTrie t = prebits T (h - 1) /\
  F T (h - 1) = map Leaf (x_lastLevel t) /\ x_rank t = x_bTrie t.

Theorem fast_reps : forall t h T, fast_layout t h T ->
  reps (fast_getNode t) (fast_getLeftChild t) (fast_getRightChild t)
       (fun id w => fast_getWord t id = Ok w) T 0 0.
Proof.
  intros t h T (H2 & Hwf & Hh & Hb & Hll & Hr).
  apply reps_root with (D := h - 1) (ident := fun i k => off T i + k); auto.
  - intros i k s Hs Hi. unfold fast_getNode.
    destruct (prebits_node _ T (h - 1) (h - 1) i k s Hwf) as (V1 & V2 & _); auto; try lia.
    rewrite Hb, V1. cbn [bind]. rewrite V2. reflexivity.
  - intros i k s Hs Hi Hc. unfold fast_getLeftChild. rewrite Hh.
    replace (h <=? S i) with false by (symmetry; apply Nat.leb_gt; lia).
    destruct (prebits_node _ T (h - 1) (h - 1) i k s Hwf) as (_ & _ & RL & _); auto; try lia.
    rewrite Hr, Hb, RL by auto. eexists; split; [reflexivity|]. split; left; lia.
  - intros i k s Hs Hi Hc. unfold fast_getRightChild. rewrite Hh.
    replace (h <=? S i) with false by (symmetry; apply Nat.leb_gt; lia).
    destruct (prebits_node _ T (h - 1) (h - 1) i k s Hwf) as (_ & _ & _ & RR); auto; try lia.
    rewrite Hr, Hb, RR by auto. eexists; split; [reflexivity|]. left; lia.
  - intros k a Hs. unfold fast_getWord. rewrite Hb, (prebits_length T (h - 1) Hwf) by lia.
    replace (2 * off T (h - 1) / 2) with (off T (h - 1))
      by (rewrite Nat.mul_comm, Nat.div_mul; lia).
    replace (_ <? _) with false by (symmetry; apply Nat.ltb_ge; lia).
    replace (off T (h - 1) + k - off T (h - 1)) with k by lia.
    apply vget_nth. rewrite Hll in Hs. rewrite nth_error_map in Hs.
    destruct (nth_error (x_lastLevel t) k); cbn in Hs; congruence.
Qed.
