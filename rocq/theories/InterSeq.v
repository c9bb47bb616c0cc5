(** Correctness of AND and runsAND against abstract trees. *)

From Verif Require Import Base FlatTrie LevelTrie FastTrie ParallelFor Intersection Facts Tree Reps
  InterSpec.

Definition is_some {X} (o : option X) : bool := match o with Some _ => true | None => false end.

Lemma land_code : forall a b c d,
  N.land (node_code a b) (node_code c d) = node_code (a && c) (b && d).
Proof. intros [] [] [] []; reflexivity. Qed.

Lemma lor_code : forall a b c d,
  N.lor (node_code a b) (node_code c d) = node_code (a || c) (b || d).
Proof. intros [] [] [] []; reflexivity. Qed.

Lemma code_0 : forall a b, N.eqb (node_code a b) 0 = negb a && negb b.
Proof. intros [] []; reflexivity. Qed.
Lemma code_1 : forall a b, N.eqb (node_code a b) 1 = negb a && b.
Proof. intros [] []; reflexivity. Qed.
Lemma code_2 : forall a b, N.eqb (node_code a b) 2 = a && negb b.
Proof. intros [] []; reflexivity. Qed.
Lemma code_3 : forall a b, N.eqb (node_code a b) 3 = a && b.
Proof. intros [] []; reflexivity. Qed.

Lemma aset_spec : forall X (v : list (option X)) i x, i < length v ->
  exists v', aset v i x = Ok v' /\ length v' = length v /\ aget v' i = Ok x /\
    forall j, j <> i -> aget v' j = aget v j.
Proof.
  intros. unfold aset. destruct (vset_spec _ v i (Some x) H) as (v' & E & L & G).
  exists v'. repeat split; auto.
  - apply aget_Some. rewrite G, Nat.eqb_refl. auto.
  - intros j Hj. unfold aget, vget. rewrite G.
    replace (j =? i) with false by (symmetry; apply Nat.eqb_neq; auto). auto.
Qed.

Lemma shl_sub_spec : forall a b, b <= a -> a - b < 64 -> shl_sub a b = Ok (pow2 (a - b)).
Proof.
  intros. unfold shl_sub. replace (a <? b) with false by (symmetry; apply Nat.ltb_ge; auto).
  apply shl1_pow2; auto.
Qed.

(** Applies [for_loop_inv] to the loop of the goal. *)
Ltac loop_inv P H :=
  match goal with
  | |- context [for_loop ?n ?i ?f ?s] => assert (H := for_loop_inv _ P f n i s)
  end.

Section Seq.
  Context {A : Type}.
  Variable k : kind.
  Variable Ts : list trie_ops.
  Variable maxLevel : nat.
  Variable lmem : A -> N -> bool.
  Variable lg D : nat.
  Variable leafok : nat -> nat -> A -> Prop.
  (** Leaves need no node index (flat and level-wise tries). *)
  Variable noroot : bool.

  Notation n := (length Ts).
  Definition T (i : nat) : trie_ops :=
    nth i Ts (mkOps 0 (fun _ _ => UB OutOfBounds) (fun _ _ => UB OutOfBounds)
                    (fun _ _ => UB OutOfBounds) (fun _ => UB OutOfBounds)).

  Definition R (i : nat) (t : tree A) (lvl id : nat) : Prop :=
    reps (t_getNode (T i)) (t_getLeft (T i)) (t_getRight (T i)) (leafok i) t lvl id.

  Definition rooted (i : nat) (t : tree A) (lvl : nat) (roots : roots_arr) : Prop :=
    (noroot = true /\ is_leaf t = true) \/ exists id, aget roots i = Ok id /\ R i t lvl id.

  Definition okf (d lvl : nat) (roots : roots_arr) (X : forest) : Prop :=
    forall i t, i < n -> X i = Some t -> wf d t /\ rooted i t lvl roots.

  Hypothesis Hn : n <= 16.
  Hypothesis Hend : forall lvl, lvl <= D -> at_end k maxLevel lvl = (lvl =? D).
  Hypothesis Htot : total_bits k maxLevel = D + lg.
  Hypothesis Hbits : D + lg < 64.
  Hypothesis Hlast : forall lvl, lvl < D -> S lvl = maxLevel -> noroot = true /\ S lvl = D.
  Hypothesis Hleaf : forall active roots X p r,
    (forall i, i < n -> active i = Ok (is_some (X i))) -> okf 0 D roots X -> aligned lg p ->
    and_leaf k Ts n active roots p r = Ok (r ++ inter lmem lg n 0 X p).

  Notation inter := (inter lmem lg n).

  Lemma vget_T : forall i, i < n -> vget Ts i = Ok (T i).
  Proof. clear Hn Hend Htot Hbits Hlast Hleaf. intros. apply vget_nth. apply nth_error_nth'. auto. Qed.

  Lemma R_code : forall i t lvl id, is_leaf t = false -> R i t lvl id ->
    t_getNode (T i) id lvl = Ok (node_code (has_left t) (has_right t)).
  Proof. clear Hn Hend Htot Hbits Hlast Hleaf. intros i t lvl id H Hr. destruct t; try discriminate; cbn in Hr; try apply Hr. Qed.

  Lemma rooted_node : forall i t d lvl roots, wf (S d) t -> rooted i t lvl roots ->
    exists id, aget roots i = Ok id /\ R i t lvl id /\
      t_getNode (T i) id lvl = Ok (node_code (has_left t) (has_right t)).
  Proof. clear Hn Hend Htot Hbits Hlast Hleaf.
    intros i t d lvl roots Hw [(_ & Hl)|(id & Hid & Hr)].
    - destruct t; try discriminate.
    - exists id. repeat split; auto. apply R_code; auto. eapply wf_not_leaf; [|eauto]. lia.
  Qed.

  (** * Children *)

  Section Children.
    Variables (d lvl : nat) (roots : roots_arr) (Y : forest (A := A)) (active : nat -> result bool).
    Hypothesis HdD : lvl + S d = D.
    Hypothesis Hact : forall i, i < n -> active i = Ok (is_some (Y i)).
    Hypothesis HY : okf (S d) lvl roots Y.

    Lemma left_wf : forall i t, i < n -> lefts Y i = Some t -> wf d t.
    Proof. clear Hn Hend Htot Hbits Hlast Hleaf HdD Hact.
      intros i t Hi E. unfold lefts in E. destruct (Y i) as [y|] eqn:EY; [|discriminate].
      destruct (HY i y Hi EY) as (W & _). destruct y; inversion E; subst; cbn in W; tauto.
    Qed.

    Lemma right_wf : forall i t, i < n -> rights Y i = Some t -> wf d t.
    Proof. clear Hn Hend Htot Hbits Hlast Hleaf HdD Hact.
      intros i t Hi E. unfold rights in E. destruct (Y i) as [y|] eqn:EY; [|discriminate].
      destruct (HY i y Hi EY) as (W & _). destruct y; inversion E; subst; cbn in W; tauto.
    Qed.

    Lemma last_leaf : S lvl = maxLevel -> noroot = true /\ d = 0.
    Proof. clear Hn Hend Htot Hbits Hleaf Hact HY. intros H. destruct (Hlast lvl) as (? & ?); lia. Qed.

    Lemma wf0_rooted : forall i t nodes, S lvl = maxLevel -> wf d t -> rooted i t (S lvl) nodes.
    Proof. clear Hn Hend Htot Hbits Hleaf Hact HY.
      intros i t nodes H W. destruct (last_leaf H) as (? & E). rewrite E in W.
      left. split; auto. apply wf_leaf in W. destruct W as (a & ->). auto.
    Qed.

    (** What the loop has established for the tries before [j]. *)
    Definition filled (Z : forest (A := A)) (j : nat) (nodes : roots_arr) : Prop :=
      length nodes = 16 /\
      forall i t, i < j -> Z i = Some t -> rooted i t (S lvl) nodes.

    Lemma filled_skip : forall Z j nodes, j < n -> filled Z j nodes ->
      (forall t, Z j = Some t -> rooted j t (S lvl) nodes) -> filled Z (S j) nodes.
    Proof. clear Hn Hend Htot Hbits Hlast Hleaf HdD Hact HY.
      intros Z j nodes Hj (L & F) H. split; auto. intros i t Hi E.
      destruct (Nat.eq_dec i j); [subst; auto|]. apply F; auto. lia.
    Qed.

    Lemma filled_set : forall Z j nodes c, j < n -> filled Z j nodes ->
      (forall t, Z j = Some t -> R j t (S lvl) c) ->
      exists nodes', aset nodes j c = Ok nodes' /\ filled Z (S j) nodes'.
    Proof. clear Hend Htot Hbits Hlast Hleaf HdD Hact HY.
      intros Z j nodes c Hj (L & F) H.
      destruct (aset_spec _ nodes j c) as (nodes' & E & L' & G & G'); [lia|].
      exists nodes'. split; auto. split; [lia|]. intros i t Hi EZ.
      destruct (Nat.eq_dec i j).
      - subst. right. exists c. auto.
      - destruct (F i t) as [?|(id & Hid & Hr)]; auto; try lia.
        + left; auto.
        + right. exists id. rewrite G' by auto. auto.
    Qed.

    Lemma filled_0 : forall Z, filled Z 0 arr16.
    Proof. clear Hn Hend Htot Hbits Hlast Hleaf HdD Hact HY. split; auto. intros; lia. Qed.

    Lemma left_children_spec :
      (forall i t, i < n -> Y i = Some t -> has_left t = true) ->
      exists nodes, left_children Ts n maxLevel active lvl roots = Ok nodes /\
        okf d (S lvl) nodes (lefts Y).
    Proof. clear Hend Htot Hbits Hleaf.
      intros HL. unfold left_children.
      edestruct (for_loop_inv _ (filled (lefts Y))) as (nodes & E & (L & F)); [apply filled_0| |
        exists nodes; split; [apply E|]; intros i t Hi Et; split; [eapply left_wf; eauto|apply F; auto]].
      cbn [Nat.add]. intros j nodes Hj F. rewrite Hact by lia. cbn [bind].
      destruct (Y j) as [t|] eqn:EY; cbn [is_some andb].
      - destruct (Nat.eqb_spec (S lvl) maxLevel) as [E|E]; cbn [negb].
        + exists nodes. split; auto. apply filled_skip; auto; try lia.
          intros t' Et'. apply wf0_rooted; auto. eapply left_wf; eauto. lia.
        + destruct (HY j t ltac:(lia) EY) as (W & Rt).
          destruct (rooted_node _ _ _ _ _ W Rt) as (id & Hid & Hr & _).
          rewrite vget_T by lia. cbn [bind]. rewrite Hid. cbn [bind].
          specialize (HL j t ltac:(lia) EY).
          assert (C : exists c, t_getLeft (T j) id lvl = Ok c /\
                      forall l, lefts Y j = Some l -> R j l (S lvl) c).
          { unfold lefts. rewrite EY. destruct t; try discriminate; cbn in Hr.
            - destruct Hr as (_ & c & Hc & Hl). exists c. split; auto. intros l0 El. inversion El; subst; auto.
            - destruct Hr as (_ & (c & Hc & Hl & _) & _). exists c. split; auto. intros l0 El. inversion El; subst; auto. }
          destruct C as (c & Hc & HR). rewrite Hc. cbn [bind].
          apply filled_set; auto. lia.
      - exists nodes. split; auto. apply filled_skip; auto; try lia.
        unfold lefts. rewrite EY. discriminate.
    Qed.

    Lemma right_children_spec :
      (forall i t, i < n -> Y i = Some t -> has_right t = true) ->
      exists nodes, right_children Ts n maxLevel active lvl roots = Ok nodes /\
        okf d (S lvl) nodes (rights Y).
    Proof. clear Hend Htot Hbits Hleaf.
      intros HL. unfold right_children.
      edestruct (for_loop_inv _ (filled (rights Y))) as (nodes & E & (L & F)); [apply filled_0| |
        exists nodes; split; [apply E|]; intros i t Hi Et; split; [eapply right_wf; eauto|apply F; auto]].
      cbn [Nat.add]. intros j nodes Hj F. rewrite Hact by lia. cbn [bind].
      destruct (Y j) as [t|] eqn:EY; cbn [is_some andb].
      - destruct (Nat.eqb_spec (S lvl) maxLevel) as [E|E]; cbn [negb].
        + exists nodes. split; auto. apply filled_skip; auto; try lia.
          intros t' Et'. apply wf0_rooted; auto. eapply right_wf; eauto. lia.
        + destruct (HY j t ltac:(lia) EY) as (W & Rt).
          destruct (rooted_node _ _ _ _ _ W Rt) as (id & Hid & Hr & _).
          rewrite vget_T by lia. cbn [bind]. rewrite Hid. cbn [bind].
          specialize (HL j t ltac:(lia) EY).
          assert (C : exists c, t_getRight (T j) id lvl = Ok c /\
                      forall l, rights Y j = Some l -> R j l (S lvl) c).
          { unfold rights. rewrite EY. destruct t; try discriminate; cbn in Hr.
            - destruct Hr as (_ & c & Hc & Hl). exists c. split; auto. intros l0 El. inversion El; subst; auto.
            - destruct Hr as (_ & _ & (c & Hc & Hl)). exists c. split; auto. intros l0 El. inversion El; subst; auto. }
          destruct C as (c & Hc & HR). rewrite Hc. cbn [bind].
          apply filled_set; auto. lia.
      - exists nodes. split; auto. apply filled_skip; auto; try lia.
        unfold rights. rewrite EY. discriminate.
    Qed.

    Lemma both_children_spec :
      (forall i t, i < n -> Y i = Some t -> has_left t = true) ->
      (forall i t, i < n -> Y i = Some t -> has_right t = true) ->
      exists ln rn, both_children Ts n maxLevel active lvl roots = Ok (ln, rn) /\
        okf d (S lvl) ln (lefts Y) /\ okf d (S lvl) rn (rights Y).
    Proof. clear Hend Htot Hbits Hleaf.
      intros HL HR0. unfold both_children.
      loop_inv (fun j s => filled (lefts Y) j (fst s) /\ filled (rights Y) j (snd s)) LI.
      destruct LI as ((ln & rn) & E & ((L & F) & (L' & F'))); [split; apply filled_0| |
        exists ln, rn; split; [apply E|]; split; intros i t Hi Et; split;
        [eapply left_wf; eauto|apply F; auto|eapply right_wf; eauto|apply F'; auto]].
      cbn [Nat.add]. intros j (nl & nr) Hj (F & F'). cbn [fst snd] in *. rewrite Hact by lia. cbn [bind].
      destruct (Y j) as [t|] eqn:EY; cbn [is_some andb].
      - destruct (Nat.eqb_spec (S lvl) maxLevel) as [E|E]; cbn [negb].
        + exists (nl, nr). split; auto. split; apply filled_skip; auto; try lia;
          intros t' Et'; apply wf0_rooted; auto; [eapply left_wf|eapply right_wf]; eauto; lia.
        + destruct (HY j t ltac:(lia) EY) as (W & Rt).
          destruct (rooted_node _ _ _ _ _ W Rt) as (id & Hid & Hr & _).
          rewrite vget_T by lia. cbn [bind]. rewrite Hid. cbn [bind].
          specialize (HL j t ltac:(lia) EY). specialize (HR0 j t ltac:(lia) EY).
          assert (C : exists c, t_getLeft (T j) id lvl = Ok c /\
                      (forall l, lefts Y j = Some l -> R j l (S lvl) c) /\
                      (forall l, rights Y j = Some l -> R j l (S lvl) (c + 1))).
          { unfold lefts, rights. rewrite EY. destruct t; try discriminate; cbn in Hr.
            destruct Hr as (_ & (c & Hc & Hl & Hr') & _). exists c.
            split; auto. split; intros l0 El; inversion El; subst; auto. }
          destruct C as (c & Hc & C1 & C2). rewrite Hc. cbn [bind].
          destruct (filled_set (lefts Y) j nl c) as (nl' & -> & Fl); auto; try lia. cbn [bind].
          destruct (filled_set (rights Y) j nr (c + 1)) as (nr' & -> & Fr); auto; try lia. cbn [bind].
          exists (nl', nr'). auto.
      - exists (nl, nr). split; auto. split; apply filled_skip; auto; try lia;
        unfold lefts, rights; rewrite EY; discriminate.
    Qed.

    (** The same loops without the last-level guard (partialAND). *)
    Hypothesis Hall : forall i, i < n -> Y i <> None.

    Lemma pa_left_spec :
      (forall i t, i < n -> Y i = Some t -> has_left t = true) ->
      exists nodes, pa_left Ts n lvl roots = Ok nodes /\ okf d (S lvl) nodes (lefts Y).
    Proof. clear Hend Htot Hbits Hlast Hleaf HdD Hact.
      intros HL. unfold pa_left.
      edestruct (for_loop_inv _ (filled (lefts Y))) as (nodes & E & (L & F)); [apply filled_0| |
        exists nodes; split; [apply E|]; intros i t Hi Et; split; [eapply left_wf; eauto|apply F; auto]].
      cbn [Nat.add]. intros j nodes Hj F.
      destruct (Y j) as [t|] eqn:EY; [|exfalso; apply (Hall j); auto; lia].
      destruct (HY j t ltac:(lia) EY) as (W & Rt).
      destruct (rooted_node _ _ _ _ _ W Rt) as (id & Hid & Hr & _).
      rewrite vget_T by lia. cbn [bind]. rewrite Hid. cbn [bind].
      specialize (HL j t ltac:(lia) EY).
      assert (C : exists c, t_getLeft (T j) id lvl = Ok c /\
                  forall l, lefts Y j = Some l -> R j l (S lvl) c).
      { unfold lefts. rewrite EY. destruct t; try discriminate; cbn in Hr.
        - destruct Hr as (_ & c & Hc & Hl). exists c. split; auto. intros l0 El. inversion El; subst; auto.
        - destruct Hr as (_ & (c & Hc & Hl & _) & _). exists c. split; auto. intros l0 El. inversion El; subst; auto. }
      destruct C as (c & Hc & HR). rewrite Hc. cbn [bind].
      apply filled_set; auto. lia.
    Qed.

    Lemma pa_right_spec :
      (forall i t, i < n -> Y i = Some t -> has_right t = true) ->
      exists nodes, pa_right Ts n lvl roots = Ok nodes /\ okf d (S lvl) nodes (rights Y).
    Proof. clear Hend Htot Hbits Hlast Hleaf HdD Hact.
      intros HL. unfold pa_right.
      edestruct (for_loop_inv _ (filled (rights Y))) as (nodes & E & (L & F)); [apply filled_0| |
        exists nodes; split; [apply E|]; intros i t Hi Et; split; [eapply right_wf; eauto|apply F; auto]].
      cbn [Nat.add]. intros j nodes Hj F.
      destruct (Y j) as [t|] eqn:EY; [|exfalso; apply (Hall j); auto; lia].
      destruct (HY j t ltac:(lia) EY) as (W & Rt).
      destruct (rooted_node _ _ _ _ _ W Rt) as (id & Hid & Hr & _).
      rewrite vget_T by lia. cbn [bind]. rewrite Hid. cbn [bind].
      specialize (HL j t ltac:(lia) EY).
      assert (C : exists c, t_getRight (T j) id lvl = Ok c /\
                  forall l, rights Y j = Some l -> R j l (S lvl) c).
      { unfold rights. rewrite EY. destruct t; try discriminate; cbn in Hr.
        - destruct Hr as (_ & c & Hc & Hl). exists c. split; auto. intros l0 El. inversion El; subst; auto.
        - destruct Hr as (_ & _ & (c & Hc & Hl)). exists c. split; auto. intros l0 El. inversion El; subst; auto. }
      destruct C as (c & Hc & HR). rewrite Hc. cbn [bind].
      apply filled_set; auto. lia.
    Qed.

    Lemma pa_both_spec :
      (forall i t, i < n -> Y i = Some t -> has_left t = true) ->
      (forall i t, i < n -> Y i = Some t -> has_right t = true) ->
      exists ln rn, pa_both Ts n lvl roots = Ok (ln, rn) /\
        okf d (S lvl) ln (lefts Y) /\ okf d (S lvl) rn (rights Y).
    Proof. clear Hend Htot Hbits Hlast Hleaf HdD Hact.
      intros HL HR0. unfold pa_both.
      loop_inv (fun j s => filled (lefts Y) j (fst s) /\ filled (rights Y) j (snd s)) LI.
      destruct LI as ((ln & rn) & E & ((L & F) & (L' & F'))); [split; apply filled_0| |
        exists ln, rn; split; [apply E|]; split; intros i t Hi Et; split;
        [eapply left_wf; eauto|apply F; auto|eapply right_wf; eauto|apply F'; auto]].
      cbn [Nat.add]. intros j (nl & nr) Hj (F & F'). cbn [fst snd] in *.
      destruct (Y j) as [t|] eqn:EY; [|exfalso; apply (Hall j); auto; lia].
      destruct (HY j t ltac:(lia) EY) as (W & Rt).
      destruct (rooted_node _ _ _ _ _ W Rt) as (id & Hid & Hr & _).
      rewrite vget_T by lia. cbn [bind]. rewrite Hid. cbn [bind].
      specialize (HL j t ltac:(lia) EY). specialize (HR0 j t ltac:(lia) EY).
      assert (C : exists c, t_getLeft (T j) id lvl = Ok c /\
                  (forall l, lefts Y j = Some l -> R j l (S lvl) c) /\
                  (forall l, rights Y j = Some l -> R j l (S lvl) (c + 1))).
      { unfold lefts, rights. rewrite EY. destruct t; try discriminate; cbn in Hr.
        destruct Hr as (_ & (c & Hc & Hl & Hr') & _). exists c.
        split; auto. split; intros l0 El; inversion El; subst; auto. }
      destruct C as (c & Hc & C1 & C2). rewrite Hc. cbn [bind].
      destruct (filled_set (lefts Y) j nl c) as (nl' & -> & Fl); auto; try lia. cbn [bind].
      destruct (filled_set (rights Y) j nr (c + 1)) as (nr' & -> & Fr); auto; try lia. cbn [bind].
      exists (nl', nr'). auto.
    Qed.
  End Children.

  Lemma all_left_has : forall Y : forest (A := A), all_left n Y = true ->
    forall i t, i < n -> Y i = Some t -> has_left t = true.
  Proof. clear Hn Hend Htot Hbits Hlast Hleaf.
    intros Y H i t Hi E. unfold all_left in H. rewrite forallb_seq in H. specialize (H i Hi).
    rewrite E in H. auto.
  Qed.

  Lemma all_right_has : forall Y : forest (A := A), all_right n Y = true ->
    forall i t, i < n -> Y i = Some t -> has_right t = true.
  Proof. clear Hn Hend Htot Hbits Hlast Hleaf.
    intros Y H i t Hi E. unfold all_right in H. rewrite forallb_seq in H. specialize (H i Hi).
    rewrite E in H. auto.
  Qed.

  Lemma right_prefix_spec : forall lvl d p, lvl + S d = D -> aligned (S d + lg) p ->
    right_prefix k maxLevel lvl p = Ok (p + pow2 (d + lg))%N.
  Proof. clear Hn Hend Hlast Hleaf.
    intros. unfold right_prefix. rewrite Htot. rewrite shl_sub_spec by lia. cbn [bind].
    replace (D + lg - (lvl + 1)) with (d + lg) by lia. rewrite lor_right by auto. auto.
  Qed.

  Lemma push_full_spec : forall lvl d p r, lvl + d = D -> aligned (d + lg) p ->
    push_full k maxLevel lvl p r = Ok (r ++ nrange p (2 ^ (d + lg))).
  Proof. clear Hn Hend Hlast Hleaf.
    intros. unfold push_full. rewrite Htot. rewrite shl_sub_spec by lia. cbn [bind].
    replace (D + lg - lvl) with (d + lg) by lia. rewrite push_range_aligned by auto. auto.
  Qed.

  (** * AND *)

  Lemma AND_scan : forall d lvl roots (X : forest (A := A)),
    okf (S d) lvl roots X -> (forall i, i < n -> X i <> None) ->
    for_loop n 0 (fun i acc =>
      let* T := vget Ts i in
      let* root := aget roots i in
      let* node_i := t_getNode T root lvl in
      Ok (N.land acc node_i)) 3%N = Ok (node_code (all_left n X) (all_right n X)).
  Proof. clear Hn Hend Htot Hbits Hlast Hleaf.
    intros d lvl roots X HX Hs.
    loop_inv (fun j acc => acc = node_code (all_left j X) (all_right j X)) LI.
    destruct LI as (acc & E & F); [| |cbn [Nat.add] in F; subst; apply E].
    - reflexivity.
    - cbn [Nat.add]. intros j acc Hj ->. rewrite vget_T by lia. cbn [bind].
      destruct (X j) as [t|] eqn:EX; [|exfalso; apply (Hs j); auto; lia].
      destruct (HX j t ltac:(lia) EX) as (W & Rt).
      destruct (rooted_node _ _ _ _ _ W Rt) as (id & -> & Hr & Hc). cbn [bind]. rewrite Hc. cbn [bind].
      eexists; split; [reflexivity|]. rewrite land_code. unfold all_left, all_right.
      rewrite !forallb_seq_S, EX. auto.
  Qed.

  Definition plains (X : forest (A := A)) : Prop :=
    forall i, i < n -> exists t, X i = Some t /\ plain t.

  Lemma plains_some : forall X, plains X -> forall i, i < n -> X i <> None.
  Proof. intros X H i Hi. destruct (H i Hi) as (t & -> & _). discriminate. Qed.

  Lemma plains_act : forall X, plains X -> forall i, i < n -> all_active i = Ok (is_some (X i)).
  Proof. intros X H i Hi. destruct (H i Hi) as (t & -> & _). auto. Qed.

  Lemma plains_left : forall X, plains X -> all_left n X = true -> plains (lefts X).
  Proof.
    intros X H HL i Hi. destruct (H i Hi) as (t & E & P).
    assert (L := all_left_has _ HL i t Hi E). unfold lefts. rewrite E.
    destruct t; try discriminate; cbn in P; eexists; split; eauto; tauto.
  Qed.

  Lemma plains_right : forall X, plains X -> all_right n X = true -> plains (rights X).
  Proof.
    intros X H HL i Hi. destruct (H i Hi) as (t & E & P).
    assert (L := all_right_has _ HL i t Hi E). unfold rights. rewrite E.
    destruct t; try discriminate; cbn in P; eexists; split; eauto; tauto.
  Qed.

  Lemma plains_notfull : forall X, plains X -> forall i t, i < n -> X i = Some t -> t <> Full.
  Proof. intros X H i t Hi E. destruct (H i Hi) as (t' & E' & P). intros ->.
    rewrite E' in E. inversion E; subst. destruct P. Qed.

  Theorem AND_spec : forall d lvl roots X p r fuel,
    lvl + d = D -> okf d lvl roots X -> plains X -> aligned (d + lg) p -> d <= fuel ->
    exists fl, AND k Ts n maxLevel fuel lvl roots p r = Ok (r ++ inter d X p, fl).
  Proof.
    induction d; intros lvl roots X p r fuel HD HX HP Ha Hf.
    - replace lvl with D in * by lia. exists (Some true).
      destruct fuel; cbn [AND]; rewrite Hend, Nat.eqb_refl by lia;
      rewrite (Hleaf all_active roots X) by (auto using plains_act); reflexivity.
    - destruct fuel as [|fuel]; [lia|]. cbn [AND]. rewrite Hend by lia.
      replace (lvl =? D) with false by (symmetry; apply Nat.eqb_neq; lia).
      rewrite (AND_scan d lvl roots X) by (auto using plains_some). cbn [bind].
      assert (NF := plains_notfull X HP).
      rewrite inter_step; auto.
      2:{ intros i t Hi E. split; [|eauto]. apply (HX i t Hi E). }
      rewrite code_0, code_1, code_2.
      destruct (all_left n X) eqn:EL, (all_right n X) eqn:ER; cbn [negb andb].
      + rewrite (right_prefix_spec lvl d) by auto. cbn [bind].
        destruct (both_children_spec d lvl roots X all_active) as (ln & rn & -> & HL & HR);
          eauto using plains_act, all_left_has, all_right_has. cbn [bind].
        destruct (IHd (S lvl) ln (lefts X) p r fuel) as (f1 & ->);
          auto using plains_left, aligned_S; try lia. cbn [bind].
        destruct (IHd (S lvl) rn (rights X) (p + pow2 (d + lg))%N (r ++ inter d (lefts X) p) fuel)
          as (f2 & ->); auto using plains_right, aligned_right; try lia. cbn [bind].
        rewrite app_assoc. eauto.
      + destruct (left_children_spec d lvl roots X all_active) as (ln & -> & HL);
          eauto using plains_act, all_left_has. cbn [bind].
        destruct (IHd (S lvl) ln (lefts X) p r fuel) as (f1 & ->);
          auto using plains_left, aligned_S; try lia. cbn [bind].
        rewrite app_nil_r. eauto.
      + rewrite (right_prefix_spec lvl d) by auto. cbn [bind].
        destruct (right_children_spec d lvl roots X all_active) as (rn & -> & HR);
          eauto using plains_act, all_right_has. cbn [bind].
        destruct (IHd (S lvl) rn (rights X) (p + pow2 (d + lg))%N r fuel)
          as (f2 & ->); auto using plains_right, aligned_right; try lia. cbn [bind app].
        eauto.
      + rewrite app_nil_r. eauto.
  Qed.

  (** * runsAND *)

  Definition actok (active : active_arr) (X : forest (A := A)) : Prop :=
    forall i, i < n -> aget active i = Ok (is_some (X i)).

  Lemma runs_scan_spec : forall d lvl roots active (X : forest (A := A)),
    okf (S d) lvl roots X -> actok active X ->
    exists temp o, runs_scan Ts n lvl roots active
      = Ok (temp, node_code (all_left n (drop_full X)) (all_right n (drop_full X)), o) /\
      actok temp (drop_full X) /\ N.eqb o 0 = none_left n (drop_full X).
  Proof. clear Hend Htot Hbits Hlast Hleaf.
    intros d lvl roots active X HX Hact. unfold runs_scan.
    loop_inv (fun j (s : active_arr * N * N) =>
        snd (fst s) = node_code (all_left j (drop_full X)) (all_right j (drop_full X)) /\
        length (fst (fst s)) = 16 /\
        (forall i, i < j -> aget (fst (fst s)) i = Ok (is_some (drop_full X i))) /\
        (exists a b, snd s = node_code a b /\ negb a && negb b = none_left j (drop_full X))) LI.
    destruct LI as (((temp & a) & o) & E & F); [| | cbn [Nat.add fst snd] in F; destruct F as (-> & _ & Ft & c & e & -> & Fo)].
    3:{ exists temp, (node_code c e). split; [apply E|]. split; auto. rewrite code_0. auto. }
    - cbn. repeat split; intros; try lia. exists false, false. auto.
    - cbn [Nat.add]. intros j ((temp & a) & o) Hj (F1 & F2 & F3 & c & e & F4 & F5). cbn [fst snd] in *. subst a o.
      rewrite Hact by lia. cbn [bind].
      assert (Hset : forall v, is_some (drop_full X j) = v ->
        exists temp', aset temp j v = Ok temp' /\ length temp' = 16 /\
          forall i, i < S j -> aget temp' i = Ok (is_some (drop_full X i))).
      { intros v Ev. destruct (aset_spec _ temp j v) as (temp' & Et & Lt & Gj & Go); [lia|].
        exists temp'. repeat split; auto; [lia|]. intros i Hi. destruct (Nat.eq_dec i j).
        - subst. auto.
        - rewrite Go by auto. apply F3. lia. }
      destruct (X j) as [t|] eqn:EX; cbn [is_some].
      + destruct (HX j t ltac:(lia) EX) as (W & Rt).
        destruct (rooted_node _ _ _ _ _ W Rt) as (id & Hid & Hr & Hc).
        rewrite vget_T by lia. cbn [bind]. rewrite Hid. cbn [bind]. rewrite Hc. cbn [bind].
        rewrite code_0.
        assert (NL := wf_not_leaf (S d) t ltac:(lia) W).
        destruct (negb (has_left t) && negb (has_right t)) eqn:EC; cbn [negb].
        * assert (Et : t = Full) by (destruct t; try discriminate; auto). subst t.
          assert (Ed : drop_full X j = None) by (unfold drop_full; rewrite EX; auto).
        destruct (Hset false) as (temp' & -> & L' & G'); [rewrite Ed; auto|]. cbn [bind].
          eexists; split; [reflexivity|]. cbn [fst snd]. repeat split; auto.
          -- unfold all_left, all_right. rewrite !forallb_seq_S, Ed.
             rewrite !andb_true_r. auto.
          -- exists c, e. rewrite lor_code. cbn [has_left has_right]. rewrite !orb_false_r. split; auto.
             unfold none_left in *. rewrite forallb_seq_S, Ed, andb_true_r. auto.
        * assert (Et : drop_full X j = Some t).
          { unfold drop_full. rewrite EX. destruct t; try discriminate; auto. }
          destruct (Hset true) as (temp' & -> & L' & G'); [rewrite Et; auto|]. cbn [bind].
          eexists; split; [reflexivity|]. cbn [fst snd]. repeat split; auto.
          -- unfold all_left, all_right. rewrite !forallb_seq_S, Et. apply land_code.
          -- exists (c || has_left t), (e || has_right t). rewrite lor_code. split; auto.
             unfold none_left in *. rewrite forallb_seq_S, Et, andb_false_r.
             rewrite !negb_orb. apply andb_false_iff in EC. destruct EC as [->| ->]; rewrite ?andb_false_r; auto.
      + assert (Ed : drop_full X j = None) by (unfold drop_full; rewrite EX; auto).
        destruct (Hset false) as (temp' & -> & L' & G'); [rewrite Ed; auto|]. cbn [bind].
        eexists; split; [reflexivity|]. cbn [fst snd]. repeat split; auto.
        * unfold all_left, all_right. rewrite !forallb_seq_S, Ed.
          rewrite !andb_true_r. auto.
        * exists c, e. split; auto.
          unfold none_left in *. rewrite forallb_seq_S, Ed, andb_true_r. auto.
  Qed.

  Lemma okf_drop : forall d lvl roots X, okf d lvl roots X -> okf d lvl roots (drop_full X).
  Proof. intros d lvl roots X H i t Hi E. apply drop_full_some in E. apply H; tauto. Qed.

  Lemma act_left : forall temp X, actok temp X -> all_left n X = true -> actok temp (lefts X).
  Proof.
    intros temp X H HL i Hi. rewrite H by auto. f_equal. unfold lefts.
    destruct (X i) eqn:E; auto. assert (L := all_left_has _ HL i t Hi E).
    destruct t; try discriminate; auto.
  Qed.

  Lemma act_right : forall temp X, actok temp X -> all_right n X = true -> actok temp (rights X).
  Proof.
    intros temp X H HL i Hi. rewrite H by auto. f_equal. unfold rights.
    destruct (X i) eqn:E; auto. assert (L := all_right_has _ HL i t Hi E).
    destruct t; try discriminate; auto.
  Qed.

  Lemma none_all : forall X : forest (A := A), none_left n X = true ->
    all_left n X = true /\ all_right n X = true.
  Proof.
    unfold none_left, all_left, all_right. intros X H. rewrite forallb_seq in H.
    split; apply forallb_seq; intros i Hi; specialize (H i Hi); destruct (X i); auto; discriminate.
  Qed.

  Theorem runsAND_spec : forall d lvl roots active X p r fuel,
    lvl + d = D -> okf d lvl roots X -> actok active X -> aligned (d + lg) p -> d <= fuel ->
    runsAND k Ts n maxLevel fuel lvl roots active p r = Ok (r ++ inter d X p).
  Proof.
    induction d; intros lvl roots active X p r fuel HD HX Hact Ha Hf.
    - replace lvl with D in * by lia.
      destruct fuel; cbn [runsAND]; rewrite Hend, Nat.eqb_refl by lia;
      rewrite (Hleaf (aget active) roots X) by auto; reflexivity.
    - destruct fuel as [|fuel]; [lia|]. cbn [runsAND]. rewrite Hend by lia.
      replace (lvl =? D) with false by (symmetry; apply Nat.eqb_neq; lia).
      destruct (runs_scan_spec d lvl roots active X HX Hact) as (temp & o & -> & Ht & Ho). cbn [bind].
      apply okf_drop in HX. rewrite <- inter_drop_full.
      assert (NF : forall i t, drop_full X i = Some t -> t <> Full) by (intros i t E; apply drop_full_some in E; tauto).
      revert HX Ht Ho NF. generalize (drop_full X). clear X Hact. intros X HX Hact Ho NF.
      rewrite Ho. destruct (none_left n X) eqn:EN.
      { destruct (none_all X EN) as (-> & ->). cbn [negb andb]. rewrite andb_false_r.
        rewrite (push_full_spec lvl (S d)) by auto. rewrite inter_none by auto. auto. }
      cbn [negb]. rewrite andb_true_r.
      rewrite inter_step; auto.
      2:{ intros i t Hi E. split; [|eauto]. apply (HX i t Hi E). }
      rewrite code_0, code_1, code_2, code_3.
      destruct (all_left n X) eqn:EL, (all_right n X) eqn:ER; cbn [negb andb].
      + rewrite (right_prefix_spec lvl d) by auto. cbn [bind].
        destruct (both_children_spec d lvl roots X (aget temp)) as (ln & rn & -> & HL & HR);
          eauto using all_left_has, all_right_has. cbn [bind].
        rewrite (IHd (S lvl) ln temp (lefts X) p r fuel) by (auto using act_left, aligned_S; lia).
        cbn [bind].
        rewrite (IHd (S lvl) rn temp (rights X)) by (auto using act_right, aligned_right; lia).
        rewrite app_assoc. auto.
      + destruct (left_children_spec d lvl roots X (aget temp)) as (ln & -> & HL);
          eauto using all_left_has. cbn [bind].
        rewrite (IHd (S lvl) ln temp (lefts X) p r fuel) by (auto using act_left, aligned_S; lia).
        rewrite app_nil_r. auto.
      + rewrite (right_prefix_spec lvl d) by auto. cbn [bind].
        destruct (right_children_spec d lvl roots X (aget temp)) as (rn & -> & HR);
          eauto using all_right_has. cbn [bind].
        rewrite (IHd (S lvl) rn temp (rights X)) by (auto using act_right, aligned_right; lia).
        auto.
      + rewrite app_nil_r. auto.
  Qed.
End Seq.
