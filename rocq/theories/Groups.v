(** The construction seen as a recursive split of the input list. *)

From Verif Require Import Base Split Facts Tree.

(** The part of the list before the first element with bit [b] set, and the rest:
    what the splitting loop of the constructors computes. *)
Fixpoint lefts (b : nat) (s : list N) : list N :=
  match s with
  | [] => []
  | x :: s' => if N.testbit x (N.of_nat b) then [] else x :: lefts b s'
  end.

Fixpoint rights (b : nat) (s : list N) : list N :=
  match s with
  | [] => []
  | x :: s' => if N.testbit x (N.of_nat b) then s else rights b s'
  end.

Lemma lefts_rights : forall b s, lefts b s ++ rights b s = s.
Proof. induction s; cbn; auto. destruct (N.testbit _ _); cbn; congruence. Qed.

Lemma lefts_rights_len : forall b s, length (lefts b s) + length (rights b s) = length s.
Proof. intros. rewrite <- app_length, lefts_rights. auto. Qed.

Definition one_if {X} (l : list X) : list (list X) :=
  match l with [] => [] | _ => [l] end.

Definition subs (b : nat) (s : list N) : list (list N) :=
  one_if (lefts b s) ++ one_if (rights b s).

Definition ne {X} (l : list X) : bool := match l with [] => false | _ => true end.

Definition grp_bits (b : nat) (s : list N) : list bool := [ne (lefts b s); ne (rights b s)].

Lemma concat_one_if : forall X (l : list X), concat (one_if l) = l.
Proof. destruct l; cbn; auto. rewrite app_nil_r; auto. Qed.

Lemma concat_subs : forall b s, concat (subs b s) = s.
Proof. intros; unfold subs. rewrite concat_app, !concat_one_if. apply lefts_rights. Qed.

Lemma subs_ne : forall b s, Forall (fun g => g <> []) (subs b s).
Proof.
  intros; unfold subs. apply Forall_app; split; unfold one_if;
  destruct (_ b s); constructor; auto; discriminate.
Qed.

Lemma concat_flat_subs : forall b G, concat (flat_map (subs b) G) = concat G.
Proof. induction G; cbn; auto. rewrite concat_app, concat_subs, IHG. auto. Qed.

Lemma flat_subs_ne : forall b G, Forall (fun g => g <> []) (flat_map (subs b) G).
Proof. induction G; cbn; constructor || apply Forall_app; auto using subs_ne. Qed.

(** Number of groups is bounded by the number of elements. *)
Lemma groups_le : forall G : list (list N), Forall (fun g => g <> []) G ->
  length G <= length (concat G).
Proof.
  induction 1; cbn; auto. rewrite app_length. destruct x; [congruence|]. cbn; lia.
Qed.

Section TreeOf.
  Context {A : Type}.
  Variable mkleaf : list N -> A.
  Variable lg : nat.

  Fixpoint tree_of (d : nat) (s : list N) : tree A :=
    match d with
    | O => Leaf (mkleaf s)
    | S d' =>
      match lefts (d' + lg) s, rights (d' + lg) s with
      | [], r => TR (tree_of d' r)
      | l, [] => TL (tree_of d' l)
      | l, r => TB (tree_of d' l) (tree_of d' r)
      end
    end.

  Lemma tree_of_wf : forall d s, wf d (tree_of d s).
  Proof.
    induction d; intros; cbn; auto.
    destruct (lefts _ s), (rights _ s); cbn; repeat split; auto with arith.
  Qed.

  Lemma tree_of_plain : forall d s, plain (tree_of d s).
  Proof.
    induction d; intros; cbn; auto.
    destruct (lefts _ s), (rights _ s); cbn; auto.
  Qed.

  Lemma tree_of_kids : forall d s, s <> [] ->
    kids (tree_of (S d) s) = map (tree_of d) (subs (d + lg) s).
  Proof.
    intros. cbn. unfold subs. generalize (lefts_rights (d + lg) s).
    destruct (lefts _ s), (rights _ s); cbn; auto. congruence.
  Qed.

  Lemma tree_of_code : forall d s, s <> [] ->
    code2 (tree_of (S d) s) = grp_bits (d + lg) s.
  Proof.
    intros. cbn. unfold grp_bits. generalize (lefts_rights (d + lg) s).
    destruct (lefts _ s), (rights _ s); cbn; auto. congruence.
  Qed.

  Fixpoint groups (D i : nat) (s : list N) : list (list N) :=
    match i with
    | O => [s]
    | S i' => flat_map (subs (D - i + lg)) (groups D i' s)
    end.

  Lemma groups_concat : forall D i s, concat (groups D i s) = s.
  Proof.
    induction i; intros; cbn [groups].
    - cbn. apply app_nil_r.
    - rewrite concat_flat_subs. auto.
  Qed.

  Lemma groups_ne : forall D i s, s <> [] -> Forall (fun g => g <> []) (groups D i s).
  Proof. destruct i; intros; cbn [groups]; auto. apply flat_subs_ne. Qed.

  Lemma groups_len : forall D i s, s <> [] -> length (groups D i s) <= length s.
  Proof.
    intros. rewrite <- (groups_concat D i s) at 2. apply groups_le, groups_ne; auto.
  Qed.

  Lemma groups_pow : forall D i s, length (groups D i s) <= 2 ^ i.
  Proof.
    clear mkleaf A. induction i; intros; cbn [groups]; auto.
    specialize (IHi s). remember (groups D i s) as G. clear HeqG.
    assert (length (flat_map (subs (D - S i + lg)) G) <= 2 * length G).
    { clear. induction G; cbn [flat_map length]; auto. rewrite app_length. unfold subs at 1.
      rewrite app_length. unfold one_if. destruct (lefts _ a), (rights _ a); cbn [length]; lia. }
    cbn [Nat.pow]. lia.
  Qed.

  Lemma groups_forest : forall D i s, s <> [] -> i <= D ->
    fiter i [tree_of D s] = map (tree_of (D - i)) (groups D i s).
  Proof.
    induction i; intros; cbn [fiter groups].
    - rewrite Nat.sub_0_r. auto.
    - rewrite IHi by (auto; lia). generalize (groups_ne D i s H).
      replace (D - i) with (S (D - S i)) by lia.
      induction 1; auto.
      cbn [map flat_map]. rewrite map_app. f_equal; auto. apply tree_of_kids; auto.
  Qed.

  Lemma groups_bits : forall D i s, s <> [] -> i < D ->
    bits (fiter i [tree_of D s]) = flat_map (grp_bits (D - S i + lg)) (groups D i s).
  Proof.
    intros. rewrite groups_forest by (auto; lia). unfold bits.
    generalize (groups_ne D i s H). replace (D - i) with (S (D - S i)) by lia.
    induction 1; auto. cbn [map flat_map]. f_equal; auto. apply tree_of_code; auto.
  Qed.
End TreeOf.

(** * Segments *)

Definition tup (off : nat) (g : list N) : seg :=
  (N.of_nat off, N.of_nat (off + length g - 1), N.of_nat (length g)).

Fixpoint tups (off : nat) (G : list (list N)) : list seg :=
  match G with
  | [] => []
  | g :: G' => tup off g :: tups (off + length g) G'
  end.

Lemma tups_app : forall G H off,
  tups off (G ++ H) = tups off G ++ tups (off + length (concat G)) H.
Proof.
  induction G; intros; cbn.
  - rewrite Nat.add_0_r; auto.
  - rewrite IHG, app_length. do 3 f_equal. lia.
Qed.

Lemma tups_subs : forall off b g,
  tups off (subs b g) =
  (if ne (lefts b g) then [tup off (lefts b g)] else [])
  ++ (if ne (rights b g) then [tup (off + length (lefts b g)) (rights b g)] else []).
Proof.
  intros. unfold subs. rewrite tups_app, concat_one_if.
  destruct (lefts b g), (rights b g); reflexivity.
Qed.

(** The splitting loop on the segment of [g] inside [pre ++ g ++ post]. *)
Lemma split_loop_spec : forall g done pre post b l r fuel o,
  let set := pre ++ done ++ g ++ post in
  (N.of_nat (length set) < 2 ^ 64)%N ->
  lefts b done = done ->
  l = N.of_nat (length pre) ->
  (0 < length done + length g) ->
  r = N.of_nat (length pre + length done + length g - 1) ->
  length g < fuel ->
  so_left o = N.of_nat (length done) -> so_right o = 0%N ->
  so_rl o = None -> so_rr o = None ->
  (done <> [] -> so_ll o = Some l /\
                 so_lr o = Some (N.of_nat (length pre + length done - 1))) ->
  let g' := done ++ g in
  exists o', split_loop fuel set b l r (N.of_nat (length pre + length done)) o = Ok o' /\
    so_left o' = N.of_nat (length (lefts b g')) /\
    so_right o' = N.of_nat (length (rights b g')) /\
    (ne (lefts b g') = true -> left_seg o' = Ok (tup (length pre) (lefts b g'))) /\
    (ne (rights b g') = true ->
     right_seg o' = Ok (tup (length pre + length (lefts b g')) (rights b g'))).
Proof.
  assert (LL : forall b done g, lefts b done = done -> lefts b (done ++ g) = done ++ lefts b g).
  { induction done; cbn; intros; auto. destruct (N.testbit _ _); try discriminate.
    cbn. injection H; intros. rewrite IHdone; auto. }
  assert (RR : forall b done g, lefts b done = done -> rights b (done ++ g) = rights b g).
  { induction done; cbn; intros; auto. destruct (N.testbit _ _); try discriminate.
    injection H; intros. rewrite IHdone; auto. }
  induction g as [|x g IH]; intros done pre post b l r fuel o set Hsz Hd Hl Hpos Hr Hf H1 H2 H3 H4 H5 g'.
  - exists o. subst g' set l r. cbn [length app] in *. rewrite app_nil_r in *.
    assert (W : wrap64 (N.of_nat (length pre + length done + 0 - 1) + 1)
                = N.of_nat (length pre + length done)).
    { unfold wrap64. rewrite !app_length in Hsz. rewrite N.mod_small; lia. }
    split.
    { destruct fuel; cbn [split_loop]; rewrite W, N.ltb_irrefl; auto. }
    rewrite Hd. replace (rights b done) with (@nil N).
    2:{ specialize (RR b done [] Hd). rewrite app_nil_r in RR. auto. }
    repeat split; auto; try discriminate.
    intros Hne. unfold left_seg. destruct done; try discriminate.
    destruct H5 as (-> & ->); try discriminate. cbn [oget bind]. rewrite H1. reflexivity.
  - destruct fuel as [|fuel]; [cbn in Hf; lia|].
    assert (Hset : length set = length pre + length done + S (length g) + length post).
    { subst set. rewrite !app_length. cbn [length]. lia. }
    rewrite Hset in Hsz. cbn [length] in *.
    assert (W : wrap64 (r + 1) = N.of_nat (length pre + length done + S (length g))).
    { unfold wrap64. subst r. rewrite N.mod_small; lia. }
    cbn [split_loop]. rewrite W.
    replace (N.ltb _ _) with true by (symmetry; apply N.ltb_lt; lia).
    assert (Hget : vgetN set (N.of_nat (length pre + length done)) = Ok x).
    { unfold vgetN. rewrite Hset.
      replace (N.ltb _ _) with true by (symmetry; apply N.ltb_lt; lia).
      rewrite Nat2N.id. subst set. rewrite app_assoc. cbn [app].
      apply vget_app_mid. apply app_length. }
    rewrite Hget. cbn [bind].
    subst g'. rewrite LL, RR by auto. cbn [lefts rights].
    destruct (N.testbit x (N.of_nat b)) eqn:E.
    + rewrite app_nil_r. eexists; split; [reflexivity|].
      cbn [so_left so_right length]. split; [auto|]. split; [lia|]. split.
      * intros Hne. unfold left_seg. cbn [so_ll so_lr so_left].
        destruct done; try discriminate.
        destruct H5 as (-> & ->); try discriminate. cbn [oget bind]. rewrite H1, Hl. reflexivity.
      * intros _. unfold right_seg. cbn [so_rl so_rr so_right oget bind].
        unfold tup. cbn [length]. repeat f_equal; lia.
    + specialize (IH (done ++ [x]) pre post b l r fuel).
      replace (pre ++ (done ++ [x]) ++ g ++ post) with set in IH
        by (subst set; rewrite <- app_assoc; reflexivity).
      rewrite app_length in IH. cbn [length] in IH.
      replace (N.of_nat (length pre + length done) + 1)%N
        with (N.of_nat (length pre + (length done + 1))) by lia.
      rewrite LL in IH by auto. rewrite <- (app_assoc done [x] g) in IH.
      cbn [app] in IH.
      rewrite (LL b done (x :: g)), (RR b done (x :: g)) in IH by auto.
      cbn [lefts rights] in IH. rewrite E in IH.
      match goal with |- context [split_loop fuel set b l r _ ?o2] => specialize (IH o2) end.
      destruct IH as (o' & Ho & Hrest); [..|exists o'; split; [exact Ho|exact Hrest]];
      cbn [so_left so_right so_ll so_lr so_rl so_rr]; auto; try lia.
      intros _. split.
      * destruct (N.eqb_spec (N.of_nat (length pre + length done)) l); [auto|].
        destruct done; [cbn [length] in *; exfalso; lia|]. apply H5. discriminate.
      * do 2 f_equal. lia.
Qed.

Lemma split_spec : forall pre g post b,
  let set := pre ++ g ++ post in
  (N.of_nat (length set) < 2 ^ 64)%N -> g <> [] -> b < 64 ->
  exists o, split set (S b) (N.of_nat (length pre))
                  (N.of_nat (length pre + length g - 1)) = Ok o /\
    N.ltb 0 (so_left o) = ne (lefts b g) /\
    N.ltb 0 (so_right o) = ne (rights b g) /\
    (ne (lefts b g) = true -> left_seg o = Ok (tup (length pre) (lefts b g))) /\
    (ne (rights b g) = true ->
     right_seg o = Ok (tup (length pre + length (lefts b g)) (rights b g))).
Proof.
  intros pre g post b set Hsz Hg Hb. unfold split.
  replace ((S b =? 0) || (64 <? S b))%bool with false
    by (symmetry; apply orb_false_iff; split; [auto | apply Nat.ltb_ge; lia]).
  replace (S b - 1) with b by lia.
  destruct (split_loop_spec g [] pre post b (N.of_nat (length pre))
              (N.of_nat (length pre + length g - 1)) (S (length set)) split_init)
    as (o & Ho & H1 & H2 & H3 & H4); auto.
  - destruct g; [congruence|]. cbn. lia.
  - subst set. rewrite !app_length. lia.
  - congruence.
  - cbn [app length] in *. rewrite Nat.add_0_r in Ho. exists o. split; [exact Ho|].
    rewrite H1, H2. split; [|split]; auto.
    + destruct (lefts b g); reflexivity.
    + destruct (rights b g); reflexivity.
Qed.

(** * Membership in the tree of a sorted list *)

Lemma sorted_lt_le : forall s, StronglySorted N.lt s -> StronglySorted N.le s.
Proof.
  induction 1; constructor; auto. eapply Forall_impl; [|eauto]. intros; lia.
Qed.

Section Mem.
  Context {A : Type}.
  Variable mkleaf : list N -> A.
  Variable lmem : A -> N -> bool.
  Variable lg : nat.

  Definition within (p : N) (k : nat) (s : list N) : Prop :=
    Forall (fun x => p <= x < p + pow2 k)%N s.

  Hypothesis leaf_spec : forall s p x, s <> [] -> aligned lg p -> within p lg s ->
    (p <= x < p + pow2 lg)%N -> (lmem (mkleaf s) x = true <-> In x s).

  Lemma lefts_spec : forall k s p, aligned (S k) p -> within p (S k) s ->
    StronglySorted N.le s ->
    (forall x, In x (lefts k s) <-> In x s /\ (x < p + pow2 k)%N) /\
    (forall x, In x (rights k s) <-> In x s /\ (p + pow2 k <= x)%N) /\
    StronglySorted N.le (lefts k s) /\ StronglySorted N.le (rights k s).
  Proof.
    intros k s p Ha Hw Hs. induction Hs as [|y s Hs IH Hy].
    - cbn. repeat split; try tauto; constructor.
    - inversion Hw as [|? ? Hy0 Hw']; subst. specialize (IH Hw').
      destruct IH as (IL & IR & SL & SR). cbn [lefts rights].
      rewrite Forall_forall in Hy.
      destruct (N.lt_ge_cases y (p + pow2 k)).
      + rewrite (testbit_left k p) by (auto; lia).
        split; [|split; [|split]]; auto.
        * intros x. cbn [In]. rewrite IL. intuition; subst; auto.
        * intros x. cbn [In]. rewrite IR. intuition; subst; auto. lia.
        * constructor; auto. apply Forall_forall. intros x Hx. apply IL in Hx.
          apply Hy; tauto.
      + rewrite (testbit_right k p) by (auto; lia).
        split; [|split; [|split]]; auto.
        * intros x. cbn [In]. split; [tauto|]. intros ([->|Hx] & Hlt); [lia|].
          apply Hy in Hx. lia.
        * intros x. cbn [In]. split; [|tauto]. intros [->|Hx]; [auto|].
          split; auto. apply Hy in Hx. lia.
        * constructor.
        * constructor; auto. apply Forall_forall; auto.
  Qed.

  Lemma within_lefts : forall k s p, aligned (S k) p -> within p (S k) s ->
    StronglySorted N.le s ->
    within p k (lefts k s) /\ within (p + pow2 k) k (rights k s).
  Proof.
    intros k s p Ha Hw Hs. destruct (lefts_spec k s p Ha Hw Hs) as (IL & IR & SL & SR).
    unfold within in *. rewrite Forall_forall in Hw. rewrite !Forall_forall. split; intros x Hx.
    - apply IL in Hx. destruct Hx as (Hx & ?). apply Hw in Hx. lia.
    - apply IR in Hx. destruct Hx as (Hx & ?). apply Hw in Hx. rewrite pow2_S in Hx. lia.
  Qed.

  Lemma tree_of_mem : forall d s p x, s <> [] -> StronglySorted N.le s ->
    aligned (d + lg) p -> within p (d + lg) s -> (p <= x < p + pow2 (d + lg))%N ->
    (mem lmem (d + lg) (tree_of mkleaf lg d s) x = true <-> In x s).
  Proof.
    induction d; intros s p x Hne Hs Ha Hw Hx.
    - cbn. apply leaf_spec with (p := p); auto.
    - cbn [Nat.add] in *.
      destruct (lefts_spec _ _ _ Ha Hw Hs) as (IL & IR & SL & SR).
      destruct (within_lefts _ _ _ Ha Hw Hs) as (WL & WR).
      assert (AL : aligned (d + lg) p) by (apply aligned_S; auto).
      assert (AR : aligned (d + lg) (p + pow2 (d + lg))) by (apply aligned_right; auto).
      rewrite pow2_S in Hx.
      assert (HL : forall x, (x < p + pow2 (d + lg))%N -> (p <= x)%N -> lefts (d + lg) s <> [] ->
        (mem lmem (d + lg) (tree_of mkleaf lg d (lefts (d + lg) s)) x = true <-> In x s)).
      { intros. rewrite (IHd _ p); auto. rewrite IL. tauto. }
      assert (HR : forall x, (p + pow2 (d + lg) <= x < p + 2 * pow2 (d + lg))%N ->
        rights (d + lg) s <> [] ->
        (mem lmem (d + lg) (tree_of mkleaf lg d (rights (d + lg) s)) x = true <-> In x s)).
      { intros. rewrite (IHd _ (p + pow2 (d + lg))%N); auto; [|lia]. rewrite IR. tauto. }
      assert (EL : forall x, (x < p + pow2 (d + lg))%N -> In x s -> lefts (d + lg) s <> []).
      { intros y Hy Hin E. assert (Hy' : In y (lefts (d + lg) s)) by (apply IL; auto).
        rewrite E in Hy'. destruct Hy'. }
      assert (ER : forall x, (p + pow2 (d + lg) <= x)%N -> In x s -> rights (d + lg) s <> []).
      { intros y Hy Hin E. assert (Hy' : In y (rights (d + lg) s)) by (apply IR; auto).
        rewrite E in Hy'. destruct Hy'. }
      cbn [tree_of].
      destruct (N.lt_ge_cases x (p + pow2 (d + lg))) as [Hlt|Hge].
      + assert (B : N.testbit x (N.of_nat (d + lg)) = false)
          by (apply testbit_left with (p := p); auto; lia).
        specialize (HL x Hlt ltac:(lia)). specialize (EL x Hlt).
        destruct (lefts (d + lg) s) as [|a l] eqn:El.
        * cbn [mem pred]. rewrite B. split; [discriminate|]. intros; exfalso; apply EL; auto.
        * destruct (rights (d + lg) s); cbn [mem pred]; rewrite B; apply HL; discriminate.
      + assert (B : N.testbit x (N.of_nat (d + lg)) = true)
          by (apply testbit_right with (p := p); auto; rewrite pow2_S; lia).
        specialize (HR x ltac:(lia)). specialize (ER x ltac:(lia)).
        generalize (lefts_rights (d + lg) s).
        destruct (rights (d + lg) s) as [|a r] eqn:Er, (lefts (d + lg) s) as [|b l] eqn:El;
          cbn [mem pred app]; rewrite B; intros Eq.
        * congruence.
        * split; [discriminate|]. intros; exfalso; apply ER; auto.
        * apply HR; discriminate.
        * apply HR; discriminate.
  Qed.

  Lemma sel_tree_of_In : forall d s x, s <> [] -> StronglySorted N.le s ->
    within 0 (d + lg) s ->
    (In x (sel lmem (d + lg) (tree_of mkleaf lg d s) 0) <-> In x s).
  Proof.
    intros. unfold sel. rewrite filter_In, In_half. split.
    - intros (Hx & Hm). rewrite tree_of_mem in Hm; eauto. apply aligned_0.
    - intros Hx. assert (0 <= x < 0 + pow2 (d + lg))%N.
      { unfold within in H1. rewrite Forall_forall in H1. auto. }
      split; auto. rewrite tree_of_mem; eauto. apply aligned_0.
  Qed.

  Lemma sel_sorted : forall k (t : tree A) p, StronglySorted N.lt (sel lmem k t p).
  Proof. intros; apply filter_sorted, nrange_sorted. Qed.

  Lemma sel_tree_of : forall d s, s <> [] -> StronglySorted N.lt s -> within 0 (d + lg) s ->
    sel lmem (d + lg) (tree_of mkleaf lg d s) 0 = s.
  Proof.
    intros. apply sorted_unique; auto using sel_sorted. intros x.
    apply sel_tree_of_In; auto using sorted_lt_le.
  Qed.
End Mem.
