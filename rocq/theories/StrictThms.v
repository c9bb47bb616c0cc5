(** The flags of AND: agreement of the two readings, and when the strict one is defined. *)

From Verif Require Import Base FlatTrie LevelTrie FastTrie ParallelFor Intersection Tries Calls Strict Facts Tree
  Groups Reps Layout BuildFlat BuildLevel BuildFast WordBits Spec RoundTrip RoundTripFacts Compress
  WriteOnes CompressFast RunsFacts RunsThms SpecTries SpecMeasures SpecCalls SpecStrict NodeCount
  InterSpec InterSeq ParFacts InterPar InterPlan InterTop InterInst InterTight InterMain InterThms LayoutThms CallsThms
  CallsMain SpecLost InterFlag.

(** * Where the strict reading is defined, the other one has the same result *)

Section Agree.
  Variable k : kind.
  Variable Ts : list trie_ops.
  Variable nTries maxLevel : nat.

  Lemma or_read_flag : forall a b c, or_read a b = Ok c -> or_flag a b = Some c.
  Proof. intros [[]|] [[]|] c H; cbn in *; congruence. Qed.

  Lemma AND_agree : forall fuel lvl roots p r r' b,
    AND_strict k Ts nTries maxLevel fuel lvl roots p r = Ok (r', b) ->
    AND k Ts nTries maxLevel fuel lvl roots p r = Ok (r', Some b).
  Proof.
    induction fuel as [|fuel IH]; intros lvl roots p r r' b H; cbn [AND_strict AND] in *;
      (destruct (at_end k maxLevel lvl);
       [destruct (and_leaf _ _ _ _ _ _ _); cbn [bind] in *; congruence|]); [discriminate|].
    destruct (for_loop _ _ _ _) as [a| |]; cbn [bind] in *; try discriminate.
    destruct (N.eqb a 0); [congruence|]. destruct (N.eqb a 2); [|destruct (N.eqb a 1)].
    - destruct (left_children _ _ _ _ _ _); cbn [bind] in *; try discriminate.
      destruct (AND_strict _ _ _ _ _ _ _ _ _) as [[r1 f1]| |] eqn:E; cbn [bind] in *; try discriminate.
      rewrite (IH _ _ _ _ _ _ E). cbn [bind].
      destruct (or_read (Some f1) None) as [c| |] eqn:Eo; cbn [bind] in H; try discriminate.
      apply or_read_flag in Eo. rewrite Eo. congruence.
    - destruct (right_prefix _ _ _ _); cbn [bind] in *; try discriminate.
      destruct (right_children _ _ _ _ _ _); cbn [bind] in *; try discriminate.
      destruct (AND_strict _ _ _ _ _ _ _ _ _) as [[r1 f1]| |] eqn:E; cbn [bind] in *; try discriminate.
    - destruct (right_prefix _ _ _ _); cbn [bind] in *; try discriminate.
      destruct (both_children _ _ _ _ _ _) as [[x y]| |]; cbn [bind] in *; try discriminate.
      destruct (AND_strict _ _ _ _ _ _ x _ _) as [[r1 f1]| |] eqn:E; cbn [bind] in *; try discriminate.
      rewrite (IH _ _ _ _ _ _ E). cbn [bind].
      destruct (AND_strict _ _ _ _ _ _ y _ _) as [[r2 f2]| |] eqn:E2; cbn [bind] in *; try discriminate.
      rewrite (IH _ _ _ _ _ _ E2). cbn [bind].
      destruct (or_read (Some f1) (Some f2)) as [c| |] eqn:Eo; cbn [bind] in H; try discriminate.
      apply or_read_flag in Eo. rewrite Eo. congruence.
  Qed.
End Agree.

Theorem strict_agrees : forall k s1 s2 hc Ts runs r, Intersect_strict k hc Ts runs = Ok r ->
  Intersect k s1 s2 hc Ts runs false = Ok r.
Proof.
  intros k s1 s2 hc Ts runs r H. unfold Intersect_strict in H. unfold Intersect, Intersect_mem.
  destruct (vget Ts 0) as [T0| |]; cbn [bind] in *; try discriminate.
  destruct (negb _); [exact H|]. destruct (N.eqb hc 0); [discriminate|]. cbn [andb].
  destruct runs; [rewrite H; reflexivity|].
  destruct (AND_strict _ _ _ _ _ _ _ _ _) as [[r1 f]| |] eqn:E; cbn [bind] in *; try discriminate.
  rewrite (AND_agree _ _ _ _ _ _ _ _ _ _ _ E). cbn [bind]. congruence.
Qed.

Theorem strict_runs : forall k s1 s2 hc Ts, Intersect_strict k hc Ts true = Intersect k s1 s2 hc Ts true false.
Proof.
  intros. unfold Intersect_strict, Intersect, Intersect_mem.
  destruct (vget Ts 0) as [T0| |]; cbn [bind]; auto.
  destruct (negb _); auto. destruct (N.eqb hc 0); auto. cbn [andb].
  destruct (runsAND _ _ _ _ _ _ _ _ _ _); auto.
Qed.

(** * On abstract trees *)

Section Trees.
  Context {A : Type}.
  Variable lg n : nat.

  (** What AND returns. *)
  Fixpoint flagt (d : nat) (X : forest (A := A)) : bool :=
    match d with
    | O => true
    | S d' => (all_left n X && flagt d' (lefts X)) || (all_right n X && flagt d' (rights X))
    end.

  (** No unset flag is read. *)
  Fixpoint sok (d : nat) (X : forest (A := A)) : bool :=
    match d with
    | O => true
    | S d' =>
      (if all_left n X then sok d' (lefts X) else true)
      && (if all_right n X then sok d' (rights X) else true)
      && (negb (all_right n X) || all_left n X)
      && (negb (all_left n X) || all_right n X || flagt d' (lefts X))
    end.

  (** The node for the first [j] digits of [x] is in the tree. *)
  Fixpoint reachx (j d : nat) (t : tree A) (x : N) : bool :=
    match j with
    | O => true
    | S j' =>
      match t with
      | Leaf _ => true
      | Full => false
      | TL l => if N.testbit x (N.of_nat (pred d + lg)) then false else reachx j' (pred d) l x
      | TR r => if N.testbit x (N.of_nat (pred d + lg)) then reachx j' (pred d) r x else false
      | TB l r => if N.testbit x (N.of_nat (pred d + lg)) then reachx j' (pred d) r x
                  else reachx j' (pred d) l x
      end
    end.

  Lemma reachx_runat : forall j d t x, reachx (S j) d t x = (reach lg (S j) d t x && negb (runat lg j d t x))%bool.
  Proof.
    induction j as [|j IH]; intros d t x.
    - destruct t; cbn [reachx reach runat]; try reflexivity; destruct (N.testbit _ _); reflexivity.
    - destruct t as [a| |l|r|l r]; try reflexivity;
        cbn [runat]; change (reachx (S (S j)) d) with (reachx (S (S j)) d); cbn [reachx reach] in *.
      + destruct (N.testbit _ _); [reflexivity|]. apply (IH (pred d) l x).
      + destruct (N.testbit _ _); [|reflexivity]. apply (IH (pred d) r x).
      + destruct (N.testbit _ _); [apply (IH (pred d) r x)|apply (IH (pred d) l x)].
  Qed.

  Definition all_reachx (j d : nat) (X : forest (A := A)) (x : N) : Prop :=
    forall i t, i < n -> X i = Some t -> reachx j d t x = true.

  Lemma reach_ext : forall j d t x y,
    (forall i, d - j + lg <= i < d + lg -> N.testbit x (N.of_nat i) = N.testbit y (N.of_nat i)) ->
    wf d t -> reachx j d t x = reachx j d t y.
  Proof.
    induction j as [|j IH]; intros d t x y H W; cbn [reachx]; auto.
    destruct t as [a| |l|r|l r]; auto; cbn [wf] in W; destruct d as [|d]; try (exfalso; lia); cbn [pred] in *;
      rewrite (H (d + lg)) by lia.
    - rewrite (IH d l x y); auto; [|tauto]. intros. apply H. lia.
    - rewrite (IH d r x y); auto; [|tauto]. intros. apply H. lia.
    - rewrite (IH d l x y), (IH d r x y); auto; try tauto; intros; apply H; lia.
  Qed.

  Lemma all_reach_ext : forall j d X x y, wfs n d X ->
    (forall i, d - j + lg <= i < d + lg -> N.testbit x (N.of_nat i) = N.testbit y (N.of_nat i)) ->
    all_reachx j d X x -> all_reachx j d X y.
  Proof.
    intros j d X x y W H R0 i t Hi E. rewrite <- (reach_ext j d t x y H (W i t Hi E)). apply (R0 i t Hi E).
  Qed.

  Lemma step_left : forall j d X x, wfs n (S d) X -> N.testbit x (N.of_nat (d + lg)) = false ->
    (all_reachx (S j) (S d) X x <-> all_left n X = true /\ all_reachx j d (lefts X) x).
  Proof.
    intros j d X x W B. split.
    - intros H. split.
      + apply forallb_seq. intros i Hi. destruct (X i) as [t|] eqn:E; auto.
        specialize (H i t Hi E). cbn [reachx pred] in H. rewrite B in H. specialize (W i t Hi E). destruct t; auto; cbn in W; discriminate.
      + intros i t Hi E. unfold lefts in E. destruct (X i) as [y|] eqn:EX; [|discriminate].
        specialize (H i y Hi EX). cbn [reachx pred] in H. rewrite B in H.
        destruct y; inversion E; subst; auto.
    - intros (HL & H) i t Hi E. cbn [reachx pred]. rewrite B.
      unfold all_left in HL. rewrite forallb_seq in HL. specialize (HL i Hi). rewrite E in HL.
      destruct t; auto; try discriminate; apply (H i); auto; unfold lefts; rewrite E; auto.
  Qed.

  Lemma step_right : forall j d X x, wfs n (S d) X -> N.testbit x (N.of_nat (d + lg)) = true ->
    (all_reachx (S j) (S d) X x <-> all_right n X = true /\ all_reachx j d (rights X) x).
  Proof.
    intros j d X x W B. split.
    - intros H. split.
      + apply forallb_seq. intros i Hi. destruct (X i) as [t|] eqn:E; auto.
        specialize (H i t Hi E). cbn [reachx pred] in H. rewrite B in H. specialize (W i t Hi E). destruct t; auto; cbn in W; discriminate.
      + intros i t Hi E. unfold rights in E. destruct (X i) as [y|] eqn:EX; [|discriminate].
        specialize (H i y Hi EX). cbn [reachx pred] in H. rewrite B in H.
        destruct y; inversion E; subst; auto.
    - intros (HL & H) i t Hi E. cbn [reachx pred]. rewrite B.
      unfold all_right in HL. rewrite forallb_seq in HL. specialize (HL i Hi). rewrite E in HL.
      destruct t; auto; try discriminate; apply (H i); auto; unfold rights; rewrite E; auto.
  Qed.

  (** Numbers with chosen bits. *)
  Lemma clear_other : forall x i j, i <> j -> N.testbit (N.clearbit x (N.of_nat i)) (N.of_nat j) = N.testbit x (N.of_nat j).
  Proof. intros. apply N.clearbit_neq. lia. Qed.
  Lemma set_other : forall x i j, i <> j -> N.testbit (N.setbit x (N.of_nat i)) (N.of_nat j) = N.testbit x (N.of_nat j).
  Proof. intros. apply N.setbit_neq. lia. Qed.

  Lemma flagt_iff : forall d X, wfs n d X ->
    (flagt d X = true <-> exists y, all_reachx d d X y).
  Proof.
    induction d as [|d IH]; intros X W; cbn [flagt].
    - split; auto. intros _. exists 0%N. intros i t Hi E. reflexivity.
    - rewrite orb_true_iff, !andb_true_iff, !IH by (auto using wfs_lefts, wfs_rights). split.
      + intros [(HL & y & Hy)|(HL & y & Hy)].
        * exists (N.clearbit y (N.of_nat (d + lg))). apply step_left; auto using N.clearbit_eq. split; auto.
          eapply all_reach_ext; [apply wfs_lefts; auto| |exact Hy]. intros. symmetry. apply clear_other. lia.
        * exists (N.setbit y (N.of_nat (d + lg))). apply step_right; auto using N.setbit_eq. split; auto.
          eapply all_reach_ext; [apply wfs_rights; auto| |exact Hy]. intros. symmetry. apply set_other. lia.
      + intros (y & Hy). destruct (N.testbit y (N.of_nat (d + lg))) eqn:B.
        * apply step_right in Hy; auto. right. destruct Hy; eauto.
        * apply step_left in Hy; auto. left. destruct Hy; eauto.
  Qed.

  (** [y] goes the way of [x] from bit [pos] up. *)
  Definition agree (d pos : nat) (x y : N) : Prop :=
    forall i, pos <= i < d + lg -> N.testbit x (N.of_nat i) = N.testbit y (N.of_nat i).

  Definition all_set (d : nat) (X : forest (A := A)) : Prop :=
    forall j x, j < d -> let pos := d - S j + lg in
      (N.testbit x (N.of_nat pos) = true -> all_reachx (S j) d X x ->
         all_reachx (S j) d X (N.clearbit x (N.of_nat pos))) /\
      (N.testbit x (N.of_nat pos) = false -> all_reachx (S j) d X x ->
         all_reachx (S j) d X (N.setbit x (N.of_nat pos)) \/
         exists y, agree d pos x y /\ all_reachx d d X y).

  Lemma sok_iff : forall d X, wfs n d X -> (sok d X = true <-> all_set d X).
  Proof.
    induction d as [|d IH]; intros X W; cbn [sok].
    - split; auto. intros _ j x Hj. lia.
    - assert (WL := wfs_lefts n d X W). assert (WR := wfs_rights n d X W).
      rewrite !andb_true_iff. split.
      + intros (((HL & HR) & H1) & H2) j x Hj pos. destruct j as [|j].
        * assert (pos = d + lg) as Ep by (unfold pos; lia). clearbody pos. subst pos. split; intros B Hx.
          -- apply step_right in Hx; auto. destruct Hx as (ER & _).
             apply step_left; auto using N.clearbit_eq. rewrite ER in H1. cbn in H1.
             split; auto. intros i t Hi E. reflexivity.
          -- apply step_left in Hx; auto. destruct Hx as (EL & _). rewrite EL in H2. cbn [negb orb] in H2.
             apply orb_true_iff in H2. destruct H2 as [ER|Hf].
             ++ left. apply step_right; auto using N.setbit_eq. split; auto. intros i t Hi E. reflexivity.
             ++ right. apply flagt_iff in Hf; auto. destruct Hf as (y & Hy).
                exists (N.clearbit y (N.of_nat (d + lg))). split.
                ** intros i Hi. assert (i = d + lg) by lia. subst i. rewrite N.clearbit_eq. auto.
                ** apply step_left; auto using N.clearbit_eq. split; auto.
                   eapply all_reach_ext; [exact WL| |exact Hy]. intros. symmetry. apply clear_other. lia.
        * assert (pos = d - S j + lg) as Ep by (unfold pos; lia). clearbody pos. subst pos.
          assert (Hne : d - S j + lg <> d + lg) by lia.
          destruct (N.testbit x (N.of_nat (d + lg))) eqn:B0.
          -- split; intros B Hx.
             ++ apply step_right in Hx; auto. destruct Hx as (ER & Hx). rewrite ER in HR.
                apply IH in HR; auto. destruct (HR j x ltac:(lia)) as (G & _).
                apply step_right; auto. { rewrite clear_other; auto. }
             ++ apply step_right in Hx; auto. destruct Hx as (ER & Hx). rewrite ER in HR.
                apply IH in HR; auto. destruct (HR j x ltac:(lia)) as (_ & G). destruct (G B Hx) as [G'|(y & Hy & Ry)].
                ** left. apply step_right; auto. rewrite set_other; auto.
                ** right. exists (N.setbit y (N.of_nat (d + lg))). split.
                   { intros i Hi. destruct (Nat.eq_dec i (d + lg)) as [->|Hi'].
                     - rewrite N.setbit_eq. auto.
                     - rewrite set_other by lia. apply Hy. lia. }
                   apply step_right; auto using N.setbit_eq. split; auto.
                   eapply all_reach_ext; [exact WR| |exact Ry]. intros. symmetry. apply set_other. lia.
          -- split; intros B Hx.
             ++ apply step_left in Hx; auto. destruct Hx as (ER & Hx). rewrite ER in HL.
                apply IH in HL; auto. destruct (HL j x ltac:(lia)) as (G & _).
                apply step_left; auto. { rewrite clear_other; auto. }
             ++ apply step_left in Hx; auto. destruct Hx as (ER & Hx). rewrite ER in HL.
                apply IH in HL; auto. destruct (HL j x ltac:(lia)) as (_ & G). destruct (G B Hx) as [G'|(y & Hy & Ry)].
                ** left. apply step_left; auto. rewrite set_other; auto.
                ** right. exists (N.clearbit y (N.of_nat (d + lg))). split.
                   { intros i Hi. destruct (Nat.eq_dec i (d + lg)) as [->|Hi'].
                     - rewrite N.clearbit_eq. auto.
                     - rewrite clear_other by lia. apply Hy. lia. }
                   apply step_left; auto using N.clearbit_eq. split; auto.
                   eapply all_reach_ext; [exact WL| |exact Ry]. intros. symmetry. apply clear_other. lia.
      + intros H.
        assert (Top : forall (Z : forest (A := A)) y, all_reachx 0 d Z y) by (intros Z y i t Hi E; reflexivity).
        set (hi := N.setbit 0 (N.of_nat (d + lg))).
        assert (Bhi : N.testbit hi (N.of_nat (d + lg)) = true) by apply N.setbit_eq.
        assert (Blo : N.testbit 0 (N.of_nat (d + lg)) = false) by apply N.bits_0.
        assert (Ep0 : S d - 1 + lg = d + lg) by lia.
        split; [split; [split|]|].
        * destruct (all_left n X) eqn:EL; auto. apply IH; auto. intros j x Hj pos.
          assert (Hne : pos <> d + lg) by (unfold pos; lia).
          set (x0 := N.clearbit x (N.of_nat (d + lg))).
          assert (B0 : N.testbit x0 (N.of_nat (d + lg)) = false) by apply N.clearbit_eq.
          assert (Ex : forall i, i <> d + lg -> N.testbit x0 (N.of_nat i) = N.testbit x (N.of_nat i))
            by (intros; apply clear_other; lia).
          destruct (H (S j) x0 ltac:(lia)) as (G1 & G2).
          replace (S d - S (S j) + lg) with pos in * by (unfold pos; lia).
          split; intros B Hx.
          -- assert (Hx0 : all_reachx (S (S j)) (S d) X x0).
             { apply step_left; auto. split; auto. eapply all_reach_ext; [exact WL| |exact Hx].
               intros. symmetry. apply Ex. lia. }
             specialize (G1 ltac:(rewrite Ex; auto) Hx0). apply step_left in G1; auto.
             2:{ rewrite clear_other; auto. }
             destruct G1 as (_ & G1). eapply all_reach_ext; [exact WL| |exact G1].
             intros i Hi. rewrite !N.clearbit_eqb. rewrite (Ex i) by lia. auto.
          -- assert (Hx0 : all_reachx (S (S j)) (S d) X x0).
             { apply step_left; auto. split; auto. eapply all_reach_ext; [exact WL| |exact Hx].
               intros. symmetry. apply Ex. lia. }
             destruct (G2 ltac:(rewrite Ex; auto) Hx0) as [G|(y & Hy & Ry)].
             ++ left. apply step_left in G; auto.
                2:{ rewrite set_other; auto. }
                destruct G as (_ & G). eapply all_reach_ext; [exact WL| |exact G].
                intros i Hi. rewrite !N.setbit_eqb. rewrite (Ex i) by lia. auto.
             ++ right. exists y. split.
                { intros i Hi. rewrite <- Ex by lia. apply Hy. lia. }
                apply step_left in Ry; auto; [tauto|]. rewrite <- (Hy (d + lg)); auto. unfold pos. lia.
        * destruct (all_right n X) eqn:EL; auto. apply IH; auto. intros j x Hj pos.
          assert (Hne : pos <> d + lg) by (unfold pos; lia).
          set (x0 := N.setbit x (N.of_nat (d + lg))).
          assert (B0 : N.testbit x0 (N.of_nat (d + lg)) = true) by apply N.setbit_eq.
          assert (Ex : forall i, i <> d + lg -> N.testbit x0 (N.of_nat i) = N.testbit x (N.of_nat i))
            by (intros; apply set_other; lia).
          destruct (H (S j) x0 ltac:(lia)) as (G1 & G2).
          replace (S d - S (S j) + lg) with pos in * by (unfold pos; lia).
          split; intros B Hx.
          -- assert (Hx0 : all_reachx (S (S j)) (S d) X x0).
             { apply step_right; auto. split; auto. eapply all_reach_ext; [exact WR| |exact Hx].
               intros. symmetry. apply Ex. lia. }
             specialize (G1 ltac:(rewrite Ex; auto) Hx0). apply step_right in G1; auto.
             2:{ rewrite clear_other; auto. }
             destruct G1 as (_ & G1). eapply all_reach_ext; [exact WR| |exact G1].
             intros i Hi. rewrite !N.clearbit_eqb. rewrite (Ex i) by lia. auto.
          -- assert (Hx0 : all_reachx (S (S j)) (S d) X x0).
             { apply step_right; auto. split; auto. eapply all_reach_ext; [exact WR| |exact Hx].
               intros. symmetry. apply Ex. lia. }
             destruct (G2 ltac:(rewrite Ex; auto) Hx0) as [G|(y & Hy & Ry)].
             ++ left. apply step_right in G; auto.
                2:{ rewrite set_other; auto. }
                destruct G as (_ & G). eapply all_reach_ext; [exact WR| |exact G].
                intros i Hi. rewrite !N.setbit_eqb. rewrite (Ex i) by lia. auto.
             ++ right. exists y. split.
                { intros i Hi. rewrite <- Ex by lia. apply Hy. lia. }
                apply step_right in Ry; auto; [tauto|]. rewrite <- (Hy (d + lg)); auto. unfold pos. lia.
        * destruct (all_right n X) eqn:ER; auto. cbn [negb orb].
          destruct (H 0 hi ltac:(lia)) as (G & _). rewrite Ep0 in G.
          specialize (G Bhi). apply step_left in G; auto using N.clearbit_eq; [tauto|].
          apply step_right; auto.
        * destruct (all_left n X) eqn:EL; auto. cbn [negb orb].
          destruct (H 0 0%N ltac:(lia)) as (_ & G). rewrite Ep0 in G. apply orb_true_iff.
          destruct (G Blo) as [G'|(y & Hy & Ry)].
          -- apply step_left; auto.
          -- left. apply step_right in G'; auto using N.setbit_eq. tauto.
          -- right. apply flagt_iff; auto. apply step_left in Ry; auto; [destruct Ry; eauto|].
             rewrite <- (Hy (d + lg)); auto; lia.
  Qed.
End Trees.

(** * AND_strict on tries of abstract trees *)

Section Spec.
  Context {A : Type}.
  Variable k : kind.
  Variable Ts : list trie_ops.
  Variable maxLevel : nat.
  Variable lmem : A -> N -> bool.
  Variable lg D : nat.
  Variable leafok : nat -> nat -> A -> Prop.
  Variable noroot : bool.
  Notation n := (length Ts).
  Hypothesis Hn : n <= 16.
  Hypothesis Hend : forall lvl, lvl <= D -> at_end k maxLevel lvl = (lvl =? D).
  Hypothesis Htot : total_bits k maxLevel = D + lg.
  Hypothesis Hbits : D + lg < 64.
  Hypothesis Hlast : forall lvl, lvl < D -> S lvl = maxLevel -> noroot = true /\ S lvl = D.
  Hypothesis Hleaf : forall active roots X p r,
    (forall i, i < n -> active i = Ok (is_some (X i))) ->
    okf Ts leafok noroot 0 D roots X -> aligned lg p ->
    and_leaf k Ts n active roots p r = Ok (r ++ inter lmem lg n 0 X p).

  Theorem AND_strict_spec : forall d lvl roots X p r fuel,
    lvl + d = D -> okf Ts leafok noroot d lvl roots X -> somes Ts X -> aligned (d + lg) p -> d <= fuel ->
    AND_strict k Ts n maxLevel fuel lvl roots p r =
    if sok n d X then Ok (r ++ interx lmem lg n d X p, flagt n d X) else UB Indeterminate.
  Proof.
    induction d; intros lvl roots X p r fuel HD HX HP Ha Hf.
    - replace lvl with D in * by lia.
      rewrite <- interx_0 by (intros i t Hi E; apply (HX i t Hi E)).
      destruct fuel; cbn [AND_strict]; rewrite Hend, Nat.eqb_refl by lia;
      rewrite (Hleaf all_active roots X) by (eauto using somes_act); reflexivity.
    - destruct fuel as [|fuel]; [lia|]. cbn [AND_strict]. rewrite Hend by lia.
      replace (lvl =? D) with false by (symmetry; apply Nat.eqb_neq; lia).
      rewrite (AND_scan Ts leafok noroot d lvl roots X) by auto. cbn [bind].
      rewrite interx_step; auto.
      2:{ intros i t Hi E. apply (HX i t Hi E). }
      rewrite code_0, code_1, code_2. cbn [sok flagt].
      destruct (all_left n X) eqn:EL, (all_right n X) eqn:ER; cbn [negb andb orb].
      + rewrite (right_prefix_spec k maxLevel lmem lg D leafok Htot Hbits lvl d) by auto. cbn [bind].
        destruct (both_children_spec Ts maxLevel D leafok noroot Hn Hlast d lvl roots X all_active) as (ln & rn & -> & HL & HR);
          eauto using somes_act, all_left_has, all_right_has. cbn [bind].
        rewrite (IHd (S lvl) ln (lefts X) p r fuel) by (auto using somes_left, aligned_S; lia).
        destruct (sok n d (lefts X)); cbn [bind andb]; auto.
        rewrite (IHd (S lvl) rn (rights X) (p + pow2 (d + lg))%N) by (auto using somes_right, aligned_right; lia).
        destruct (sok n d (rights X)); cbn [bind andb]; auto.
        rewrite app_assoc. destruct (flagt n d (lefts X)), (flagt n d (rights X)); reflexivity.
      + destruct (left_children_spec Ts maxLevel D leafok noroot Hn Hlast d lvl roots X all_active) as (ln & -> & HL);
          eauto using somes_act, all_left_has. cbn [bind].
        rewrite (IHd (S lvl) ln (lefts X) p r fuel) by (auto using somes_left, aligned_S; lia).
        destruct (sok n d (lefts X)); cbn [bind andb]; auto.
        rewrite app_nil_r. destruct (flagt n d (lefts X)); reflexivity.
      + rewrite (right_prefix_spec k maxLevel lmem lg D leafok Htot Hbits lvl d) by auto. cbn [bind].
        destruct (right_children_spec Ts maxLevel D leafok noroot Hn Hlast d lvl roots X all_active) as (rn & -> & HR);
          eauto using somes_act, all_right_has. cbn [bind].
        rewrite (IHd (S lvl) rn (rights X) (p + pow2 (d + lg))%N) by (auto using somes_right, aligned_right; lia).
        destruct (sok n d (rights X)); reflexivity.
      + rewrite app_nil_r. reflexivity.
  Qed.
End Spec.

(** * By prefixes *)

(** The first digits of a number of [w] digits, the last [b] left out. *)
Definition digits_from (w b : nat) (x : N) : N := ((x mod pow2 w) / pow2 b)%N.

Lemma digits_bit : forall w b x i,
  N.testbit (digits_from w b x) (N.of_nat i) = ((i + b <? w) && N.testbit x (N.of_nat (i + b)))%bool.
Proof.
  intros w b x i. unfold digits_from, pow2. rewrite N.div_pow2_bits.
  replace (N.of_nat i + N.of_nat b)%N with (N.of_nat (i + b)) by lia.
  destruct (Nat.ltb_spec (i + b) w); cbn [andb].
  - apply N.mod_pow2_bits_low. lia.
  - apply N.mod_pow2_bits_high. lia.
Qed.

Lemma nat_bits : forall x y, (forall i, N.testbit x (N.of_nat i) = N.testbit y (N.of_nat i)) -> x = y.
Proof. intros x y H. apply N.bits_inj. intros i. rewrite <- (N2Nat.id i). apply H. Qed.

Lemma digits_small : forall w b q, (q * pow2 b < pow2 w)%N -> digits_from w b (q * pow2 b) = q.
Proof. intros w b q H. unfold digits_from. rewrite N.mod_small by auto. apply N.div_mul, pow2_nz. Qed.

Lemma odd_split : forall z, z = (2 * (z / 2) + (if N.testbit z 0 then 1 else 0))%N.
Proof.
  intros z. rewrite N.bit0_odd. assert (E := N.div2_odd z). rewrite N.div2_div in E.
  destruct (N.odd z); cbn [N.b2n] in E; exact E.
Qed.

Lemma double_bit0 : forall q, N.testbit (2 * q) (N.of_nat 0) = false.
Proof. intros. apply N.testbit_even_0. Qed.
Lemma double1_bit0 : forall q, N.testbit (2 * q + 1) (N.of_nat 0) = true.
Proof. intros. apply N.testbit_odd_0. Qed.
Lemma double_bitS : forall q i, N.testbit (2 * q) (N.of_nat (S i)) = N.testbit q (N.of_nat i).
Proof. intros. rewrite Nat2N.inj_succ. apply N.testbit_even_succ. apply N.le_0_l. Qed.
Lemma double1_bitS : forall q i, N.testbit (2 * q + 1) (N.of_nat (S i)) = N.testbit q (N.of_nat i).
Proof. intros. rewrite Nat2N.inj_succ. apply N.testbit_odd_succ. apply N.le_0_l. Qed.

Lemma digits_clear : forall w b x q, b < w -> digits_from w b x = (2 * q + 1)%N ->
  digits_from w b (N.clearbit x (N.of_nat b)) = (2 * q)%N.
Proof.
  intros w b x q Hb E. apply nat_bits. intros i. rewrite digits_bit. destruct i as [|i].
  - rewrite double_bit0. cbn [Nat.add]. rewrite N.clearbit_eq. apply andb_false_r.
  - rewrite double_bitS, <- (double1_bitS q i), <- E, digits_bit, clear_other by lia. reflexivity.
Qed.

Lemma digits_set : forall w b x q, b < w -> digits_from w b x = (2 * q)%N ->
  digits_from w b (N.setbit x (N.of_nat b)) = (2 * q + 1)%N.
Proof.
  intros w b x q Hb E. apply nat_bits. intros i. rewrite digits_bit. destruct i as [|i].
  - rewrite double1_bit0. cbn [Nat.add]. rewrite N.setbit_eq. replace (b <? w) with true by (symmetry; apply Nat.ltb_lt; auto). reflexivity.
  - rewrite double1_bitS, <- (double_bitS q i), <- E, digits_bit, set_other by lia. reflexivity.
Qed.

Section Prefixes.
  Context {A : Type}.
  Variable lg D n : nat.
  Variable X : forest (A := A).
  Variable P : nat -> N -> Prop.
  Hypothesis forest_wfs : wfs n D X.
  Hypothesis common_bound : forall b q, P b q -> (q * pow2 b < pow2 (D + lg))%N.
  Hypothesis reach_common0 : forall j q b, j <= D -> b = D + lg - j -> (q * pow2 b < pow2 (D + lg))%N ->
    (all_reachx lg n j D X (q * pow2 b) <-> P b q).

  Lemma digits_lt : forall b x, (digits_from (D + lg) b x * pow2 b < pow2 (D + lg))%N.
  Proof.
    intros b x. unfold digits_from. assert (G := pow2_nz b).
    assert (Hm := N.mul_div_le (x mod pow2 (D + lg)) (pow2 b) G).
    assert (Hl := N.mod_lt x (pow2 (D + lg)) (pow2_nz _)). nia.
  Qed.

  Lemma reach_common : forall j x b, j <= D -> b = D + lg - j ->
    (all_reachx lg n j D X x <-> P b (digits_from (D + lg) b x)).
  Proof.
    intros j x b Hj Eb. rewrite <- (reach_common0 j) by (auto using digits_lt).
    assert (Bits : forall i, D - j + lg <= i < D + lg ->
      N.testbit x (N.of_nat i) = N.testbit (digits_from (D + lg) b x * pow2 b) (N.of_nat i)).
    { intros i Hi. unfold pow2. rewrite <- N.shiftl_mul_pow2, N.shiftl_spec_high by lia.
      replace (N.of_nat i - N.of_nat b)%N with (N.of_nat (i - b)) by lia. rewrite digits_bit.
      replace (i - b + b) with i by lia. replace (i <? D + lg) with true by (symmetry; apply Nat.ltb_lt; lia). reflexivity. }
    split; apply all_reach_ext; auto. intros. symmetry. auto.
  Qed.

  Theorem sok_prefixes : sok n D X = true <-> flags_set P lg (D + lg).
  Proof.
    rewrite (sok_iff lg n D X forest_wfs). split.
    - intros H b q Hb. set (j := D + lg - S b). assert (Hj : j < D) by (unfold j; lia).
      assert (Ep : D - S j + lg = b) by (unfold j; lia). assert (Eb : b = D + lg - S j) by (unfold j; lia).
      split; intros Hc; assert (Hq := common_bound _ _ Hc).
      + set (x := ((2 * q + 1) * pow2 b)%N) in *. assert (Ed : digits_from (D + lg) b x = (2 * q + 1)%N) by (apply digits_small; auto).
        destruct (H j x Hj) as (G & _). rewrite Ep in G.
        assert (B : N.testbit x (N.of_nat b) = true).
        { assert (B := digits_bit (D + lg) b x 0). rewrite Ed, double1_bit0 in B. cbn [Nat.add] in B.
          symmetry in B. apply andb_true_iff in B. tauto. }
        specialize (G B). rewrite !(reach_common (S j) _ b) in G by (auto; lia). rewrite Ed in G.
        rewrite (digits_clear (D + lg) b x q) in G by (auto; lia). auto.
      + set (x := ((2 * q) * pow2 b)%N) in *. assert (Ed : digits_from (D + lg) b x = (2 * q)%N) by (apply digits_small; auto).
        destruct (H j x Hj) as (_ & G). rewrite Ep in G.
        assert (B : N.testbit x (N.of_nat b) = false).
        { assert (B := digits_bit (D + lg) b x 0). rewrite Ed, double_bit0 in B. cbn [Nat.add] in B.
          replace (b <? D + lg) with true in B by (symmetry; apply Nat.ltb_lt; lia). auto. }
        specialize (G B). rewrite !(reach_common (S j) _ b) in G by (auto; lia). rewrite Ed in G.
        rewrite (digits_set (D + lg) b x q) in G by (auto; lia).
        destruct (G Hc) as [G'|(y & Hy & Ry)]; auto. right.
        exists (digits_from (D + lg) lg y). split; [apply (reach_common D); auto; lia|].
        rewrite <- Ed. apply nat_bits. intros i.
        rewrite N.div_pow2_bits. replace (N.of_nat i + N.of_nat (b - lg))%N with (N.of_nat (i + (b - lg))) by lia.
        rewrite !digits_bit. replace (i + (b - lg) + lg) with (i + b) by lia.
        destruct (Nat.ltb_spec (i + b) (D + lg)); cbn [andb]; auto. rewrite (Hy (i + b)); auto. lia.
    - intros H j x Hj pos. assert (Eb : pos = D + lg - S j) by (unfold pos; lia). clearbody pos.
      destruct (H pos (digits_from (D + lg) pos x / 2)%N ltac:(lia)) as (G1 & G2).
      assert (Es := odd_split (digits_from (D + lg) pos x)).
      assert (B0 := digits_bit (D + lg) pos x 0). cbn [Nat.add] in B0. change (N.of_nat 0) with 0%N in B0.
      replace (pos <? D + lg) with true in B0 by (symmetry; apply Nat.ltb_lt; lia). cbn [andb] in B0. rewrite B0 in Es.
      set (q := (digits_from (D + lg) pos x / 2)%N) in *.
      rewrite !(reach_common (S j) _ pos) by (auto; lia).
      split; intros B Hc; rewrite B in Es.
      + rewrite Es in Hc. rewrite (digits_clear (D + lg) pos x q) by (auto; lia). auto.
      + rewrite N.add_0_r in Es. rewrite Es in Hc. rewrite (digits_set (D + lg) pos x q) by (auto; lia).
        destruct (G2 Hc) as [G|(z & Hz & Ez)]; auto. right. assert (Hb := common_bound _ _ Hz).
        exists (z * pow2 lg)%N. split; [|apply (reach_common0 D); auto; lia].
        intros i Hi.
        assert (E1 : N.testbit x (N.of_nat i) = N.testbit (2 * q) (N.of_nat (i - pos))).
        { rewrite <- Es, digits_bit. replace (i - pos + pos) with i by lia.
          replace (i <? D + lg) with true by (symmetry; apply Nat.ltb_lt; lia). reflexivity. }
        rewrite E1, <- Ez, N.div_pow2_bits. unfold pow2. rewrite <- N.shiftl_mul_pow2, N.shiftl_spec_high by lia.
        f_equal. lia.
  Qed.
End Prefixes.

(** * The prefixes of tries *)

Section Items.
  Context {A I : Type}.
  Variable lmem : A -> N -> bool.
  Variable lg D : nat.
  Variable ts : list (tree A).
  Variable set : I -> list N.
  Variable run : I -> nat -> N -> Prop.
  Variable items : list I.
  Notation n := (length ts).
  Notation X := (forest_of ts).
  Hypothesis Hne : ts <> [].

  (** A tree that holds the set of an item, with the runs that the item has. *)
  Definition holds (t : tree A) (x : I) : Prop :=
    wf D t /\ sel lmem (D + lg) t 0 = set x /\ inhabited lg lmem t /\
    (forall j q, j < D -> (q < pow2 (D + lg))%N -> (runat lg j D t q = true <-> run x (D + lg - S j) q)) /\
    ~ run x (D + lg) 0.

  Hypothesis HI : Forall2 holds ts items.

  Definition has_prefix (b : nat) (q : N) : Prop :=
    Forall (fun x => prefix_of_member (set x) b q /\ ~ run x b (q * 2 ^ N.of_nat b)) items.

  Lemma items_wfs : wfs n D X.
  Proof. intros i t Hi E. destruct (Forall2_nth _ _ _ _ _ _ _ HI E) as (s & _ & W & _). auto. Qed.

  Lemma items_bound : forall b q, has_prefix b q -> (q * pow2 b < pow2 (D + lg))%N.
  Proof.
    intros b q H. destruct (nth_error ts 0) as [t|] eqn:Et.
    2:{ exfalso. apply Hne. destruct ts; auto. discriminate. }
    destruct (Forall2_nth _ _ _ _ _ _ _ HI Et) as (x & Ex & _ & E & _).
    unfold has_prefix in H. rewrite Forall_forall in H. destruct (H x (nth_error_In _ _ Ex)) as ((y & Iy & ->) & _).
    apply (sel_In _ _ _ _ _ E) in Iy. destruct Iy as (Iy & _).
    assert (G := pow2_nz b). assert (Hm := N.mul_div_le y (pow2 b) G). fold (pow2 b). nia.
  Qed.

  Lemma items_reach : forall j q b, j <= D -> b = D + lg - j -> (q * pow2 b < pow2 (D + lg))%N ->
    (all_reachx lg n j D X (q * pow2 b) <-> has_prefix b q).
  Proof.
    intros j q b Hj -> Hq.
    assert (Hdiv : (q * pow2 (D + lg - j) / pow2 (D + lg - j) = q)%N) by (apply N.div_mul, pow2_nz).
    assert (One : forall t x, holds t x -> (reachx lg j D t (q * pow2 (D + lg - j)) = true <->
      prefix_of_member (set x) (D + lg - j) q /\ ~ run x (D + lg - j) (q * 2 ^ N.of_nat (D + lg - j)))).
    { intros t x (W & E & In0 & Hr & Htop).
      assert (HM : reach lg j D t (q * pow2 (D + lg - j)) = true <-> prefix_of_member (set x) (D + lg - j) q).
      { rewrite (reach_member lg 0 lmem j t D _ W In0 Hj). unfold prefix_of_member. split.
        - intros (y & Ey & My). exists y. fold (pow2 (D + lg - j)). split; [|congruence].
          apply (sel_In _ _ _ _ _ E). split; auto. eapply same_block_lt; [|exact Hq|exact Ey]. lia.
        - intros (y & Iy & Ey). fold (pow2 (D + lg - j)) in Ey. exists y. split; [congruence|].
          apply (sel_In _ _ _ _ _ E) in Iy. tauto. }
      fold (pow2 (D + lg - j)). destruct j as [|j].
      - rewrite Nat.sub_0_r in *. assert (q = 0)%N as -> by (assert (G := pow2_pos (D + lg)); nia).
        rewrite N.mul_0_l in *. rewrite <- HM. cbn [reachx reach]. tauto.
      - rewrite reachx_runat, andb_true_iff, negb_true_iff, HM, <- (Hr j) by (auto; lia).
        rewrite not_true_iff_false. tauto. }
    unfold has_prefix. rewrite Forall_forall. split.
    - intros H s Hs. apply In_nth_error in Hs. destruct Hs as (i & Ei).
      assert (Hi : i < n). { rewrite (Forall2_length HI). apply nth_error_Some. congruence. }
      destruct (nth_error ts i) as [t|] eqn:Et; [|apply nth_error_None in Et; lia].
      destruct (Forall2_nth _ _ _ _ _ _ _ HI Et) as (s' & Es & P). rewrite Ei in Es. injection Es as <-.
      apply (One t s P). apply (H i t Hi Et).
    - intros H i t Hi E. destruct (Forall2_nth _ _ _ _ _ _ _ HI E) as (s & Es & P).
      apply (One t s P). apply H. eapply nth_error_In; eauto.
  Qed.
End Items.

(** * Prefixes and flags *)

Lemma flag_set_ext : forall (P Q : nat -> N -> Prop) g b q, (forall b q, P b q <-> Q b q) ->
  flag_set P g b q <-> flag_set Q g b q.
Proof.
  intros P Q g b q H. unfold flag_set. split; intros (H1 & H2); split; intros G.
  - apply H, H1, H, G.
  - destruct (H2 (proj2 (H _ _) G)) as [H3|(z & Hz & Ez)]; [left; apply H; auto|right; exists z; split; auto; apply H; auto].
  - apply H, H1, H, G.
  - destruct (H2 (proj1 (H _ _) G)) as [H3|(z & Hz & Ez)]; [left; apply H; auto|right; exists z; split; auto; apply H; auto].
Qed.

Lemma flags_set_ext : forall (P Q : nat -> N -> Prop) g d, (forall b q, P b q <-> Q b q) ->
  flags_set P g d <-> flags_set Q g d.
Proof. intros P Q g d H. split; intros F b q Hb; apply (flag_set_ext P Q g b q H); auto. Qed.

Lemma bin_prefixes_plain : forall l, Forall (fun x : bitem => snd (fst x) = false) l ->
  forall b q, bin_prefixes l b q <-> common_prefix (map snd l) b q.
Proof.
  intros l Hl b q. unfold bin_prefixes, common_prefix. rewrite Forall_map. rewrite !Forall_forall in *. split.
  - intros H x Hx. apply H; auto.
  - intros H x Hx. split; auto. intros (E & _). rewrite Hl in E by auto. discriminate.
Qed.

Lemma fast_prefixes_plain : forall l, Forall (fun x => f_enc x = false) l ->
  forall b q, fast_prefixes l b q <-> common_prefix (map snd l) b q.
Proof.
  intros l Hl b q. unfold fast_prefixes, common_prefix. rewrite Forall_map. rewrite !Forall_forall in *. split.
  - intros H x Hx. apply H; auto.
  - intros H x Hx. split; auto. intros (E & _). rewrite Hl in E by auto. discriminate.
Qed.

(** * Tries built from sets *)

Lemma Forall2_plain : forall X Y (P : X -> Y -> Prop) (Q : Y -> Prop) a b,
  Forall2 P a b -> Forall Q b -> Forall2 (fun x y => P x y /\ Q y) a b.
Proof. intros X Y P Q a b H. induction H; intros F; inversion F; auto. Qed.

Section Top.
  Context {A I : Type}.
  Variable lok : trie_ops -> nat -> A -> Prop.
  Variable lmem : A -> N -> bool.
  Variable lg D maxLevel : nat.
  Variable k : kind.
  Variable Ts : list trie_ops.
  Variable ts : list (tree A).
  Variable set : I -> list N.
  Variable run : I -> nat -> N -> Prop.
  Variable items : list I.
  Variable noroot : bool.
  Hypothesis HR : Forall2 (repr lok D maxLevel) Ts ts.
  Hypothesis HI : Forall2 (holds lmem lg D set run) ts items.
  Hypothesis Hn : 1 <= length Ts <= 16.
  Hypothesis Hend : forall lvl, lvl <= D -> at_end k maxLevel lvl = (lvl =? D).
  Hypothesis Htot : total_bits k maxLevel = D + lg.
  Hypothesis Hbits : D + lg < 64.
  Hypothesis HDm : D <= maxLevel.
  Hypothesis Hlast : forall lvl, lvl < D -> S lvl = maxLevel -> noroot = true /\ S lvl = D.
  Hypothesis Hleaf : forall active roots X p r,
    (forall i, i < length Ts -> active i = Ok (is_some (X i))) ->
    okf Ts (leafok lok Ts) noroot 0 D roots X -> aligned lg p ->
    and_leaf k Ts (length Ts) active roots p r = Ok (r ++ inter lmem lg (length Ts) 0 X p).
  Variable hc : N.
  Hypothesis Hhc : (1 <= hc)%N.
  Notation P := (has_prefix set run items).

  Theorem strict_prefixes :
    (flags_set P lg (D + lg) -> exists r, Intersect_strict k hc Ts false = Ok r) /\
    (~ flags_set P lg (D + lg) -> Intersect_strict k hc Ts false = UB Indeterminate).
  Proof.
    assert (Hs := inst_somes lok D maxLevel Ts ts HR).
    assert (HX := inst_okf lok D maxLevel Ts ts HR noroot ltac:(lia)).
    assert (Hh := inst_heights lok D maxLevel Ts ts HR).
    assert (Ln : length Ts = length ts) by (apply (Forall2_length HR)).
    assert (Hne : ts <> []) by (intros ->; cbn in Ln; lia).
    assert (E : Intersect_strict k hc Ts false =
      if sok (length ts) D (forest_of ts) then Ok (interx lmem lg (length Ts) D (forest_of ts) 0%N) else UB Indeterminate).
    { unfold Intersect_strict. destruct (same_heights Ts maxLevel ltac:(lia) Hh) as (T0 & -> & E1 & E2).
      cbn [bind]. rewrite E1, E2. cbn [negb].
      replace (N.eqb hc 0) with false by (symmetry; apply N.eqb_neq; lia).
      rewrite (AND_strict_spec k Ts maxLevel lmem lg D (leafok lok Ts) noroot ltac:(lia) Hend Htot Hbits Hlast Hleaf
                 D 0 init_roots (forest_of ts) 0%N [] (S maxLevel)) by (auto using aligned_0; lia).
      rewrite <- Ln. destruct (sok (length Ts) D (forest_of ts)); reflexivity. }
    assert (Q := sok_prefixes lg D (length ts) (forest_of ts) P (items_wfs lmem lg D ts set run items HI)
      (items_bound lmem lg D ts set run items Hne HI) (items_reach lmem lg D ts set run items HI)). rewrite E.
    destruct (sok (length ts) D (forest_of ts)).
    - split; [eauto|]. intros F. destruct F. apply Q. auto.
    - split; auto. intros F. apply Q in F. discriminate.
  Qed.
End Top.

Lemma bin_holds : forall h x, 1 <= h -> wf h (bin_tree h (snd (fst x)) (snd x)) ->
  sel umem (h + 0) (bin_tree h (snd (fst x)) (snd x)) 0 = snd x ->
  holds umem 0 h snd bin_run (bin_tree h (snd (fst x)) (snd x)) x.
Proof.
  intros h x H1 W Es. split; auto. split; auto. split; [apply unit_inhabited; auto|]. split.
  - intros j q Hj Hq. rewrite bin_runat by auto. unfold bin_run. replace (S (h + 0 - S j)) with (h - j) by lia. reflexivity.
  - intros (_ & H). set (b := Nat.max 2 (S (h + 0))) in *.
    assert (Hb : (pow2 (h + 0) < pow2 b)%N).
    { apply N.lt_le_trans with (pow2 (S (h + 0))); [rewrite pow2_S; assert (G := pow2_pos (h + 0)); lia|].
      apply N.pow_le_mono_r; [lia|]. unfold b. lia. }
    assert (HIn : In (pow2 (h + 0)) (snd x)).
    { apply H. fold (pow2 b). rewrite !N.div_small; auto. apply pow2_pos. }
    apply (sel_In _ _ _ _ _ Es) in HIn. lia.
Qed.

Lemma fast_holds : forall lw d x, snd x <> [] -> wf d (fast_tree lw d (f_enc x) (snd x)) ->
  sel (wmem lw) (d + lw) (fast_tree lw d (f_enc x) (snd x)) 0 = snd x ->
  holds (wmem lw) lw d snd fast_run (fast_tree lw d (f_enc x) (snd x)) x.
Proof.
  intros lw d x Hne W Es. split; auto. split; auto. split; [apply fast_inhabited; auto|]. split.
  - intros j q Hj Hq. rewrite fast_runat by auto. unfold fast_run. replace (S (d + lw - S j)) with (d + lw - j) by lia. reflexivity.
  - intros (_ & H). set (b := S (d + lw)) in *.
    assert (Hb : (pow2 (d + lw) < pow2 b)%N).
    { unfold b. rewrite pow2_S. assert (G := pow2_pos (d + lw)). lia. }
    assert (HIn : In (pow2 (d + lw)) (snd x)).
    { apply H. fold (pow2 b). rewrite !N.div_small; auto. apply pow2_pos. }
    apply (sel_In _ _ _ _ _ Es) in HIn. lia.
Qed.

(** Tries with or without runs: what is returned is what a call with runs=false returns. *)
Theorem bin_strict_any : forall u (l : list bitem) hc,
  (2 <= u <= 2 ^ 48)%N -> 1 <= length l <= 16 -> Forall (bitem_ok u) l -> (1 <= hc)%N ->
  exists Ts, each_ok (make_bitem u) l = Ok Ts /\
    (flags_set (bin_prefixes l) 0 (digits u) -> exists r, Intersect_strict Bin hc (map bin_ops Ts) false = Ok r /\
       common_where (map b_part l) (fun v => ~ Exists (run_around 4 v) (map b_part l)) r) /\
    (~ flags_set (bin_prefixes l) 0 (digits u) -> Intersect_strict Bin hc (map bin_ops Ts) false = UB Indeterminate).
Proof.
  intros u l hc Hu Hn Hl Hhc.
  destruct (bin_wrong_flag u l Hu Hn Hl) as (Ts0 & r & E0 & Hint & Er & _).
  destruct (height_of_spec u Hu) as (h & Hh & H1 & Hp & H2 & _).
  destruct (each_ok_spec _ _ (make_bitem u) (fun x t => exists T, T = bin_tree h (snd (fst x)) (snd x) /\
    repr lok_bin h h (bin_ops t) T /\ sel umem (h + 0) T 0 = snd x) l) as (Ts & E & HT).
  { eapply Forall_impl; [|exact Hl]. intros [[v e] s] Hx.
    destruct (bin_make_tree u h v e s Hh Hu H1 Hp H2 Hx) as (t & ? & ? & ?). exists t. split; eauto. }
  assert (Ts0 = Ts) by congruence. subst Ts0.
  apply Forall2_split in HT. destruct HT as (ts & HA & HB).
  assert (HR : Forall2 (repr lok_bin h h) (map bin_ops Ts) ts).
  { apply Forall2_map_l. eapply Forall2_impl; [|exact HA]. cbn. intros t T (x & _ & _ & ? & _). auto. }
  assert (HI : Forall2 (holds umem 0 h snd bin_run) ts l).
  { eapply Forall2_impl; [|exact HB]. cbn. intros T x (t & -> & (_ & W & _) & Es). apply bin_holds; try lia; try exact W; exact Es. }
  assert (Ln : length (map bin_ops Ts) = length l).
  { rewrite (Forall2_length HR), (Forall2_length HI). auto. }
  assert (Q := strict_prefixes lok_bin umem 0 h h Bin (map bin_ops Ts) ts snd bin_run l true HR HI ltac:(lia)
    (bin_end h) (bin_tot h) ltac:(lia) ltac:(lia) (bin_last h) (bin_leaf h (map bin_ops Ts)) hc Hhc).
  rewrite Nat.add_0_r in Q. assert (Ed := height_digits u h ltac:(lia) Hh). rewrite <- Ed in *.
  change (has_prefix snd bin_run l) with (bin_prefixes l) in Q.
  exists Ts. split; auto. destruct Q as (Q1 & Q2). split; auto. intros F.
  destruct (Q1 F) as (r' & Er'). exists r'. split; auto.
  assert (Ea := strict_agrees Bin (@concat _) (@concat _) hc (map bin_ops Ts) false r' Er').
  rewrite Er in Ea by auto. injection Ea as <-. auto.
Qed.

Theorem fast_strict_any : forall u lw (l : list fitem) hc,
  fast_universe u lw -> 1 <= length l <= 16 -> Forall (fitem_ok u) l -> (1 <= hc)%N ->
  exists Ts, each_ok (make_fitem u lw) l = Ok Ts /\
    (flags_set (fast_prefixes l) lw (digits u) -> exists r, Intersect_strict (Fast lw) hc (map fast_ops Ts) false = Ok r /\
       common_where (map f_part l) (fun v => ~ Exists (run_around (2 * 2 ^ N.of_nat lw) v) (map f_part l)) r) /\
    (~ flags_set (fast_prefixes l) lw (digits u) ->
       Intersect_strict (Fast lw) hc (map fast_ops Ts) false = UB Indeterminate).
Proof.
  intros u lw l hc Hul Hn Hl Hhc.
  destruct (fast_wrong_flag u lw l Hul Hn Hl) as (Ts0 & r & E0 & Hint & Er & _).
  destruct Hul as (Hlw & Hu).
  assert (H8 : (2 ^ N.of_nat 3 <= 2 ^ N.of_nat lw)%N).
  { apply N.pow_le_mono_r; [lia|]. cbn in Hlw. lia. }
  change (2 ^ N.of_nat 3)%N with 8%N in H8.
  destruct (height_of_spec u ltac:(lia)) as (h & Hh & H1 & Hp & H2 & Hk).
  assert (Hlh : lw <= h).
  { destruct lw as [|lw]; [lia|]. change (2 ^ N.of_nat (S lw))%N with (pow2 (S lw)) in Hu.
    rewrite pow2_S in Hu. assert (lw < h) by (apply Hk; lia). lia. }
  assert (H6 : lw <= 6) by (cbn in Hlw; lia).
  assert (Eh : h - lw + lw = h) by lia. set (d := h - lw) in *.
  destruct (each_ok_spec _ _ (make_fitem u lw) (fun x t => exists T, T = fast_tree lw d (f_enc x) (snd x) /\
    repr lok_fast d (S d) (fast_ops t) T /\ sel (wmem lw) (d + lw) T 0 = snd x /\ snd x <> []) l) as (Ts & E & HT).
  { eapply Forall_impl; [|exact Hl]. intros [[[jh je] e] s] Hx.
    destruct (fast_make_tree u h lw jh je e s Hh H6 Hlh ltac:(lia) Hp Hx) as (t & ? & ? & ?). exists t. split; auto.
    destruct Hx as (Hne & _). eauto 6. }
  assert (Ts0 = Ts) by congruence. subst Ts0.
  apply Forall2_split in HT. destruct HT as (ts & HA & HB).
  assert (HR : Forall2 (repr lok_fast d (S d)) (map fast_ops Ts) ts).
  { apply Forall2_map_l. eapply Forall2_impl; [|exact HA]. cbn. intros t T (x & _ & _ & ? & _). auto. }
  assert (HI : Forall2 (holds (wmem lw) lw d snd fast_run) ts l).
  { eapply Forall2_impl; [|exact HB]. cbn. intros T x (t & -> & (_ & W & _) & Es & Hne). apply fast_holds; [exact Hne|exact W|exact Es]. }
  assert (Ln : length (map fast_ops Ts) = length l).
  { rewrite (Forall2_length HR), (Forall2_length HI). auto. }
  assert (Q := strict_prefixes lok_fast (wmem lw) lw d (S d) (Fast lw) (map fast_ops Ts) ts snd fast_run l false HR HI ltac:(lia)
    (fast_end lw d) (fast_tot lw d) ltac:(lia) ltac:(lia) (fast_last d) (fast_leaf lw d H6 (map fast_ops Ts)) hc Hhc).
  assert (Ed := height_digits u h ltac:(lia) Hh). rewrite Eh in Q. rewrite <- Ed.
  change (has_prefix snd fast_run l) with (fast_prefixes l) in Q.
  exists Ts. split; auto. destruct Q as (Q1 & Q2). split; auto. intros F.
  destruct (Q1 F) as (r' & Er'). exists r'. split; auto.
  assert (Ea := strict_agrees (Fast lw) (@concat _) (@concat _) hc (map fast_ops Ts) false r' Er').
  rewrite Er in Ea by auto. injection Ea as <-. auto.
Qed.

Lemma common_plain : forall (xs : list (bool * list N)) b r, Forall (fun x => fst x = false) xs ->
  common_where xs (fun v => ~ Exists (run_around b v) xs) r -> is_intersection (map snd xs) r.
Proof.
  intros xs b r Hx (Hi & H). split; auto. intros v. rewrite H, Forall_map. split; [tauto|]. intros F. split; auto.
  intros E. apply Exists_exists in E. destruct E as (x & Ix & Er & _). rewrite Forall_forall in Hx. rewrite Hx in Er by auto. discriminate.
Qed.

Lemma map_parts_b : forall l, map snd (map b_part l) = map snd l.
Proof. intros l. rewrite map_map. reflexivity. Qed.
Lemma map_parts_f : forall l, map snd (map f_part l) = map snd l.
Proof. intros l. rewrite map_map. reflexivity. Qed.

Theorem bin_strict : forall u (l : list bitem) hc,
  (2 <= u <= 2 ^ 48)%N -> 1 <= length l <= 16 -> Forall (bitem_ok u) l ->
  Forall (fun x : bitem => snd (fst x) = false) l -> (1 <= hc)%N ->
  exists Ts, each_ok (make_bitem u) l = Ok Ts /\
    (flags_set (common_prefix (map snd l)) 0 (digits u) ->
       exists r, Intersect_strict Bin hc (map bin_ops Ts) false = Ok r /\ is_intersection (map snd l) r) /\
    (~ flags_set (common_prefix (map snd l)) 0 (digits u) -> Intersect_strict Bin hc (map bin_ops Ts) false = UB Indeterminate).
Proof.
  intros u l hc Hu Hn Hl Hr Hhc. destruct (bin_strict_any u l hc Hu Hn Hl Hhc) as (Ts & E & Q).
  rewrite (flags_set_ext _ _ _ _ (bin_prefixes_plain l Hr)) in Q. exists Ts. split; auto. destruct Q as (Q1 & Q2). split; auto.
  intros F. destruct (Q1 F) as (r & Er & Hc). exists r. split; auto. rewrite <- map_parts_b.
  eapply common_plain; [|exact Hc]. rewrite Forall_map. exact Hr.
Qed.

Theorem fast_strict : forall u lw (l : list fitem) hc,
  fast_universe u lw -> 1 <= length l <= 16 -> Forall (fitem_ok u) l ->
  Forall (fun x => f_enc x = false) l -> (1 <= hc)%N ->
  exists Ts, each_ok (make_fitem u lw) l = Ok Ts /\
    (flags_set (common_prefix (map snd l)) lw (digits u) ->
       exists r, Intersect_strict (Fast lw) hc (map fast_ops Ts) false = Ok r /\ is_intersection (map snd l) r) /\
    (~ flags_set (common_prefix (map snd l)) lw (digits u) ->
       Intersect_strict (Fast lw) hc (map fast_ops Ts) false = UB Indeterminate).
Proof.
  intros u lw l hc Hul Hn Hl Hr Hhc. destruct (fast_strict_any u lw l hc Hul Hn Hl Hhc) as (Ts & E & Q).
  rewrite (flags_set_ext _ _ _ _ (fast_prefixes_plain l Hr)) in Q. exists Ts. split; auto. destruct Q as (Q1 & Q2). split; auto.
  intros F. destruct (Q1 F) as (r & Er & Hc). exists r. split; auto. rewrite <- map_parts_f.
  eapply common_plain; [|exact Hc]. rewrite Forall_map. exact Hr.
Qed.

(** * Where it is not defined *)

Lemma odd_unset : forall sets g d x, Forall (fun s => In x s) sets -> g < d ->
  N.odd (x / 2 ^ N.of_nat g) = true -> Exists (fun s => forall y, In y s -> (y / 2 ^ N.of_nat g + 1 <> x / 2 ^ N.of_nat g)%N) sets ->
  ~ flags_set (common_prefix sets) g d.
Proof.
  intros sets g d x Hx Hg Ho He F.
  destruct (F g (x / 2 ^ N.of_nat g / 2)%N ltac:(lia)) as (F1 & _).
  assert (E : (x / 2 ^ N.of_nat g = 2 * (x / 2 ^ N.of_nat g / 2) + 1)%N).
  { rewrite <- N.div2_div. assert (E := N.div2_odd (x / 2 ^ N.of_nat g)). rewrite Ho in E. cbn [N.b2n] in E. exact E. }
  assert (C : common_prefix sets g (2 * (x / 2 ^ N.of_nat g / 2))).
  { apply F1. rewrite <- E. unfold common_prefix. apply Forall_forall. intros s Hs. exists x.
    split; auto. rewrite Forall_forall in Hx. auto. }
  unfold common_prefix in C. apply Exists_exists in He. destruct He as (s & Hs & He). rewrite Forall_forall in C.
  destruct (C s Hs) as (y & Hy & Ey). apply (He y Hy). lia.
Qed.

Theorem bin_odd : forall u (l : list bitem) hc x,
  (2 <= u <= 2 ^ 48)%N -> 1 <= length l <= 16 -> Forall (bitem_ok u) l ->
  Forall (fun x : bitem => snd (fst x) = false) l -> (1 <= hc)%N ->
  Forall (fun s => In x s) (map snd l) -> N.odd x = true -> ~ Forall (fun s => In (x - 1)%N s) (map snd l) ->
  exists Ts, each_ok (make_bitem u) l = Ok Ts /\ Intersect_strict Bin hc (map bin_ops Ts) false = UB Indeterminate.
Proof.
  intros u l hc x Hu Hn Hl Hr Hhc Hx Ho He.
  destruct (bin_strict u l hc Hu Hn Hl Hr Hhc) as (Ts & E & _ & H). exists Ts. split; auto. apply H.
  assert (D1 : 1 <= digits u).
  { unfold digits. assert (0 < N.log2_up u)%N by (apply N.log2_up_pos; lia). lia. }
  apply (odd_unset _ 0 _ x); auto; change (2 ^ N.of_nat 0)%N with 1%N; rewrite ?N.div_1_r; auto.
  apply neg_Forall_Exists_neg in He; [|intros s; destruct (in_dec N.eq_dec (x - 1)%N s); auto].
  eapply Exists_impl; [|exact He]. cbn. intros s Hs y Hy. rewrite N.div_1_r. intros Ey. apply Hs.
  replace (x - 1)%N with y by lia. auto.
Qed.

Theorem fast_odd : forall u lw (l : list fitem) hc x,
  fast_universe u lw -> (2 ^ N.of_nat lw < u)%N -> 1 <= length l <= 16 -> Forall (fitem_ok u) l ->
  Forall (fun x => f_enc x = false) l -> (1 <= hc)%N ->
  Forall (fun s => In x s) (map snd l) -> N.odd (x / 2 ^ N.of_nat lw) = true ->
  Exists (fun s => forall y, In y s -> (y / 2 ^ N.of_nat lw + 1 <> x / 2 ^ N.of_nat lw)%N) (map snd l) ->
  exists Ts, each_ok (make_fitem u lw) l = Ok Ts /\ Intersect_strict (Fast lw) hc (map fast_ops Ts) false = UB Indeterminate.
Proof.
  intros u lw l hc x Hul Hw Hn Hl Hr Hhc Hx Ho He.
  destruct (fast_strict u lw l hc Hul Hn Hl Hr Hhc) as (Ts & E & _ & H). exists Ts. split; auto. apply H.
  apply (odd_unset _ lw _ x); auto.
  unfold digits. assert (N.of_nat lw < N.log2_up u)%N; [|lia]. apply N.log2_up_lt_pow2; lia.
Qed.
