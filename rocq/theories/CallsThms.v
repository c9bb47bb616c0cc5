(** Proofs about the calls made by a sequential intersection. *)

From Verif Require Import Base FlatTrie LevelTrie FastTrie ParallelFor Intersection Calls Facts Tree Reps
  Groups BuildFlat BuildLevel BuildFast WordBits Compress CompressFast RunsFacts InterSpec InterSeq InterTight.

(** * The record changes nothing *)

Section Erase.
  Variable k : kind.
  Variable Ts : list trie_ops.
  Variables n maxLevel : nat.

  Definition drop {X Y} (o : result (X * Y)) : result X := let* (x, _) := o in Ok x.

  Lemma AND_erase : forall fuel lvl roots p r c,
    drop (AND_calls k Ts n maxLevel fuel lvl roots p r c) = AND k Ts n maxLevel fuel lvl roots p r.
  Proof.
    induction fuel as [|fuel IH]; intros lvl roots p r c; cbn [AND AND_calls].
    - destruct (at_end k maxLevel lvl); [|reflexivity].
      destruct (and_leaf _ _ _ _ _ _ _); reflexivity.
    - destruct (at_end k maxLevel lvl).
      { destruct (and_leaf _ _ _ _ _ _ _); reflexivity. }
      unfold drop. destruct (for_loop _ _ _ _); cbn [bind]; [|reflexivity|reflexivity].
      destruct (N.eqb a 0); [reflexivity|]. destruct (N.eqb a 2); [|destruct (N.eqb a 1)].
      + destruct (left_children _ _ _ _ _ _) as [x| |]; cbn [bind]; [|reflexivity|reflexivity].
        rewrite <- (IH (S lvl) x p r (c ++ [(lvl, p)])). unfold drop.
        destruct (AND_calls _ _ _ _ _ _ _ _ _ _) as [[[r1 f1] c1]| |]; reflexivity.
      + destruct (right_prefix _ _ _ _) as [q| |]; cbn [bind]; [|reflexivity|reflexivity].
        destruct (right_children _ _ _ _ _ _) as [x| |]; cbn [bind]; [|reflexivity|reflexivity].
        rewrite <- (IH (S lvl) x q r (c ++ [(lvl, p)])). unfold drop.
        destruct (AND_calls _ _ _ _ _ _ _ _ _ _) as [[[r1 f1] c1]| |]; reflexivity.
      + destruct (right_prefix _ _ _ _) as [q| |]; cbn [bind]; [|reflexivity|reflexivity].
        destruct (both_children _ _ _ _ _ _) as [[x y]| |]; cbn [bind]; [|reflexivity|reflexivity].
        rewrite <- (IH (S lvl) x p r (c ++ [(lvl, p)])). unfold drop.
        destruct (AND_calls _ _ _ _ _ _ x _ _ _) as [[[r1 f1] c1]| |]; cbn [bind]; [|reflexivity|reflexivity].
        rewrite <- (IH (S lvl) y q r1 c1). unfold drop.
        destruct (AND_calls _ _ _ _ _ _ y _ _ _) as [[[r2 f2] c2]| |]; reflexivity.
  Qed.

  Lemma runsAND_erase : forall fuel lvl roots active p r c,
    drop (runsAND_calls k Ts n maxLevel fuel lvl roots active p r c)
    = runsAND k Ts n maxLevel fuel lvl roots active p r.
  Proof.
    induction fuel as [|fuel IH]; intros lvl roots active p r c; cbn [runsAND runsAND_calls].
    - destruct (at_end k maxLevel lvl); [|reflexivity].
      destruct (and_leaf _ _ _ _ _ _ _); reflexivity.
    - destruct (at_end k maxLevel lvl).
      { destruct (and_leaf _ _ _ _ _ _ _); reflexivity. }
      unfold drop. destruct (runs_scan _ _ _ _ _) as [[[temp a] o]| |]; cbn [bind]; [|reflexivity|reflexivity].
      destruct (N.eqb a 0 && negb (N.eqb o 0))%bool; [reflexivity|].
      destruct (N.eqb o 0).
      { destruct (push_full _ _ _ _ _); reflexivity. }
      destruct (N.eqb a 2); [|destruct (N.eqb a 1); [|destruct (N.eqb a 3); [|reflexivity]]].
      + destruct (left_children _ _ _ _ _ _) as [x| |]; cbn [bind]; [|reflexivity|reflexivity].
        apply IH.
      + destruct (right_prefix _ _ _ _) as [q| |]; cbn [bind]; [|reflexivity|reflexivity].
        destruct (right_children _ _ _ _ _ _) as [x| |]; cbn [bind]; [|reflexivity|reflexivity].
        apply IH.
      + destruct (right_prefix _ _ _ _) as [q| |]; cbn [bind]; [|reflexivity|reflexivity].
        destruct (both_children _ _ _ _ _ _) as [[x y]| |]; cbn [bind]; [|reflexivity|reflexivity].
        rewrite <- (IH (S lvl) x temp p r (c ++ [(lvl, p)])). unfold drop.
        destruct (runsAND_calls _ _ _ _ _ _ x _ _ _ _) as [[r1 c1]| |]; cbn [bind]; [|reflexivity|reflexivity].
        apply IH.
  Qed.
End Erase.

Theorem Intersect_erase : forall k s1 s2 hc Ts runs,
  drop (Intersect_calls k hc Ts runs) = Intersect k s1 s2 hc Ts runs false.
Proof.
  intros. unfold Intersect, Intersect_calls, Intersect_mem, drop.
  destruct (vget Ts 0) as [T0| |]; cbn [bind]; [|reflexivity|reflexivity].
  destruct (negb _); [reflexivity|]. destruct (N.eqb hc 0); [reflexivity|]. cbn [andb].
  destruct runs.
  - rewrite <- (runsAND_erase k Ts _ _ _ _ _ _ _ _ []). unfold drop.
    destruct (runsAND_calls _ _ _ _ _ _ _ _ _ _ _) as [[r c]| |]; reflexivity.
  - rewrite <- (AND_erase k Ts _ _ _ _ _ _ _ []). unfold drop.
    destruct (AND_calls _ _ _ _ _ _ _ _ _ _) as [[[r f] c]| |]; reflexivity.
Qed.

(** * The calls, on abstract trees *)

Lemma NoDup_both : forall X (a b : list X), NoDup a -> NoDup b -> (forall x, In x a -> ~ In x b) -> NoDup (a ++ b).
Proof.
  induction a as [|x a IH]; intros b Ha Hb H; auto. inversion Ha; subst. cbn [app]. constructor.
  - intros Hin. apply in_app_or in Hin. destruct Hin; auto. apply (H x); [left|]; auto.
  - apply IH; auto. intros y Hy. apply H. right. auto.
Qed.

Section Visits.
  Context {A : Type}.
  Variable lg n : nat.

  Fixpoint visits (d : nat) (X : forest (A := A)) (lvl : nat) (p : N) : calls :=
    (lvl, p) ::
    match d with
    | O => []
    | S d' =>
      let Y := drop_full X in
      if none_left n Y then []
      else (if all_left n Y then visits d' (lefts Y) (S lvl) p else [])
           ++ (if all_right n Y then visits d' (rights Y) (S lvl) (p + pow2 (d' + lg)) else [])
    end.

  (** The way to [x] exists for [j] levels. *)
  Fixpoint reach (j d : nat) (t : tree A) (x : N) : bool :=
    match j with
    | O => true
    | S j' =>
      match t with
      | Leaf _ | Full => true
      | TL l => if N.testbit x (N.of_nat (pred d + lg)) then false else reach j' (pred d) l x
      | TR r => if N.testbit x (N.of_nat (pred d + lg)) then reach j' (pred d) r x else false
      | TB l r => if N.testbit x (N.of_nat (pred d + lg)) then reach j' (pred d) r x
                  else reach j' (pred d) l x
      end
    end.

  Definition all_reach (j d : nat) (X : forest (A := A)) (x : N) : Prop :=
    forall i t, i < n -> X i = Some t -> reach j d t x = true.

  (** Some tree has no run on the way to [x] within the first [S j] levels. *)
  Definition open_at (j d : nat) (X : forest (A := A)) (x : N) : Prop :=
    exists i t, i < n /\ X i = Some t /\ runat lg j d t x = false.

  Definition wfs (d : nat) (X : forest (A := A)) : Prop :=
    forall i t, i < n -> X i = Some t -> wf d t.

  Lemma wfs_drop : forall d X, wfs d X -> wfs d (drop_full X).
  Proof. intros d X H i t Hi E. apply drop_full_some in E. apply (H i); tauto. Qed.

  Lemma wfs_lefts : forall d X, wfs (S d) X -> wfs d (lefts X).
  Proof.
    intros d X H i t Hi E. unfold lefts in E. destruct (X i) as [y|] eqn:EX; [|discriminate].
    specialize (H i y Hi EX). destruct y; inversion E; subst; cbn in H; tauto.
  Qed.

  Lemma wfs_rights : forall d X, wfs (S d) X -> wfs d (rights X).
  Proof.
    intros d X H i t Hi E. unfold rights in E. destruct (X i) as [y|] eqn:EX; [|discriminate].
    specialize (H i y Hi EX). destruct y; inversion E; subst; cbn in H; tauto.
  Qed.

  Lemma runat_full : forall j d x, runat lg j d (@Full A) x = true.
  Proof. destruct j; reflexivity. Qed.

  Lemma reach_full : forall j d x, reach j d (@Full A) x = true.
  Proof. destruct j; reflexivity. Qed.

  Lemma all_reach_drop : forall j d X x, all_reach j d (drop_full X) x <-> all_reach j d X x.
  Proof.
    intros j d X x. split; intros H i t Hi E.
    - destruct t; try (apply (H i); auto; unfold drop_full; rewrite E; reflexivity). apply reach_full.
    - apply drop_full_some in E. apply (H i); tauto.
  Qed.

  Lemma open_drop : forall j d X x, open_at j d (drop_full X) x <-> open_at j d X x.
  Proof.
    intros j d X x. split; intros (i & t & Hi & E & R0); exists i, t; split; auto.
    - apply drop_full_some in E. tauto.
    - split; auto. unfold drop_full. rewrite E. destruct t; auto. rewrite runat_full in R0. discriminate.
  Qed.

  Notation noFull X := (forall i t, X i = Some t -> t <> Full).

  (** One step down. *)
  Lemma reach_left : forall j d X x, wfs (S d) X -> noFull X -> N.testbit x (N.of_nat (d + lg)) = false ->
    (all_reach (S j) (S d) X x <-> all_left n X = true /\ all_reach j d (lefts X) x).
  Proof.
    intros j d X x W F B. split.
    - intros H. split.
      + apply forallb_seq. intros i Hi. destruct (X i) as [t|] eqn:E; auto.
        specialize (H i t Hi E). cbn [reach pred] in H. rewrite B in H. specialize (W i t Hi E).
        destruct t; auto; cbn in W; try discriminate. exfalso. apply (F i Full); auto.
      + intros i t Hi E. unfold lefts in E. destruct (X i) as [y|] eqn:EX; [|discriminate].
        specialize (H i y Hi EX). cbn [reach pred] in H. rewrite B in H.
        destruct y; inversion E; subst; auto.
    - intros (HL & H) i t Hi E. cbn [reach pred]. rewrite B.
      unfold all_left in HL. rewrite forallb_seq in HL. specialize (HL i Hi). rewrite E in HL.
      destruct t; auto; try discriminate; apply (H i); auto; unfold lefts; rewrite E; auto.
  Qed.

  Lemma reach_right : forall j d X x, wfs (S d) X -> noFull X -> N.testbit x (N.of_nat (d + lg)) = true ->
    (all_reach (S j) (S d) X x <-> all_right n X = true /\ all_reach j d (rights X) x).
  Proof.
    intros j d X x W F B. split.
    - intros H. split.
      + apply forallb_seq. intros i Hi. destruct (X i) as [t|] eqn:E; auto.
        specialize (H i t Hi E). cbn [reach pred] in H. rewrite B in H. specialize (W i t Hi E).
        destruct t; auto; cbn in W; try discriminate. exfalso. apply (F i Full); auto.
      + intros i t Hi E. unfold rights in E. destruct (X i) as [y|] eqn:EX; [|discriminate].
        specialize (H i y Hi EX). cbn [reach pred] in H. rewrite B in H.
        destruct y; inversion E; subst; auto.
    - intros (HL & H) i t Hi E. cbn [reach pred]. rewrite B.
      unfold all_right in HL. rewrite forallb_seq in HL. specialize (HL i Hi). rewrite E in HL.
      destruct t; auto; try discriminate; apply (H i); auto; unfold rights; rewrite E; auto.
  Qed.

  Lemma open_left : forall j d X x, all_left n X = true -> N.testbit x (N.of_nat (d + lg)) = false ->
    (open_at (S j) (S d) X x <-> open_at j d (lefts X) x).
  Proof.
    intros j d X x HL B. unfold all_left in HL. rewrite forallb_seq in HL. split.
    - intros (i & t & Hi & E & R0). specialize (HL i Hi). rewrite E in HL. cbn [runat pred] in R0.
      rewrite B in R0. destruct t as [a| |l|r|l r]; try discriminate; exists i, l;
        (split; auto; split; auto; unfold lefts; rewrite E; auto).
    - intros (i & t & Hi & E & R0). unfold lefts in E. destruct (X i) as [y|] eqn:EX; [|discriminate].
      exists i, y. split; auto. split; auto. cbn [runat pred].
      destruct y; inversion E; subst; rewrite B; auto.
  Qed.

  Lemma open_right : forall j d X x, all_right n X = true -> N.testbit x (N.of_nat (d + lg)) = true ->
    (open_at (S j) (S d) X x <-> open_at j d (rights X) x).
  Proof.
    intros j d X x HL B. unfold all_right in HL. rewrite forallb_seq in HL. split.
    - intros (i & t & Hi & E & R0). specialize (HL i Hi). rewrite E in HL. cbn [runat pred] in R0.
      rewrite B in R0. destruct t as [a| |l|r|l r]; try discriminate; exists i, r;
        (split; auto; split; auto; unfold rights; rewrite E; auto).
    - intros (i & t & Hi & E & R0). unfold rights in E. destruct (X i) as [y|] eqn:EX; [|discriminate].
      exists i, y. split; auto. split; auto. cbn [runat pred].
      destruct y; inversion E; subst; rewrite B; auto.
  Qed.

  Lemma open_first : forall d X x, noFull X -> (open_at 0 d X x <-> none_left n X = false).
  Proof.
    intros d X x F. unfold none_left. rewrite forallb_seq_false. split.
    - intros (i & t & Hi & E & _). exists i. split; auto. rewrite E. auto.
    - intros (i & Hi & E). destruct (X i) as [t|] eqn:EX; [|discriminate]. exists i, t.
      split; auto. split; auto. destruct t; auto. exfalso. apply (F i Full); auto.
  Qed.

  Lemma open_some : forall j d X x, open_at j d X x -> none_left n X = false.
  Proof.
    intros j d X x (i & t & Hi & E & _). unfold none_left. apply forallb_seq_false.
    exists i. split; auto. rewrite E. auto.
  Qed.

  Lemma aligned_unique : forall b p q, aligned b p -> aligned b q -> (p <= q < p + pow2 b)%N -> q = p.
  Proof.
    intros b p q Hp Hq H. apply aligned_ex in Hp. apply aligned_ex in Hq.
    destruct Hp as (x & ->), Hq as (y & ->). assert (G := pow2_pos b).
    assert (x <= y)%N by nia. assert (y < x + 1)%N by nia. f_equal. lia.
  Qed.

  Definition visited (d : nat) (X : forest (A := A)) (lvl : nat) (p : N) (m : nat) (q : N) : Prop :=
    exists j, j <= d /\ m = lvl + j /\ aligned (d - j + lg) q /\ (p <= q < p + pow2 (d + lg))%N /\
      all_reach j d X q /\ (j = 0 \/ open_at (pred j) d X q).

  Theorem visits_In : forall d X lvl p m q, wfs d X -> aligned (d + lg) p ->
    (In (m, q) (visits d X lvl p) <-> visited d X lvl p m q).
  Proof.
    assert (Head : forall d X lvl p m q, aligned (d + lg) p ->
      (((lvl, p) = (m, q)) <-> exists j, j = 0 /\ j <= d /\ m = lvl + j /\ aligned (d - j + lg) q /\
         (p <= q < p + pow2 (d + lg))%N /\ all_reach j d X q /\ (j = 0 \/ open_at (pred j) d X q))).
    { intros d X lvl p m q Ha. split.
      - intros E. inversion E; subst. exists 0. rewrite Nat.sub_0_r. assert (G := pow2_pos (d + lg)).
        repeat split; auto; try lia.
      - intros (j & -> & _ & -> & Hq & Hr & _). rewrite Nat.sub_0_r in Hq. rewrite Nat.add_0_r.
        f_equal. symmetry. apply (aligned_unique (d + lg)); auto. }
    unfold visited. induction d; intros X lvl p m q W Ha; cbn [visits In].
    - rewrite (Head 0 X lvl p m q Ha). split.
      + intros [(j & _ & H)|[]]. exists j. exact H.
      + intros (j & Hj & H). left. exists j. split; [lia|]. auto.
    - rewrite (Head (S d) X lvl p m q Ha).
      set (Y := drop_full X).
      assert (WY : wfs (S d) Y) by (apply wfs_drop; auto).
      assert (F : noFull Y) by (intros i t E; apply drop_full_some in E; tauto).
      assert (HR : forall j x, all_reach j (S d) X x <-> all_reach j (S d) Y x)
        by (intros; symmetry; apply all_reach_drop).
      assert (HO : forall j x, open_at j (S d) X x <-> open_at j (S d) Y x)
        by (intros; symmetry; apply open_drop).
      assert (P2 := pow2_S (d + lg)). assert (G := pow2_pos (d + lg)).
      assert (Al := aligned_S (d + lg) p Ha). assert (Ar := aligned_right (d + lg) p Ha).
      split.
      + intros [(j & _ & H)|H]; [exists j; exact H|].
        destruct (none_left n Y) eqn:EN; [destruct H|]. apply in_app_or in H. destruct H as [H|H].
        * destruct (all_left n Y) eqn:EL; [|destruct H].
          apply (IHd (lefts Y)) in H; auto using wfs_lefts.
          destruct H as (j & Hj & -> & Hq & Hr & Hre & Ho).
          assert (B : N.testbit q (N.of_nat (d + lg)) = false) by (apply (testbit_left (d + lg) p); auto).
          exists (S j). split; [lia|]. split; [lia|]. split; [exact Hq|]. cbn [Nat.add]. split; [lia|]. split.
          -- rewrite HR. rewrite reach_left by auto. auto.
          -- right. cbn [pred]. rewrite HO. destruct j as [|j]; [apply open_first; auto|].
             rewrite open_left by auto. destruct Ho as [Ho|Ho]; [discriminate|auto].
        * destruct (all_right n Y) eqn:EL; [|destruct H].
          apply (IHd (rights Y)) in H; auto using wfs_rights.
          destruct H as (j & Hj & -> & Hq & Hr & Hre & Ho).
          assert (B : N.testbit q (N.of_nat (d + lg)) = true)
            by (apply (testbit_right (d + lg) p); auto; rewrite P2; lia).
          exists (S j). split; [lia|]. split; [lia|]. split; [exact Hq|]. cbn [Nat.add]. split; [lia|]. split.
          -- rewrite HR. rewrite reach_right by auto. auto.
          -- right. cbn [pred]. rewrite HO. destruct j as [|j]; [apply open_first; auto|].
             rewrite open_right by auto. destruct Ho as [Ho|Ho]; [discriminate|auto].
      + intros (j & Hj & H). destruct j as [|j]; [left; exists 0; auto|]. right.
        destruct H as (-> & Hq & Hr & Hre & Ho). destruct Ho as [Ho|Ho]; [discriminate|].
        cbn [pred] in Ho. rewrite HO in Ho. rewrite HR in Hre. cbn [Nat.add] in Hr.
        rewrite (open_some _ _ _ _ Ho). apply in_or_app.
        destruct (N.lt_ge_cases q (p + pow2 (d + lg))) as [L|L].
        * left.
          assert (B : N.testbit q (N.of_nat (d + lg)) = false) by (apply (testbit_left (d + lg) p); auto; lia).
          rewrite reach_left in Hre by auto. destruct Hre as (EL & Hre). rewrite EL.
          apply IHd; auto using wfs_lefts. exists j. split; [lia|]. split; [lia|]. split; [exact Hq|].
          split; [lia|]. split; auto. destruct j as [|j]; auto. right. rewrite open_left in Ho by auto. auto.
        * right.
          assert (B : N.testbit q (N.of_nat (d + lg)) = true)
            by (apply (testbit_right (d + lg) p); auto; lia).
          rewrite reach_right in Hre by auto. destruct Hre as (EL & Hre). rewrite EL.
          apply IHd; auto using wfs_rights. exists j. split; [lia|]. split; [lia|]. split; [exact Hq|].
          split; [lia|]. split; auto. destruct j as [|j]; auto. right. rewrite open_right in Ho by auto. auto.
  Qed.

  Lemma visits_range : forall d X lvl p m q, In (m, q) (visits d X lvl p) ->
    lvl <= m /\ (p <= q < p + pow2 (d + lg))%N.
  Proof.
    induction d; intros X lvl p m q H; cbn [visits In] in H.
    - destruct H as [H|[]]. inversion H; subst. assert (G := pow2_pos (0 + lg)). lia.
    - assert (P2 := pow2_S (d + lg)). assert (G := pow2_pos (d + lg)). cbn [Nat.add].
      destruct H as [H|H]; [inversion H; subst; lia|].
      destruct (none_left _ _); [destruct H|]. apply in_app_or in H.
      destruct H as [H|H]; [destruct (all_left _ _)|destruct (all_right _ _)]; try destruct H;
        apply IHd in H; lia.
  Qed.

  Theorem visits_NoDup : forall d X lvl p, NoDup (visits d X lvl p).
  Proof.
    induction d; intros X lvl p; cbn [visits].
    - constructor; [auto|constructor].
    - constructor.
      + intros H. destruct (none_left _ _); [destruct H|]. apply in_app_or in H.
        destruct H as [H|H]; [destruct (all_left _ _)|destruct (all_right _ _)]; try destruct H;
        apply visits_range in H; lia.
      + destruct (none_left _ _); [constructor|]. apply NoDup_both.
        * destruct (all_left _ _); [auto|constructor].
        * destruct (all_right _ _); [auto|constructor].
        * intros [m q] H1 H2. destruct (all_left _ _); [|destruct H1]. destruct (all_right _ _); [|destruct H2].
          apply visits_range in H1. apply visits_range in H2. lia.
  Qed.

  (** [reach] by members. *)
  Variable lmem : A -> N -> bool.

  (** Every leaf holds a value. *)
  Definition inhabited (t : tree A) : Prop :=
    forall a, In a (leaves t) -> forall p, aligned lg p -> exists y, (p <= y < p + pow2 lg)%N /\ lmem a y = true.

  Lemma some_member : forall t d p, wf d t -> inhabited t -> aligned (d + lg) p ->
    exists x, (p <= x < p + pow2 (d + lg))%N /\ mem lmem (d + lg) t x = true.
  Proof.
    induction t as [a| |l IH|r IH|l IHl r IHr]; intros d p W I Ha; cbn [wf] in W.
    - subst d. destruct (I a ltac:(left; auto) p Ha) as (y & Hy & My). exists y. auto.
    - exists p. assert (G := pow2_pos (d + lg)). split; [lia|reflexivity].
    - destruct W as (H0 & W). destruct d as [|d]; [lia|]. cbn [Nat.add pred] in *.
      destruct (IH d p W I) as (x & Hx & Mx); auto using aligned_S.
      exists x. rewrite pow2_S. split; [lia|]. cbn [mem pred]. rewrite (testbit_left (d + lg) p x) by auto. auto.
    - destruct W as (H0 & W). destruct d as [|d]; [lia|]. cbn [Nat.add pred] in *.
      destruct (IH d (p + pow2 (d + lg))%N W I) as (x & Hx & Mx); auto using aligned_right.
      exists x. rewrite pow2_S. split; [lia|]. cbn [mem pred].
      rewrite (testbit_right' (d + lg) p x) by (auto; lia). auto.
    - destruct W as (H0 & W & _). destruct d as [|d]; [lia|]. cbn [Nat.add pred] in *.
      destruct (IHl d p W) as (x & Hx & Mx); auto using aligned_S.
      { intros a Hin. apply I. cbn [leaves]. apply in_or_app. auto. }
      exists x. rewrite pow2_S. split; [lia|]. cbn [mem pred]. rewrite (testbit_left (d + lg) p x) by auto. auto.
  Qed.

  Theorem reach_member : forall j t d x, wf d t -> inhabited t -> j <= d ->
    (reach j d t x = true <->
     exists y, (y / pow2 (d + lg - j) = x / pow2 (d + lg - j))%N /\ mem lmem (d + lg) t y = true).
  Proof.
    assert (H0' : forall t d x, wf d t -> inhabited t ->
      exists y, (y / pow2 (d + lg - 0) = x / pow2 (d + lg - 0))%N /\ mem lmem (d + lg) t y = true).
    { intros t d x W I. rewrite Nat.sub_0_r.
      destruct (some_member t d (x / pow2 (d + lg) * pow2 (d + lg))%N W I) as (y & Hy & My).
      { apply aligned_ex. eauto. }
      exists y. split; auto. apply (block_in lmem). auto. }
    induction j; intros t d x W I Hj.
    - cbn [reach]. split; auto.
    - destruct t as [a| |l|r|l r]; cbn [reach].
      + cbn [wf] in W. lia.
      + split; auto. intros _. exists x. auto.
      + cbn [wf] in W. destruct W as (Hd & W). destruct d as [|d]; [lia|]. cbn [pred Nat.add] in *.
        replace (S (d + lg) - S j) with (d + lg - j) by lia.
        destruct (N.testbit x (N.of_nat (d + lg))) eqn:B.
        * split; [discriminate|]. intros (y & Hy & My). cbn [mem pred] in My.
          rewrite (block_bit lmem (d + lg - j) x y (d + lg)), B in My by (auto; lia). discriminate.
        * rewrite (IHj l d x) by (auto; lia).
          split; intros (y & Hy & My); exists y; split; auto; cbn [mem pred] in *;
            rewrite (block_bit lmem (d + lg - j) x y (d + lg)), B in * by (auto; lia); auto.
      + cbn [wf] in W. destruct W as (Hd & W). destruct d as [|d]; [lia|]. cbn [pred Nat.add] in *.
        replace (S (d + lg) - S j) with (d + lg - j) by lia.
        destruct (N.testbit x (N.of_nat (d + lg))) eqn:B.
        * rewrite (IHj r d x) by (auto; lia).
          split; intros (y & Hy & My); exists y; split; auto; cbn [mem pred] in *;
            rewrite (block_bit lmem (d + lg - j) x y (d + lg)), B in * by (auto; lia); auto.
        * split; [discriminate|]. intros (y & Hy & My). cbn [mem pred] in My.
          rewrite (block_bit lmem (d + lg - j) x y (d + lg)), B in My by (auto; lia). discriminate.
      + cbn [wf] in W. destruct W as (Hd & W1 & W2). destruct d as [|d]; [lia|]. cbn [pred Nat.add] in *.
        replace (S (d + lg) - S j) with (d + lg - j) by lia.
        assert (Il : inhabited l) by (intros a Hin; apply I; cbn [leaves]; apply in_or_app; auto).
        assert (Ir : inhabited r) by (intros a Hin; apply I; cbn [leaves]; apply in_or_app; auto).
        destruct (N.testbit x (N.of_nat (d + lg))) eqn:B;
          [rewrite (IHj r d x) by (auto; lia)|rewrite (IHj l d x) by (auto; lia)];
          (split; intros (y & Hy & My); exists y; split; auto; cbn [mem pred] in *;
            rewrite (block_bit lmem (d + lg - j) x y (d + lg)), B in * by (auto; lia); auto).
  Qed.
End Visits.

(** * AND and runsAND *)

Lemma visits_ext : forall A lg n d (X Y : forest (A := A)) lvl p, (forall i, i < n -> X i = Y i) ->
  visits lg n d X lvl p = visits lg n d Y lvl p.
Proof.
  intros A lg n. induction d; intros X Y lvl p H; cbn [visits]; auto.
  assert (HD : forall i, i < n -> drop_full X i = drop_full Y i) by (intros; unfold drop_full; rewrite H; auto).
  assert (E1 : none_left n (drop_full X) = none_left n (drop_full Y))
    by (apply forallb_seq_ext; intros; rewrite HD; auto).
  assert (E2 : all_left n (drop_full X) = all_left n (drop_full Y))
    by (apply forallb_seq_ext; intros; rewrite HD; auto).
  assert (E3 : all_right n (drop_full X) = all_right n (drop_full Y))
    by (apply forallb_seq_ext; intros; rewrite HD; auto).
  rewrite E1, E2, E3.
  rewrite (IHd (lefts (drop_full X)) (lefts (drop_full Y))) by (intros; unfold lefts; rewrite HD; auto).
  rewrite (IHd (rights (drop_full X)) (rights (drop_full Y))) by (intros; unfold rights; rewrite HD; auto).
  reflexivity.
Qed.

Section SeqCalls.
  Context {A : Type}.
  Variable k : kind.
  Variable Ts : list trie_ops.
  Variable maxLevel : nat.
  Variable lmem : A -> N -> bool.
  Variable lg D : nat.
  Variable leafok : nat -> nat -> A -> Prop.
  Variable noroot : bool.

  Notation n := (length Ts).
  Notation okf := (okf Ts leafok noroot).
  Notation plains := (plains Ts (A := A)).
  Notation actok := (actok Ts (A := A)).

  Hypothesis Hn : n <= 16.
  Hypothesis Hn1 : 1 <= n.
  Hypothesis Hend : forall lvl, lvl <= D -> at_end k maxLevel lvl = (lvl =? D).
  Hypothesis Htot : total_bits k maxLevel = D + lg.
  Hypothesis Hbits : D + lg < 64.
  Hypothesis Hlast : forall lvl, lvl < D -> S lvl = maxLevel -> noroot = true /\ S lvl = D.
  Hypothesis Hleaf : forall active roots X p r,
    (forall i, i < n -> active i = Ok (is_some (X i))) -> okf 0 D roots X -> aligned lg p ->
    and_leaf k Ts n active roots p r = Ok (r ++ inter lmem lg n 0 X p).

  Notation visits := (visits lg n).

  Let pl_act : forall X, plains X -> forall i, i < n -> all_active i = Ok (is_some (X i)) := plains_act Ts.
  Let pl_left : forall X, plains X -> all_left n X = true -> plains (lefts X) := plains_left Ts.
  Let pl_right : forall X, plains X -> all_right n X = true -> plains (rights X) := plains_right Ts.
  Let ac_left : forall temp X, actok temp X -> all_left n X = true -> actok temp (lefts X) := act_left Ts.
  Let ac_right : forall temp X, actok temp X -> all_right n X = true -> actok temp (rights X) := act_right Ts.

  Lemma plain_step : forall d X lvl p, plains X ->
    visits (S d) X lvl p = [(lvl, p)] ++
      ((if all_left n X then visits d (lefts X) (S lvl) p else [])
       ++ (if all_right n X then visits d (rights X) (S lvl) (p + pow2 (d + lg)) else [])).
  Proof.
    clear - Hn1. intros d X lvl p HP. cbn [CallsThms.visits].
    assert (HD : forall i, i < n -> drop_full X i = X i).
    { intros i Hi. unfold drop_full. destruct (HP i Hi) as (t & -> & P). destruct t; auto. destruct P. }
    assert (E1 : none_left n (drop_full X) = false).
    { apply forallb_seq_false. exists 0. split; [lia|]. rewrite HD by lia.
      destruct (HP 0 ltac:(lia)) as (t & -> & _). auto. }
    assert (E2 : all_left n (drop_full X) = all_left n X)
      by (apply forallb_seq_ext; intros; rewrite HD; auto).
    assert (E3 : all_right n (drop_full X) = all_right n X)
      by (apply forallb_seq_ext; intros; rewrite HD; auto).
    rewrite E1, E2, E3.
    rewrite (visits_ext _ _ _ _ (lefts (drop_full X)) (lefts X)) by (intros; unfold lefts; rewrite HD; auto).
    rewrite (visits_ext _ _ _ _ (rights (drop_full X)) (rights X)) by (intros; unfold rights; rewrite HD; auto).
    reflexivity.
  Qed.

  Theorem AND_calls_spec : forall d lvl roots X p r c fuel,
    lvl + d = D -> okf d lvl roots X -> plains X -> aligned (d + lg) p -> d <= fuel ->
    exists r' fl, AND_calls k Ts n maxLevel fuel lvl roots p r c = Ok (r', fl, c ++ visits d X lvl p).
  Proof.
    induction d; intros lvl roots X p r c fuel HD HX HP Ha Hf.
    - replace lvl with D in * by lia. eexists; exists (Some true).
      destruct fuel; cbn [AND_calls]; rewrite Hend, Nat.eqb_refl by lia;
      rewrite (Hleaf all_active roots X) by (auto using pl_act); reflexivity.
    - destruct fuel as [|fuel]; [lia|]. cbn [AND_calls]. rewrite Hend by lia.
      replace (lvl =? D) with false by (symmetry; apply Nat.eqb_neq; lia).
      rewrite (AND_scan Ts leafok noroot d lvl roots X) by (auto; apply plains_some; auto). cbn [bind].
      rewrite plain_step by auto. rewrite app_assoc. generalize (c ++ [(lvl, p)]). clear c. intros c.
      rewrite code_0, code_1, code_2.
      destruct (all_left n X) eqn:EL, (all_right n X) eqn:ER; cbn [negb andb].
      + rewrite (right_prefix_spec k maxLevel lmem lg D leafok Htot Hbits lvl d) by auto. cbn [bind].
        destruct (both_children_spec Ts maxLevel D leafok noroot Hn Hlast d lvl roots X all_active) as (ln & rn & -> & HL & HR);
          eauto using pl_act, all_left_has, all_right_has. cbn [bind].
        destruct (IHd (S lvl) ln (lefts X) p r c fuel) as (r1 & f1 & ->);
          auto using pl_left, aligned_S; try lia. cbn [bind].
        destruct (IHd (S lvl) rn (rights X) (p + pow2 (d + lg))%N r1 (c ++ visits d (lefts X) (S lvl) p) fuel)
          as (r2 & f2 & ->); auto using pl_right, aligned_right; try lia. cbn [bind].
        rewrite app_assoc. eauto.
      + destruct (left_children_spec Ts maxLevel D leafok noroot Hn Hlast d lvl roots X all_active) as (ln & -> & HL);
          eauto using pl_act, all_left_has. cbn [bind].
        destruct (IHd (S lvl) ln (lefts X) p r c fuel) as (r1 & f1 & ->);
          auto using pl_left, aligned_S; try lia. cbn [bind].
        rewrite app_nil_r. eauto.
      + rewrite (right_prefix_spec k maxLevel lmem lg D leafok Htot Hbits lvl d) by auto. cbn [bind].
        destruct (right_children_spec Ts maxLevel D leafok noroot Hn Hlast d lvl roots X all_active) as (rn & -> & HR);
          eauto using pl_act, all_right_has. cbn [bind].
        destruct (IHd (S lvl) rn (rights X) (p + pow2 (d + lg))%N r c fuel)
          as (r2 & f2 & ->); auto using pl_right, aligned_right; try lia. cbn [bind app].
        eauto.
      + rewrite app_nil_r. eauto.
  Qed.

  Lemma runs_step : forall d (X : forest (A := A)) lvl p,
    visits (S d) X lvl p = [(lvl, p)] ++
      (let Y := drop_full X in
       if none_left n Y then []
       else (if all_left n Y then visits d (lefts Y) (S lvl) p else [])
            ++ (if all_right n Y then visits d (rights Y) (S lvl) (p + pow2 (d + lg)) else [])).
  Proof. reflexivity. Qed.

  Theorem runsAND_calls_spec : forall d lvl roots active X p r c fuel,
    lvl + d = D -> okf d lvl roots X -> actok active X -> aligned (d + lg) p -> d <= fuel ->
    exists r', runsAND_calls k Ts n maxLevel fuel lvl roots active p r c = Ok (r', c ++ visits d X lvl p).
  Proof.
    clear Hn1. induction d; intros lvl roots active X p r c fuel HD HX Hact Ha Hf.
    - replace lvl with D in * by lia. eexists.
      destruct fuel; cbn [runsAND_calls]; rewrite Hend, Nat.eqb_refl by lia;
      rewrite (Hleaf (aget active) roots X) by auto; reflexivity.
    - destruct fuel as [|fuel]; [lia|]. cbn [runsAND_calls]. rewrite Hend by lia.
      replace (lvl =? D) with false by (symmetry; apply Nat.eqb_neq; lia).
      destruct (runs_scan_spec Ts leafok noroot Hn d lvl roots active X HX Hact) as (temp & o & -> & Ht & Ho). cbn [bind].
      apply okf_drop in HX. rewrite runs_step, app_assoc. generalize (c ++ [(lvl, p)]). clear c. intros c.
      revert HX Ht Ho. generalize (drop_full X). clear X Hact. intros X HX Hact Ho.
      cbv zeta. rewrite Ho. destruct (none_left n X) eqn:EN.
      { destruct (none_all Ts X EN) as (-> & ->). cbn [negb andb]. rewrite andb_false_r.
        rewrite (push_full_spec k maxLevel lmem lg D leafok Htot Hbits lvl (S d)) by auto. cbn [bind]. rewrite app_nil_r. eauto. }
      cbn [negb]. rewrite andb_true_r.
      rewrite code_0, code_1, code_2, code_3.
      destruct (all_left n X) eqn:EL, (all_right n X) eqn:ER; cbn [negb andb].
      + rewrite (right_prefix_spec k maxLevel lmem lg D leafok Htot Hbits lvl d) by auto. cbn [bind].
        destruct (both_children_spec Ts maxLevel D leafok noroot Hn Hlast d lvl roots X (aget temp)) as (ln & rn & -> & HL & HR);
          eauto using all_left_has, all_right_has. cbn [bind].
        destruct (IHd (S lvl) ln temp (lefts X) p r c fuel) as (r1 & ->); auto using ac_left, aligned_S; try lia.
        cbn [bind].
        destruct (IHd (S lvl) rn temp (rights X) (p + pow2 (d + lg))%N r1 (c ++ visits d (lefts X) (S lvl) p) fuel)
          as (r2 & ->); auto using ac_right, aligned_right; try lia.
        rewrite app_assoc. eauto.
      + destruct (left_children_spec Ts maxLevel D leafok noroot Hn Hlast d lvl roots X (aget temp)) as (ln & -> & HL);
          eauto using all_left_has. cbn [bind].
        destruct (IHd (S lvl) ln temp (lefts X) p r c fuel) as (r1 & ->); auto using ac_left, aligned_S; try lia.
        rewrite app_nil_r. eauto.
      + rewrite (right_prefix_spec k maxLevel lmem lg D leafok Htot Hbits lvl d) by auto. cbn [bind].
        destruct (right_children_spec Ts maxLevel D leafok noroot Hn Hlast d lvl roots X (aget temp)) as (rn & -> & HR);
          eauto using all_right_has. cbn [bind].
        destruct (IHd (S lvl) rn temp (rights X) (p + pow2 (d + lg))%N r c fuel)
          as (r2 & ->); auto using ac_right, aligned_right; try lia.
        eauto.
      + rewrite app_nil_r. eauto.
  Qed.
End SeqCalls.
