(** The flags of AND in the threads of a parallel call. *)

From Verif Require Import Base FlatTrie LevelTrie FastTrie ParallelFor Intersection Tries Calls Strict Facts Tree
  Groups Reps Layout BuildFlat BuildLevel BuildFast WordBits Spec RoundTrip RoundTripFacts Compress
  WriteOnes CompressFast RunsFacts RunsThms SpecTries SpecMeasures SpecCalls SpecStrict NodeCount
  InterSpec InterSeq ParFacts InterPar InterPlan InterTop InterInst InterTight InterMain InterThms LayoutThms CallsThms
  CallsMain SpecLost InterFlag StrictThms.

(** * Agreement *)

Lemma for_loop_agree : forall S (f g : nat -> S -> result S) n i s s',
  (forall j a b, f j a = Ok b -> g j a = Ok b) -> for_loop n i f s = Ok s' -> for_loop n i g s = Ok s'.
Proof.
  intros S f g n. induction n; intros i s s' H E; cbn [for_loop] in *; auto.
  apply bind_inv in E. destruct E as (a & E1 & E2). rewrite (H _ _ _ E1). cbn [bind]. auto.
Qed.

Theorem strict_par_agrees : forall k s1 s2 hc Ts runs r, Intersect_strict_par k s1 s2 hc Ts runs = Ok r ->
  Intersect k s1 s2 hc Ts runs true = Ok r.
Proof.
  intros k s1 s2 hc Ts runs r H. unfold Intersect_strict_par in H.
  assert (Hseq : Intersect_strict k hc Ts runs = Ok r -> Intersect k s1 s2 hc Ts runs false = Ok r) by apply strict_agrees.
  unfold Intersect, Intersect_mem in *.
  destruct (vget Ts 0) as [T0| |]; cbn [bind] in *; try discriminate.
  destruct (negb _); [exact H|]. destruct (N.eqb hc 0); [discriminate|]. cbn [andb] in *.
  destruct ((t_height T0 <? 2) || _)%bool; auto.
  destruct (par_plan _ _ _ _ _ _ _) as [[r0 m0|used levels st]| |]; cbn [bind] in *; try discriminate; auto.
  apply bind_inv in H. destruct H as (res & E & H).
  assert (E' : par_results k Ts (length Ts) (t_height T0) runs s1 used levels st = Ok res).
  { unfold par_results_strict in E. apply bind_inv in E. destruct E as (outs & Eo & E).
    unfold par_results. match goal with |- bind ?m _ = _ => assert (m = Ok outs) as ->; [|exact E] end.
    eapply for_loop_agree; [|exact Eo]. clear.
    intros j a b F. cbv beta in *. apply bind_inv in F. destruct F as (tk & Et & F). rewrite Et. cbn [bind].
    apply bind_inv in F. destruct F as (r & Er & F). unfold run_task_strict in Er. unfold run_task.
    destruct runs; [rewrite Er; exact F|]. apply bind_inv in Er. destruct Er as ([r1 f1] & Er & F1).
    rewrite (AND_agree _ _ _ _ _ _ _ _ _ _ _ Er). cbn [bind]. injection F1 as ->. exact F. }
  rewrite E'. cbn [bind]. destruct (par_concat _ _ _ _) as [r1| |]; cbn [bind] in *; try discriminate.
  destruct (free_loop _ _ _); cbn [bind] in *; try discriminate. auto.
Qed.

Theorem strict_par_runs : forall k s1 s2 hc Ts,
  Intersect_strict_par k s1 s2 hc Ts true = Intersect k s1 s2 hc Ts true true.
Proof.
  intros. assert (Hseq := strict_runs k s1 s2 hc Ts).
  unfold Intersect_strict_par, Intersect, Intersect_mem in *.
  destruct (vget Ts 0) as [T0| |]; cbn [bind] in *; auto.
  destruct (negb _); auto. destruct (N.eqb hc 0); auto. cbn [andb] in *.
  destruct ((t_height T0 <? 2) || _)%bool; auto.
  destruct (par_plan _ _ _ _ _ _ _) as [[r0 m0|used levels st]| |]; cbn [bind]; auto.
  change (par_results_strict k Ts (length Ts) (t_height T0) true s1 used levels st)
    with (par_results k Ts (length Ts) (t_height T0) true s1 used levels st).
  destruct (par_results _ _ _ _ _ _ _ _ _) as [res| |]; cbn [bind]; auto.
  destruct (par_concat _ _ _ _) as [r1| |]; cbn [bind]; auto.
  destruct (free_loop _ _ _); auto.
Qed.

(** * The tasks of a call *)

Section From.
  Context {A : Type}.
  Variable lg n : nat.

  (** [all_set] without its first [c] levels. *)
  Definition all_from (c d : nat) (X : forest (A := A)) : Prop :=
    forall j x, c <= j < d -> let pos := d - S j + lg in
      (N.testbit x (N.of_nat pos) = true -> all_reachx lg n (S j) d X x ->
         all_reachx lg n (S j) d X (N.clearbit x (N.of_nat pos))) /\
      (N.testbit x (N.of_nat pos) = false -> all_reachx lg n (S j) d X x ->
         all_reachx lg n (S j) d X (N.setbit x (N.of_nat pos)) \/
         exists y, agree lg d pos x y /\ all_reachx lg n d d X y).

  Lemma all_from_0 : forall d X, all_from 0 d X <-> all_set lg n d X.
  Proof. intros d X. split; intros H j x Hj; apply H; lia. Qed.

  Notation step_left := (step_left lg n).
  Notation step_right := (step_right lg n).
  Notation clear_other := (clear_other).
  Notation all_reach_ext := (all_reach_ext lg n).

  Lemma all_from_S : forall c d X, wfs n (S d) X ->
    (all_from (S c) (S d) X <->
     (all_left n X = true -> all_from c d (lefts X)) /\ (all_right n X = true -> all_from c d (rights X))).
  Proof.
    intros c d X W.
    assert (WL := wfs_lefts n d X W). assert (WR := wfs_rights n d X W).
    split.
    - intros H. split; intros EL.
        + intros j x Hj pos.
          assert (Hne : pos <> d + lg) by (unfold pos; lia).
          set (x0 := N.clearbit x (N.of_nat (d + lg))).
          assert (B0 : N.testbit x0 (N.of_nat (d + lg)) = false) by apply N.clearbit_eq.
          assert (Ex : forall i, i <> d + lg -> N.testbit x0 (N.of_nat i) = N.testbit x (N.of_nat i))
            by (intros; apply clear_other; lia).
          destruct (H (S j) x0 ltac:(lia)) as (G1 & G2).
          replace (S d - S (S j) + lg) with pos in * by (unfold pos; lia).
          split; intros B Hx.
          -- assert (Hx0 : all_reachx lg n (S (S j)) (S d) X x0).
             { apply step_left; auto. split; auto. eapply all_reach_ext; [exact WL| |exact Hx].
               intros. symmetry. apply Ex. lia. }
             specialize (G1 ltac:(rewrite Ex; auto) Hx0). apply step_left in G1; auto.
             2:{ rewrite clear_other; auto. }
             destruct G1 as (_ & G1). eapply all_reach_ext; [exact WL| |exact G1].
             intros i Hi. rewrite !N.clearbit_eqb. rewrite (Ex i) by lia. auto.
          -- assert (Hx0 : all_reachx lg n (S (S j)) (S d) X x0).
             { apply step_left; auto. split; auto. eapply all_reach_ext; [exact WL| |exact Hx].
               intros. symmetry. apply Ex. lia. }
             destruct (G2 ltac:(rewrite Ex; auto) Hx0) as [G|(y & Hy & Ry)].
             ++ left. apply step_left in G; auto.
                2:{ rewrite set_other; auto. }
                destruct G as (_ & G). eapply all_reach_ext; [exact WL| |exact G].
                intros i Hi. rewrite !N.setbit_eqb. rewrite (Ex i) by lia. auto.
             ++ right. exists y. split.
                { intros i Hi. rewrite <- Ex by lia. apply Hy. lia. }
                apply step_left in Ry; auto; [tauto|]. rewrite <- (Hy (d + lg)); auto. unfold pos. lia.
        + intros j x Hj pos.
          assert (Hne : pos <> d + lg) by (unfold pos; lia).
          set (x0 := N.setbit x (N.of_nat (d + lg))).
          assert (B0 : N.testbit x0 (N.of_nat (d + lg)) = true) by apply N.setbit_eq.
          assert (Ex : forall i, i <> d + lg -> N.testbit x0 (N.of_nat i) = N.testbit x (N.of_nat i))
            by (intros; apply set_other; lia).
          destruct (H (S j) x0 ltac:(lia)) as (G1 & G2).
          replace (S d - S (S j) + lg) with pos in * by (unfold pos; lia).
          split; intros B Hx.
          -- assert (Hx0 : all_reachx lg n (S (S j)) (S d) X x0).
             { apply step_right; auto. split; auto. eapply all_reach_ext; [exact WR| |exact Hx].
               intros. symmetry. apply Ex. lia. }
             specialize (G1 ltac:(rewrite Ex; auto) Hx0). apply step_right in G1; auto.
             2:{ rewrite clear_other; auto. }
             destruct G1 as (_ & G1). eapply all_reach_ext; [exact WR| |exact G1].
             intros i Hi. rewrite !N.clearbit_eqb. rewrite (Ex i) by lia. auto.
          -- assert (Hx0 : all_reachx lg n (S (S j)) (S d) X x0).
             { apply step_right; auto. split; auto. eapply all_reach_ext; [exact WR| |exact Hx].
               intros. symmetry. apply Ex. lia. }
             destruct (G2 ltac:(rewrite Ex; auto) Hx0) as [G|(y & Hy & Ry)].
             ++ left. apply step_right in G; auto.
                2:{ rewrite set_other; auto. }
                destruct G as (_ & G). eapply all_reach_ext; [exact WR| |exact G].
                intros i Hi. rewrite !N.setbit_eqb. rewrite (Ex i) by lia. auto.
             ++ right. exists y. split.
                { intros i Hi. rewrite <- Ex by lia. apply Hy. lia. }
                apply step_right in Ry; auto; [tauto|]. rewrite <- (Hy (d + lg)); auto. unfold pos. lia.
    - intros (HL & HR) j x Hj pos. destruct j as [|j]; [lia|].
      assert (pos = d - S j + lg) as Ep by (unfold pos; lia). clearbody pos. subst pos.
          assert (Hne : d - S j + lg <> d + lg) by lia.
          destruct (N.testbit x (N.of_nat (d + lg))) eqn:B0.
          -- split; intros B Hx.
             ++ apply step_right in Hx; auto. destruct Hx as (ER & Hx). destruct (HR ER j x ltac:(lia)) as (G & _).
                apply step_right; auto. { rewrite clear_other; auto. }
             ++ apply step_right in Hx; auto. destruct Hx as (ER & Hx). destruct (HR ER j x ltac:(lia)) as (_ & G). destruct (G B Hx) as [G'|(y & Hy & Ry)].
                ** left. apply step_right; auto. rewrite set_other; auto.
                ** right. exists (N.setbit y (N.of_nat (d + lg))). split.
                   { intros i Hi. destruct (Nat.eq_dec i (d + lg)) as [->|Hi'].
                     - rewrite N.setbit_eq. auto.
                     - rewrite set_other by lia. apply Hy. lia. }
                   apply step_right; auto using N.setbit_eq. split; auto.
                   eapply all_reach_ext; [exact WR| |exact Ry]. intros. symmetry. apply set_other. lia.
          -- split; intros B Hx.
             ++ apply step_left in Hx; auto. destruct Hx as (ER & Hx). destruct (HL ER j x ltac:(lia)) as (G & _).
                apply step_left; auto. { rewrite clear_other; auto. }
             ++ apply step_left in Hx; auto. destruct Hx as (ER & Hx). destruct (HL ER j x ltac:(lia)) as (_ & G). destruct (G B Hx) as [G'|(y & Hy & Ry)].
                ** left. apply step_left; auto. rewrite set_other; auto.
                ** right. exists (N.clearbit y (N.of_nat (d + lg))). split.
                   { intros i Hi. destruct (Nat.eq_dec i (d + lg)) as [->|Hi'].
                     - rewrite N.clearbit_eq. auto.
                     - rewrite clear_other by lia. apply Hy. lia. }
                   apply step_left; auto using N.clearbit_eq. split; auto.
                   eapply all_reach_ext; [exact WL| |exact Ry]. intros. symmetry. apply clear_other. lia.
  Qed.
End From.

Section FromPrefixes.
  Context {A : Type}.
  Variable lg D n : nat.
  Variable X : forest (A := A).
  Variable P : nat -> N -> Prop.
  Hypothesis W : wfs n D X.
  Hypothesis HB : forall b q, P b q -> (q * pow2 b < pow2 (D + lg))%N.
  Hypothesis HP : forall j q b, j <= D -> b = D + lg - j -> (q * pow2 b < pow2 (D + lg))%N ->
    (all_reachx lg n j D X (q * pow2 b) <-> P b q).

  Theorem from_prefixes : forall c, c <= D -> (all_from lg n c D X <-> flags_set P lg (D + lg - c)).
  Proof.
    intros c HcD. split.
    - intros H b q Hb. set (j := D + lg - S b). assert (Hj : c <= j < D) by (unfold j; lia).
      assert (Ep : D - S j + lg = b) by (unfold j; lia). assert (Eb : b = D + lg - S j) by (unfold j; lia).
      split; intros Hc; assert (Hq := HB _ _ Hc).
      + set (x := ((2 * q + 1) * pow2 b)%N) in *. assert (Ed : digits_from (D + lg) b x = (2 * q + 1)%N) by (apply digits_small; auto).
        destruct (H j x Hj) as (G & _). rewrite Ep in G.
        assert (B : N.testbit x (N.of_nat b) = true).
        { assert (B := digits_bit (D + lg) b x 0). rewrite Ed, double1_bit0 in B. cbn [Nat.add] in B.
          symmetry in B. apply andb_true_iff in B. tauto. }
        specialize (G B). rewrite !(reach_common lg D n X P W HB HP (S j) _ b) in G by (auto; lia). rewrite Ed in G.
        rewrite (digits_clear (D + lg) b x q) in G by (auto; lia). auto.
      + set (x := ((2 * q) * pow2 b)%N) in *. assert (Ed : digits_from (D + lg) b x = (2 * q)%N) by (apply digits_small; auto).
        destruct (H j x Hj) as (_ & G). rewrite Ep in G.
        assert (B : N.testbit x (N.of_nat b) = false).
        { assert (B := digits_bit (D + lg) b x 0). rewrite Ed, double_bit0 in B. cbn [Nat.add] in B.
          replace (b <? D + lg) with true in B by (symmetry; apply Nat.ltb_lt; lia). auto. }
        specialize (G B). rewrite !(reach_common lg D n X P W HB HP (S j) _ b) in G by (auto; lia). rewrite Ed in G.
        rewrite (digits_set (D + lg) b x q) in G by (auto; lia).
        destruct (G Hc) as [G'|(y & Hy & Ry)]; auto. right.
        exists (digits_from (D + lg) lg y). split; [apply (reach_common lg D n X P W HB HP D); auto; lia|].
        rewrite <- Ed. apply nat_bits. intros i.
        rewrite N.div_pow2_bits. replace (N.of_nat i + N.of_nat (b - lg))%N with (N.of_nat (i + (b - lg))) by lia.
        rewrite !digits_bit. replace (i + (b - lg) + lg) with (i + b) by lia.
        destruct (Nat.ltb_spec (i + b) (D + lg)); cbn [andb]; auto. rewrite (Hy (i + b)); auto. lia.
    - intros H j x Hj pos. assert (Eb : pos = D + lg - S j) by (unfold pos; lia). clearbody pos.
      destruct (H pos (digits_from (D + lg) pos x / 2)%N ltac:(lia)) as (G1 & G2).
      assert (Es := odd_split (digits_from (D + lg) pos x)).
      assert (B0 := digits_bit (D + lg) pos x 0). cbn [Nat.add] in B0. change (N.of_nat 0) with 0%N in B0.
      replace (pos <? D + lg) with true in B0 by (symmetry; apply Nat.ltb_lt; lia). cbn [andb] in B0. rewrite B0 in Es.
      set (q := (digits_from (D + lg) pos x / 2)%N) in *.
      rewrite !(reach_common lg D n X P W HB HP (S j) _ pos) by (auto; lia).
      split; intros B Hc; rewrite B in Es.
      + rewrite Es in Hc. rewrite (digits_clear (D + lg) pos x q) by (auto; lia). auto.
      + rewrite N.add_0_r in Es. rewrite Es in Hc. rewrite (digits_set (D + lg) pos x q) by (auto; lia).
        destruct (G2 Hc) as [G|(z & Hz & Ez)]; auto. right. assert (Hb := HB _ _ Hz).
        exists (z * pow2 lg)%N. split; [|apply (HP D); auto; lia].
        intros i Hi.
        assert (E1 : N.testbit x (N.of_nat i) = N.testbit (2 * q) (N.of_nat (i - pos))).
        { rewrite <- Es, digits_bit. replace (i - pos + pos) with i by lia.
          replace (i <? D + lg) with true by (symmetry; apply Nat.ltb_lt; lia). reflexivity. }
        rewrite E1, <- Ez, N.div_pow2_bits. unfold pow2. rewrite <- N.shiftl_mul_pow2, N.shiftl_spec_high by lia.
        f_equal. lia.
  Qed.
End FromPrefixes.

Section Walk.
  Context {A : Type}.
  Variable Ts : list trie_ops.
  Variable lg D : nat.
  Notation n := (length Ts).
  Notation walk := (walk Ts lg false (A := A)).

  Definition good (d : nat) (g : ghost A) : Prop := wfs n d (fst g).

  Lemma walk_from : forall c e d X p, c <= d -> good d (X, p) ->
    Forall (good (d - c)) (snd (walk c d X p)) /\
    (Forall (fun g => all_from lg n e (d - c) (fst g)) (snd (walk c d X p)) <-> all_from lg n (c + e) d X).
  Proof.
    induction c as [|c IH]; intros e d X p Hc W; unfold good in W; cbn [fst] in W.
    - cbn [InterPar.walk snd]. rewrite Nat.sub_0_r. cbn [Nat.add]. split; [constructor; [exact W|constructor]|].
      split; [intros H; inversion H; auto|intros H; constructor; auto].
    - destruct d as [|d]; [lia|]. cbn [InterPar.walk andb snd]. cbn [Nat.sub Nat.add].
      assert (WL := wfs_lefts n d X W). assert (WR := wfs_rights n d X W).
      destruct (IH e d (lefts X) p ltac:(lia) ltac:(assumption)) as (GL & EL).
      destruct (IH e d (rights X) (p + pow2 (d + lg))%N ltac:(lia) ltac:(assumption)) as (GR & ER).
      rewrite all_from_S by auto. rewrite <- EL, <- ER. rewrite !Forall_app.
      destruct (all_left n X), (all_right n X); cbn [snd]; repeat split; auto; try tauto; try (constructor); try discriminate.
      all: intuition.
  Qed.

  Lemma good_sok : forall d g, good d g -> (sok n d (fst g) = true <-> all_from lg n 0 d (fst g)).
  Proof. intros d g W. rewrite all_from_0. apply sok_iff; auto. Qed.

  Lemma all_from_mono : forall c c' d (X : forest (A := A)), c <= c' -> all_from lg n c d X -> all_from lg n c' d X.
  Proof. intros c c' d X H F j x Hj. apply F. lia. Qed.

  Variable cut : nat.
  Variable nThreads : N.
  Hypothesis Hcut : S cut <= D.
  Notation expand := (expand Ts lg D false cut nThreads (A := A)).
  Notation soks l := (Forall (fun g : ghost A => sok n (D - l) (fst g) = true)).

  Lemma expand_sok : forall tl made, Forall (good (D - cut)) tl ->
    (soks cut tl -> soks (S cut) (snd (fst (expand tl made))) /\ soks cut (snd (expand tl made))) /\
    (soks (S cut) (snd (fst (expand tl made))) /\ soks cut (snd (expand tl made)) ->
     Forall (fun g => all_from lg n 1 (D - cut) (fst g)) tl).
  Proof.
    assert (Keep : forall tl, Forall (good (D - cut)) tl -> soks cut tl -> Forall (fun g => all_from lg n 1 (D - cut) (fst g)) tl).
    { intros tl G S. apply Forall_forall. intros g Hg. rewrite Forall_forall in G, S.
      apply all_from_mono with (c := 0); [lia|]. apply good_sok; auto. }
    induction tl as [|[X p] tl IH]; intros made G; cbn [InterPlan.expand].
    - cbn. split; intros; auto.
    - destruct (N.ltb _ _); cbn [fst snd].
      + inversion G as [|? ? G1 G2]; subst.
        destruct (IH (made + length (snd (walk 1 (D - cut) X p))) G2) as (I1 & I2).
        destruct (walk_from 1 0 (D - cut) X p ltac:(lia) G1) as (W1 & W2).
        replace (D - cut - 1) with (D - S cut) in * by lia.
        assert (W3 : soks (S cut) (snd (walk 1 (D - cut) X p)) <-> all_from lg n 1 (D - cut) X).
        { rewrite <- W2. split; intros H; apply Forall_forall; intros g Hg; rewrite Forall_forall in H, W1;
            apply good_sok; auto. }
        rewrite Forall_app. split.
        * intros H. inversion H as [|? ? H1 H2]; subst. destruct (I1 H2). repeat split; auto.
          apply W3. apply all_from_mono with (c := 0); [lia|]. apply (good_sok _ (X, p)); auto.
        * intros ((H1 & H2) & H3). constructor; [apply W3; auto|apply I2; auto].
      + split; [intros H; split; auto; constructor|]. intros (_ & H). apply Keep; auto.
  Qed.

  Lemma expand_few : forall tl, (nThreads <= 2)%N -> expand tl 0 = ([], [], tl).
  Proof.
    intros [|g tl] H; cbn [InterPlan.expand]; auto.
    replace (N.ltb _ _) with false; auto. symmetry. apply N.ltb_ge. cbn [length]. lia.
  Qed.

  Variable X : forest (A := A).
  Hypothesis HX : good D (X, 0%N).
  Definition sokt (lt : nat * ghost A) : bool := sok n (D - fst lt) (fst (snd lt)).

  Theorem tasks_sok :
    (all_from lg n cut D X -> forallb sokt (plan_tasks Ts lg D false cut nThreads X) = true) /\
    (forallb sokt (plan_tasks Ts lg D false cut nThreads X) = true -> all_from lg n (S cut) D X) /\
    (forallb sokt (plan_tasks Ts lg D false cut nThreads X) = true -> (nThreads <= 2)%N -> all_from lg n cut D X).
  Proof.
    assert (E : forallb sokt (plan_tasks Ts lg D false cut nThreads X) = true <->
      let e := expand (snd (walk cut D X 0%N)) 0 in soks (S cut) (snd (fst e)) /\ soks cut (snd e)).
    { unfold plan_tasks. cbv zeta. rewrite forallb_app, andb_true_iff, !forallb_forall, !Forall_forall.
      split; intros (H1 & H2); split; intros g Hg.
      - apply (H1 (S cut, g)). apply in_map; auto.
      - apply (H2 (cut, g)). apply in_map; auto.
      - apply in_map_iff in Hg. destruct Hg as (g' & <- & Hg). apply (H1 _ Hg).
      - apply in_map_iff in Hg. destruct Hg as (g' & <- & Hg). apply (H2 _ Hg). }
    destruct (walk_from cut 0 D X 0%N ltac:(lia) HX) as (G & W0).
    destruct (walk_from cut 1 D X 0%N ltac:(lia) HX) as (_ & W1).
    replace (cut + 0) with cut in W0 by lia. replace (cut + 1) with (S cut) in W1 by lia.
    assert (W2 : soks cut (snd (walk cut D X 0%N)) <-> all_from lg n cut D X).
    { rewrite <- W0. split; intros H; apply Forall_forall; intros g Hg; rewrite Forall_forall in H, G; apply good_sok; auto. }
    destruct (expand_sok (snd (walk cut D X 0%N)) 0 G) as (X1 & X2). cbv zeta in E.
    rewrite E. split; [|split].
    - intros H. apply X1, W2, H.
    - intros H. apply W1, X2, H.
    - intros H Hf. rewrite expand_few in H by auto. apply W2. apply H.
  Qed.
End Walk.

(** * The call *)

Section ParTop.
  Context {A I : Type}.
  Variable lok : trie_ops -> nat -> A -> Prop.
  Variable lmem : A -> N -> bool.
  Variable lg D maxLevel : nat.
  Variable k : kind.
  Variable Ts : list trie_ops.
  Variable ts : list (tree A).
  Variable set : I -> list N.
  Variable run : I -> nat -> N -> Prop.
  Variable items : list I.
  Variable noroot : bool.
  Notation n := (length Ts).
  Hypothesis HR : Forall2 (repr lok D maxLevel) Ts ts.
  Hypothesis HI : Forall2 (holds lmem lg D set run) ts items.
  Hypothesis Hn : 1 <= length Ts <= 16.
  Hypothesis Hend : forall lvl, lvl <= D -> at_end k maxLevel lvl = (lvl =? D).
  Hypothesis Htot : total_bits k maxLevel = D + lg.
  Hypothesis Hbits : D + lg < 64.
  Hypothesis HDm : D <= maxLevel.
  Hypothesis Hlast : forall lvl, lvl < D -> S lvl = maxLevel -> noroot = true /\ S lvl = D.
  Hypothesis Hleaf : forall active roots X p r,
    (forall i, i < length Ts -> active i = Ok (is_some (X i))) ->
    okf Ts (leafok lok Ts) noroot 0 D roots X -> aligned lg p ->
    and_leaf k Ts (length Ts) active roots p r = Ok (r ++ inter lmem lg (length Ts) 0 X p).
  Notation task_ok := (task_ok Ts lg D (leafok lok Ts) noroot false false).

  Lemma run_strict_spec : forall gl levels st t g,
    levels = map fst gl -> Forall (fun lt => fst lt <= D) gl ->
    pa_ints st = map snd (map snd gl) ->
    Forall2 (fun lt rt => task_ok (fst lt) (snd lt) rt) gl (pa_roots st) ->
    nth_error gl t = Some g ->
    exists tk, get_task false levels st t = Ok tk /\
      run_task_strict k Ts n maxLevel false tk =
      if sokt Ts D g then Ok (tx Ts lmem lg D g) else UB Indeterminate.
  Proof.
    intros gl levels st t [l g] -> HD Hi Hr Hg. unfold get_task.
    rewrite (vget_nth _ _ _ l) by (apply (map_nth_error fst _ _ Hg)). cbn [bind].
    destruct (Forall2_nth _ _ _ _ _ _ _ Hr Hg) as (rt & Er & (K1 & K2 & K3 & K4 & K5)).
    cbn [fst snd] in *.
    rewrite (vget_nth _ _ _ rt Er). cbn [bind].
    assert (Hl : l <= D).
    { rewrite Forall_forall in HD. apply nth_error_In in Hg. apply (HD _ Hg). }
    assert (Hg2 : nth_error (map snd gl) t = Some g) by (apply (map_nth_error snd _ _ Hg)).
    rewrite Hi. rewrite (vget_nth _ _ _ (snd g)) by (apply map_nth_error; auto). cbn [bind].
    eexists; split; [reflexivity|]. unfold run_task_strict. cbn [tk_level tk_roots tk_active tk_prefix].
    rewrite (AND_strict_spec k Ts maxLevel lmem lg D (leafok lok Ts) noroot ltac:(lia) Hend Htot Hbits Hlast Hleaf
                 (D - l) l (snd rt) (fst g) (snd g) [] (S maxLevel)) by (auto; lia).
    unfold sokt, tx, gx. cbn [fst snd]. destruct (sok n (D - l) (fst g)); reflexivity.
  Qed.

  Lemma strict_results : forall s gl levels st,
    valid_scheduler s -> 1 <= length gl ->
    levels = map fst gl -> Forall (fun lt => fst lt <= D) gl ->
    pa_ints st = map snd (map snd gl) ->
    Forall2 (fun lt rt => task_ok (fst lt) (snd lt) rt) gl (pa_roots st) ->
    par_results_strict k Ts n maxLevel false s (length gl) levels st =
    if forallb (sokt Ts D) gl then Ok (map (tx Ts lmem lg D) gl) else UB Indeterminate.
  Proof.
    intros s gl levels st Hs H1 El HD Hi Hr. unfold par_results_strict.
    assert (L : forall m j outs, j + m = length gl ->
      for_loop m j (fun t outs =>
        let* tk := get_task false levels st t in
        let* r := run_task_strict k Ts n maxLevel false tk in Ok (outs ++ [r])) outs =
      if forallb (sokt Ts D) (skipn j gl) then Ok (outs ++ map (tx Ts lmem lg D) (skipn j gl)) else UB Indeterminate).
    { induction m as [|m IH]; intros j outs Hj; cbn [for_loop].
      - rewrite skipn_all2 by lia. cbn. rewrite app_nil_r. auto.
      - destruct (nth_error gl j) as [g|] eqn:Eg; [|apply nth_error_None in Eg; lia].
        assert (Es : skipn j gl = g :: skipn (S j) gl).
        { clear - Eg. revert j Eg. induction gl as [|a gl IH]; intros [|j] Eg; cbn in *; try congruence. apply IH; auto. }
        destruct (run_strict_spec gl levels st j g El HD Hi Hr Eg) as (tk & -> & Et). cbn [bind].
        rewrite Et, Es. cbn [forallb map]. destruct (sokt Ts D g); cbn [bind andb]; auto.
        rewrite IH by lia. destruct (forallb _ _); auto. rewrite <- app_assoc. reflexivity. }
    rewrite L by lia. cbn [skipn app]. destruct (forallb _ _); cbn [bind]; auto.
    rewrite pf_traces_diag by auto. cbn [bind].
    rewrite <- (map_length (tx Ts lmem lg D) gl). apply exec_push_own. apply Hs.
  Qed.

  Variable hc : N.
  Notation cut := (N.to_nat (N.log2 hc)).
  Hypothesis Hhc : (1 <= hc < 2 ^ 16)%N.
  Hypothesis Hdiv : cut + 2 <= maxLevel.
  Hypothesis Hcut : S cut <= D.

  Notation P := (has_prefix set run items).
  Notation tasks := (plan_tasks Ts lg D false cut (2 ^ N.log2 hc)%N (forest_of ts)).

  Theorem strict_par_cases : forall s1 s2, valid_scheduler s1 -> valid_scheduler s2 ->
    Intersect_strict_par k s1 s2 hc Ts false = UB Indeterminate /\ forallb (sokt Ts D) tasks = false \/
    (exists r, Intersect_strict_par k s1 s2 hc Ts false = Ok r) /\ forallb (sokt Ts D) tasks = true.
  Proof.
    intros s1 s2 V1 V2.
    assert (Hs := inst_somes lok D maxLevel Ts ts HR).
    assert (HX := inst_okf lok D maxLevel Ts ts HR noroot ltac:(lia)).
    assert (Hh := inst_heights lok D maxLevel Ts ts HR).
    destruct (hc_threads hc ltac:(lia) ltac:(lia)) as (H15 & H3 & _).
    unfold Intersect_strict_par. destruct (same_heights Ts maxLevel ltac:(lia) Hh) as (T0 & -> & E1 & E2).
      cbn [bind]. rewrite E1, E2. cbn [negb].
      replace (N.eqb hc 0) with false by (symmetry; apply N.eqb_neq; lia).
      replace ((maxLevel <? 2) || (cut <=? maxLevel - 2))%bool with true
        by (symmetry; apply orb_true_iff; right; apply Nat.leb_le; lia).
      rewrite n_tries_16 by lia.
      destruct (par_plan_spec k Ts maxLevel lmem lg D (leafok lok Ts) noroot ltac:(lia) ltac:(lia) Htot Hbits Hlast false false cut
                (2 ^ N.log2 hc)%N (nT_pow hc) H15 ltac:(lia) (or_introl Hcut) (forest_of ts) HX Hs ltac:(discriminate))
        as [(r & m & -> & (_ & _ & _ & _ & _ & P6 & _))|(used & levels & st & -> & W)]; cbn [bind].
      - right. rewrite P6. eauto.
      - destruct W as (gl & Z & leaked & W1 & W2 & W3 & W4 & W5 & W6 & W7 & W8 & W9 & W10 & W11 & W12 & WL & W13 & W14 & W15 & W16).
        rewrite <- W15. rewrite W1 in W2 |- *.
        rewrite (strict_results s1 gl levels st V1 W2 W4 W5 W6 W7).
        destruct (forallb (sokt Ts D) gl); [right|left]; cbn [bind]; auto. split; auto.
        rewrite (par_concat_spec s2 (length gl) (pa_r st) (map (tx Ts lmem lg D) gl)); auto; [|rewrite map_length; auto].
        cbn [bind].
        assert (Nd : NoDup ((map fst (pa_roots st) ++ map fst (pa_active st)) ++ leaked)).
        { apply (Permutation_NoDup (l := seq 0 (m_next (pa_mem st)))); [symmetry; auto|apply seq_NoDup]. }
        destruct (free_loop_spec false st (length gl)) as (fr & -> & Pf); auto.
        { eapply Forall2_length; eauto. }
        { apply NoDup_app_remove_r in Nd. auto. }
        cbn [bind]. eauto.
  Qed.

  Theorem strict_par : forall s1 s2, valid_scheduler s1 -> valid_scheduler s2 ->
    (flags_set P lg (D + lg - cut) -> exists r, Intersect_strict_par k s1 s2 hc Ts false = Ok r) /\
    (~ flags_set P lg (D + lg - S cut) -> Intersect_strict_par k s1 s2 hc Ts false = UB Indeterminate) /\
    ((hc <= 3)%N -> ~ flags_set P lg (D + lg - cut) -> Intersect_strict_par k s1 s2 hc Ts false = UB Indeterminate).
  Proof.
    intros s1 s2 V1 V2.
    assert (Ln : length Ts = length ts) by (apply (Forall2_length HR)).
    assert (Hne : ts <> []) by (intros ->; cbn in Ln; lia).
    destruct (hc_threads hc ltac:(lia) ltac:(lia)) as (H15 & H3 & _).
    assert (HW := items_wfs lmem lg D ts set run items HI).
    destruct (tasks_sok Ts lg D cut (2 ^ N.log2 hc)%N Hcut (forest_of ts)) as (T1 & T2 & T3).
    { unfold good. rewrite Ln. exact HW. }
    assert (E := strict_par_cases s1 s2 V1 V2).
    rewrite Ln in T1, T2, T3.
    rewrite (from_prefixes lg D (length ts) (forest_of ts) P HW (items_bound lmem lg D ts set run items Hne HI)
      (items_reach lmem lg D ts set run items HI)) in T1, T2, T3 by lia.
    destruct E as [(E & F)|(E & F)]; rewrite F in T1, T2, T3; split; [|split| |split].
    - intros Hf. specialize (T1 Hf). discriminate.
    - auto.
    - auto.
    - auto.
    - intros Hf. destruct Hf. auto.
    - intros H0 Hf. destruct Hf. apply T3; auto. apply H3; auto.
  Qed.
End ParTop.

(** * Tries built from sets *)

Theorem bin_strict_par_any : forall u (l : list bitem) hc s1 s2,
  (2 <= u <= 2 ^ 48)%N -> 1 <= length l <= 16 -> Forall (bitem_ok u) l ->
  (1 <= hc < 2 ^ 16)%N ->
  N.to_nat (N.log2 hc) + 2 <= digits u -> valid_scheduler s1 -> valid_scheduler s2 ->
  exists Ts, each_ok (make_bitem u) l = Ok Ts /\
    (flags_set (bin_prefixes l) 0 (digits u - N.to_nat (N.log2 hc)) ->
       exists r, Intersect_strict_par Bin s1 s2 hc (map bin_ops Ts) false = Ok r /\ common_where (map b_part l) (fun v => ~ Exists (run_around 4 v) (map b_part l)) r) /\
    (~ flags_set (bin_prefixes l) 0 (digits u - S (N.to_nat (N.log2 hc))) ->
       Intersect_strict_par Bin s1 s2 hc (map bin_ops Ts) false = UB Indeterminate) /\
    ((hc <= 3)%N -> ~ flags_set (bin_prefixes l) 0 (digits u - N.to_nat (N.log2 hc)) ->
       Intersect_strict_par Bin s1 s2 hc (map bin_ops Ts) false = UB Indeterminate).
Proof.
  intros u l hc s1 s2 Hu Hn Hl Hhc Hdiv V1 V2.
  destruct (bin_wrong_flag u l Hu Hn Hl) as (Ts0 & r & E0 & Hint & _ & Er).
  assert (U3 : (3 <= u)%N).
  { destruct (N.eq_dec u 2) as [->|]; [change (digits 2) with 1 in Hdiv; lia|lia]. }
  destruct (height_of_spec u Hu) as (h & Hh & H1 & Hp & H2 & _).
  destruct (each_ok_spec _ _ (make_bitem u) (fun x t => exists T, T = bin_tree h (snd (fst x)) (snd x) /\
    repr lok_bin h h (bin_ops t) T /\ sel umem (h + 0) T 0 = snd x) l) as (Ts & E & HT).
  { eapply Forall_impl; [|exact Hl]. intros [[v e] s] Hx.
    destruct (bin_make_tree u h v e s Hh Hu H1 Hp H2 Hx) as (t & ? & ? & ?). exists t. split; eauto. }
  assert (Ts0 = Ts) by congruence. subst Ts0.
  apply Forall2_split in HT. destruct HT as (ts & HA & HB).
  assert (HR : Forall2 (repr lok_bin h h) (map bin_ops Ts) ts).
  { apply Forall2_map_l. eapply Forall2_impl; [|exact HA]. cbn. intros t T (x & _ & _ & ? & _). auto. }
  assert (HI : Forall2 (holds umem 0 h snd bin_run) ts l).
  { eapply Forall2_impl; [|exact HB]. cbn. intros T x (t & -> & (_ & W & _) & Es). apply bin_holds; try lia; try exact W; exact Es. }
  assert (Ln : length (map bin_ops Ts) = length l).
  { rewrite (Forall2_length HR), (Forall2_length HI). auto. }
  assert (Ed := height_digits u h ltac:(lia) Hh). rewrite <- Ed in Hdiv.
  destruct (strict_par lok_bin umem 0 h h Bin (map bin_ops Ts) ts snd bin_run l true HR HI ltac:(lia)
    (bin_end h) (bin_tot h) ltac:(lia) ltac:(lia) (bin_last h) (bin_leaf h (map bin_ops Ts)) hc Hhc
    ltac:(lia) ltac:(lia) s1 s2 V1 V2) as (Q1 & Q2 & Q3).
  rewrite Nat.add_0_r in *. rewrite <- Ed.
  change (has_prefix snd bin_run l) with (bin_prefixes l) in Q1, Q2, Q3.
  exists Ts. split; auto. split; auto. intros F.
  destruct (Q1 F) as (r' & Er'). exists r'. split; auto.
  apply strict_par_agrees in Er'.
  rewrite Er in Er' by auto. injection Er' as <-. auto.
Qed.

Theorem fast_strict_par_any : forall u lw (l : list fitem) hc s1 s2,
  fast_universe u lw -> 1 <= length l <= 16 -> Forall (fitem_ok u) l ->
  (1 <= hc < 2 ^ 16)%N ->
  N.to_nat (N.log2 hc) + 1 + lw <= digits u -> valid_scheduler s1 -> valid_scheduler s2 ->
  exists Ts, each_ok (make_fitem u lw) l = Ok Ts /\
    (flags_set (fast_prefixes l) lw (digits u - N.to_nat (N.log2 hc)) ->
       exists r, Intersect_strict_par (Fast lw) s1 s2 hc (map fast_ops Ts) false = Ok r /\ common_where (map f_part l) (fun v => ~ Exists (run_around (2 * 2 ^ N.of_nat lw) v) (map f_part l)) r) /\
    (~ flags_set (fast_prefixes l) lw (digits u - S (N.to_nat (N.log2 hc))) ->
       Intersect_strict_par (Fast lw) s1 s2 hc (map fast_ops Ts) false = UB Indeterminate) /\
    ((hc <= 3)%N -> ~ flags_set (fast_prefixes l) lw (digits u - N.to_nat (N.log2 hc)) ->
       Intersect_strict_par (Fast lw) s1 s2 hc (map fast_ops Ts) false = UB Indeterminate).
Proof.
  intros u lw l hc s1 s2 Hul Hn Hl Hhc Hdiv V1 V2.
  destruct (fast_wrong_flag u lw l Hul Hn Hl) as (Ts0 & r & E0 & Hint & _ & Er).
  assert (U3 : (2 ^ N.of_nat lw < u)%N).
  { apply N.log2_up_lt_cancel. rewrite N.log2_up_pow2 by lia. unfold digits in Hdiv. lia. }
  destruct Hul as (Hlw & Hu).
  assert (H8 : (2 ^ N.of_nat 3 <= 2 ^ N.of_nat lw)%N).
  { apply N.pow_le_mono_r; [lia|]. cbn in Hlw. lia. }
  change (2 ^ N.of_nat 3)%N with 8%N in H8.
  destruct (height_of_spec u ltac:(lia)) as (h & Hh & H1 & Hp & H2 & Hk).
  assert (Hlh : lw <= h).
  { destruct lw as [|lw]; [lia|]. change (2 ^ N.of_nat (S lw))%N with (pow2 (S lw)) in Hu.
    rewrite pow2_S in Hu. assert (lw < h) by (apply Hk; lia). lia. }
  assert (H6 : lw <= 6) by (cbn in Hlw; lia).
  assert (Eh : h - lw + lw = h) by lia. set (d := h - lw) in *.
  destruct (each_ok_spec _ _ (make_fitem u lw) (fun x t => exists T, T = fast_tree lw d (f_enc x) (snd x) /\
    repr lok_fast d (S d) (fast_ops t) T /\ sel (wmem lw) (d + lw) T 0 = snd x /\ snd x <> []) l) as (Ts & E & HT).
  { eapply Forall_impl; [|exact Hl]. intros [[[jh je] e] s] Hx.
    destruct (fast_make_tree u h lw jh je e s Hh H6 Hlh ltac:(lia) Hp Hx) as (t & ? & ? & ?). exists t. split; auto.
    destruct Hx as (Hne & _). eauto 6. }
  assert (Ts0 = Ts) by congruence. subst Ts0.
  apply Forall2_split in HT. destruct HT as (ts & HA & HB).
  assert (HR : Forall2 (repr lok_fast d (S d)) (map fast_ops Ts) ts).
  { apply Forall2_map_l. eapply Forall2_impl; [|exact HA]. cbn. intros t T (x & _ & _ & ? & _). auto. }
  assert (HI : Forall2 (holds (wmem lw) lw d snd fast_run) ts l).
  { eapply Forall2_impl; [|exact HB]. cbn. intros T x (t & -> & (_ & W & _) & Es & Hne). apply fast_holds; [exact Hne|exact W|exact Es]. }
  assert (Ln : length (map fast_ops Ts) = length l).
  { rewrite (Forall2_length HR), (Forall2_length HI). auto. }
  assert (Ed := height_digits u h ltac:(lia) Hh). rewrite <- Ed in Hdiv.
  destruct (strict_par lok_fast (wmem lw) lw d (S d) (Fast lw) (map fast_ops Ts) ts snd fast_run l false HR HI ltac:(lia)
    (fast_end lw d) (fast_tot lw d) ltac:(lia) ltac:(lia) (fast_last d) (fast_leaf lw d H6 (map fast_ops Ts)) hc Hhc
    ltac:(lia) ltac:(lia) s1 s2 V1 V2) as (Q1 & Q2 & Q3).
  rewrite Eh in Q1, Q2, Q3. rewrite <- Ed.
  change (has_prefix snd fast_run l) with (fast_prefixes l) in Q1, Q2, Q3.
  exists Ts. split; auto. split; auto. intros F.
  destruct (Q1 F) as (r' & Er'). exists r'. split; auto.
  apply strict_par_agrees in Er'.
  rewrite Er in Er' by auto. injection Er' as <-. auto.
Qed.

Theorem bin_strict_par : forall u (l : list bitem) hc s1 s2,
  (2 <= u <= 2 ^ 48)%N -> 1 <= length l <= 16 -> Forall (bitem_ok u) l ->
  Forall (fun x : bitem => snd (fst x) = false) l -> (1 <= hc < 2 ^ 16)%N ->
  N.to_nat (N.log2 hc) + 2 <= digits u -> valid_scheduler s1 -> valid_scheduler s2 ->
  exists Ts, each_ok (make_bitem u) l = Ok Ts /\
    (flags_set (common_prefix (map snd l)) 0 (digits u - N.to_nat (N.log2 hc)) ->
       exists r, Intersect_strict_par Bin s1 s2 hc (map bin_ops Ts) false = Ok r /\ is_intersection (map snd l) r) /\
    (~ flags_set (common_prefix (map snd l)) 0 (digits u - S (N.to_nat (N.log2 hc))) ->
       Intersect_strict_par Bin s1 s2 hc (map bin_ops Ts) false = UB Indeterminate) /\
    ((hc <= 3)%N -> ~ flags_set (common_prefix (map snd l)) 0 (digits u - N.to_nat (N.log2 hc)) ->
       Intersect_strict_par Bin s1 s2 hc (map bin_ops Ts) false = UB Indeterminate).
Proof.
  intros u l hc s1 s2 Hu Hn Hl Hr Hhc Hdiv V1 V2.
  destruct (bin_strict_par_any u l hc s1 s2 Hu Hn Hl Hhc Hdiv V1 V2) as (Ts & E & Q).
  rewrite !(flags_set_ext _ _ _ _ (bin_prefixes_plain l Hr)) in Q. exists Ts. split; auto. destruct Q as (Q1 & Q2). split; auto.
  intros F. destruct (Q1 F) as (r & Er & Hc). exists r. split; auto. rewrite <- map_parts_b.
  eapply common_plain; [|exact Hc]. rewrite Forall_map. exact Hr.
Qed.

Theorem fast_strict_par : forall u lw (l : list fitem) hc s1 s2,
  fast_universe u lw -> 1 <= length l <= 16 -> Forall (fitem_ok u) l ->
  Forall (fun x => f_enc x = false) l -> (1 <= hc < 2 ^ 16)%N ->
  N.to_nat (N.log2 hc) + 1 + lw <= digits u -> valid_scheduler s1 -> valid_scheduler s2 ->
  exists Ts, each_ok (make_fitem u lw) l = Ok Ts /\
    (flags_set (common_prefix (map snd l)) lw (digits u - N.to_nat (N.log2 hc)) ->
       exists r, Intersect_strict_par (Fast lw) s1 s2 hc (map fast_ops Ts) false = Ok r /\ is_intersection (map snd l) r) /\
    (~ flags_set (common_prefix (map snd l)) lw (digits u - S (N.to_nat (N.log2 hc))) ->
       Intersect_strict_par (Fast lw) s1 s2 hc (map fast_ops Ts) false = UB Indeterminate) /\
    ((hc <= 3)%N -> ~ flags_set (common_prefix (map snd l)) lw (digits u - N.to_nat (N.log2 hc)) ->
       Intersect_strict_par (Fast lw) s1 s2 hc (map fast_ops Ts) false = UB Indeterminate).
Proof.
  intros u lw l hc s1 s2 Hul Hn Hl Hr Hhc Hdiv V1 V2.
  destruct (fast_strict_par_any u lw l hc s1 s2 Hul Hn Hl Hhc Hdiv V1 V2) as (Ts & E & Q).
  rewrite !(flags_set_ext _ _ _ _ (fast_prefixes_plain l Hr)) in Q. exists Ts. split; auto. destruct Q as (Q1 & Q2). split; auto.
  intros F. destruct (Q1 F) as (r & Er & Hc). exists r. split; auto. rewrite <- map_parts_f.
  eapply common_plain; [|exact Hc]. rewrite Forall_map. exact Hr.
Qed.

Theorem bin_odd_par : forall u (l : list bitem) hc s1 s2 x,
  (2 <= u <= 2 ^ 48)%N -> 1 <= length l <= 16 -> Forall (bitem_ok u) l ->
  Forall (fun x : bitem => snd (fst x) = false) l -> (1 <= hc < 2 ^ 16)%N ->
  N.to_nat (N.log2 hc) + 2 <= digits u -> valid_scheduler s1 -> valid_scheduler s2 ->
  Forall (fun s => In x s) (map snd l) -> N.odd x = true -> ~ Forall (fun s => In (x - 1)%N s) (map snd l) ->
  exists Ts, each_ok (make_bitem u) l = Ok Ts /\ Intersect_strict_par Bin s1 s2 hc (map bin_ops Ts) false = UB Indeterminate.
Proof.
  intros u l hc s1 s2 x Hu Hn Hl Hr Hhc Hdiv V1 V2 Hx Ho He.
  destruct (bin_strict_par u l hc s1 s2 Hu Hn Hl Hr Hhc Hdiv V1 V2) as (Ts & E & _ & H & _). exists Ts. split; auto. apply H.
  apply (odd_unset _ 0 _ x); auto; change (2 ^ N.of_nat 0)%N with 1%N; rewrite ?N.div_1_r; auto; [lia|].
  apply neg_Forall_Exists_neg in He; [|intros s; destruct (in_dec N.eq_dec (x - 1)%N s); auto].
  eapply Exists_impl; [|exact He]. cbn. intros s Hs y Hy. rewrite N.div_1_r. intros Ey. apply Hs.
  replace (x - 1)%N with y by lia. auto.
Qed.

Theorem fast_odd_par : forall u lw (l : list fitem) hc s1 s2 x,
  fast_universe u lw -> 1 <= length l <= 16 -> Forall (fitem_ok u) l ->
  Forall (fun x => f_enc x = false) l -> (1 <= hc < 2 ^ 16)%N ->
  N.to_nat (N.log2 hc) + 2 + lw <= digits u -> valid_scheduler s1 -> valid_scheduler s2 ->
  Forall (fun s => In x s) (map snd l) -> N.odd (x / 2 ^ N.of_nat lw) = true ->
  Exists (fun s => forall y, In y s -> (y / 2 ^ N.of_nat lw + 1 <> x / 2 ^ N.of_nat lw)%N) (map snd l) ->
  exists Ts, each_ok (make_fitem u lw) l = Ok Ts /\ Intersect_strict_par (Fast lw) s1 s2 hc (map fast_ops Ts) false = UB Indeterminate.
Proof.
  intros u lw l hc s1 s2 x Hul Hn Hl Hr Hhc Hdiv V1 V2 Hx Ho He.
  destruct (fast_strict_par u lw l hc s1 s2 Hul Hn Hl Hr Hhc ltac:(lia) V1 V2) as (Ts & E & _ & H & _). exists Ts. split; auto. apply H.
  apply (odd_unset _ lw _ x); auto. lia.
Qed.
