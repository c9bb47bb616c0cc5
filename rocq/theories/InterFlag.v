(** Run-encoded tries intersected by AND, that is with runs=false: a run is taken for a
    node without children. *)

From Verif Require Import Base FlatTrie LevelTrie FastTrie ParallelFor Intersection Tries Calls Facts Tree
  Groups Reps Layout BuildFlat BuildLevel BuildFast WordBits Spec RoundTrip RoundTripFacts Compress
  WriteOnes CompressFast RunsFacts RunsThms SpecTries SpecMeasures SpecCalls NodeCount
  InterSpec InterSeq ParFacts InterPar InterPlan InterTop InterInst InterTight InterMain InterThms LayoutThms CallsThms
  CallsMain SpecLost.

Section Flag.
  Context {A : Type}.
  Variable lmem : A -> N -> bool.

  (** Membership when runs are empty. *)
  Fixpoint memx (k : nat) (t : tree A) (x : N) : bool :=
    match t with
    | Leaf a => lmem a x
    | Full => false
    | TL l => if N.testbit x (N.of_nat (pred k)) then false else memx (pred k) l x
    | TR r => if N.testbit x (N.of_nat (pred k)) then memx (pred k) r x else false
    | TB l r => if N.testbit x (N.of_nat (pred k)) then memx (pred k) r x else memx (pred k) l x
    end.

  Lemma memx_runat : forall lg t d x, wf d t ->
    memx (d + lg) t x = (mem lmem (d + lg) t x && negb (runat lg (pred d) d t x))%bool.
  Proof.
    intros lg. induction t as [a| |t IH|t IH|l IHl r IHr]; intros d x W; cbn [wf] in W.
    - subst d. cbn [memx mem runat pred]. rewrite andb_true_r. auto.
    - cbn [memx mem]. destruct (pred d); reflexivity.
    - destruct W as (H0 & W). destruct d as [|d]; [lia|]. cbn [pred Nat.add] in *.
      cbn [memx mem runat pred]. destruct (N.testbit x (N.of_nat (d + lg))) eqn:B; auto.
      destruct d as [|d].
      + apply wf_leaf in W. destruct W as (a & ->). cbn [runat negb memx mem]. rewrite andb_true_r. auto.
      + cbn [runat pred]. rewrite B. apply (IH (S d)); auto.
    - destruct W as (H0 & W). destruct d as [|d]; [lia|]. cbn [pred Nat.add] in *.
      cbn [memx mem runat pred]. destruct (N.testbit x (N.of_nat (d + lg))) eqn:B; auto.
      destruct d as [|d].
      + apply wf_leaf in W. destruct W as (a & ->). cbn [runat negb memx mem]. rewrite andb_true_r. auto.
      + cbn [runat pred]. rewrite B. apply (IH (S d)); auto.
    - destruct W as (H0 & W1 & W2). destruct d as [|d]; [lia|]. cbn [pred Nat.add] in *.
      cbn [memx mem runat pred]. destruct (N.testbit x (N.of_nat (d + lg))) eqn:B.
      + destruct d as [|d].
        * apply wf_leaf in W2. destruct W2 as (a & ->). cbn [runat negb memx mem]. rewrite andb_true_r. auto.
        * cbn [runat pred]. rewrite B. apply (IHr (S d)); auto.
      + destruct d as [|d].
        * apply wf_leaf in W1. destruct W1 as (a & ->). cbn [runat negb memx mem]. rewrite andb_true_r. auto.
        * cbn [runat pred]. rewrite B. apply (IHl (S d)); auto.
  Qed.

  Variable lg n : nat.

  Definition fmemx (k : nat) (X : forest) (x : N) : bool :=
    forallb (fun i => match X i with Some t => memx k t x | None => true end) (seq 0 n).

  Definition interx (d : nat) (X : forest) (p : N) : list N :=
    filter (fmemx (d + lg) X) (nrange p (2 ^ (d + lg))).

  Lemma interx_0 : forall X p, (forall i t, i < n -> X i = Some t -> wf 0 t) ->
    inter lmem lg n 0 X p = interx 0 X p.
  Proof.
    intros X p H. apply filter_ext_in'. intros x _. apply forallb_seq_ext. intros i Hi.
    destruct (X i) as [t|] eqn:E; auto. specialize (H i t Hi E). apply wf_leaf in H.
    destruct H as (a & ->). reflexivity.
  Qed.

  Lemma interx_step : forall d X p, aligned (S d + lg) p ->
    (forall i t, i < n -> X i = Some t -> wf (S d) t) ->
    interx (S d) X p =
    (if all_left n X then interx d (InterSpec.lefts X) p else [])
    ++ (if all_right n X then interx d (InterSpec.rights X) (p + pow2 (d + lg)) else []).
  Proof.
    intros d X p Ha Hw. unfold interx. cbn [Nat.add] in *. rewrite nrange_halves, filter_app.
    f_equal.
    - destruct (all_left n X) eqn:E.
      + unfold all_left in E. rewrite forallb_seq in E.
        apply filter_ext_in'. intros x Hx. apply forallb_seq_ext. intros i Hi.
        specialize (E i Hi). unfold InterSpec.lefts. destruct (X i) as [t|] eqn:EX; auto.
        assert (B := left_bit _ _ _ Ha Hx).
        destruct t; try discriminate; cbn [memx pred]; rewrite B; auto.
      + unfold all_left in E. apply forallb_seq_false in E. destruct E as (i & Hi & E).
        apply filter_none. intros x Hx. apply forallb_seq_false. exists i. split; auto.
        destruct (X i) as [t|] eqn:EX; [|discriminate].
        assert (B := left_bit _ _ _ Ha Hx). assert (W := Hw i t Hi EX).
        destruct t; try discriminate; cbn [memx pred]; rewrite ?B; auto; cbn in W; discriminate.
    - destruct (all_right n X) eqn:E.
      + unfold all_right in E. rewrite forallb_seq in E.
        apply filter_ext_in'. intros x Hx. apply forallb_seq_ext. intros i Hi.
        specialize (E i Hi). unfold InterSpec.rights. destruct (X i) as [t|] eqn:EX; auto.
        assert (B := right_bit lmem _ _ _ Ha Hx).
        destruct t; try discriminate; cbn [memx pred]; rewrite B; auto.
      + unfold all_right in E. apply forallb_seq_false in E. destruct E as (i & Hi & E).
        apply filter_none. intros x Hx. apply forallb_seq_false. exists i. split; auto.
        destruct (X i) as [t|] eqn:EX; [|discriminate].
        assert (B := right_bit lmem _ _ _ Ha Hx). assert (W := Hw i t Hi EX).
        destruct t; try discriminate; cbn [memx pred]; rewrite ?B; auto; cbn in W; discriminate.
  Qed.
End Flag.

Section Seq.
  Context {A : Type}.
  Variable k : kind.
  Variable Ts : list trie_ops.
  Variable maxLevel : nat.
  Variable lmem : A -> N -> bool.
  Variable lg D : nat.
  Variable leafok : nat -> nat -> A -> Prop.
  Variable noroot : bool.
  Notation n := (length Ts).
  Notation okf := (okf Ts leafok noroot).
  Hypothesis Hn : n <= 16.
  Hypothesis Hn1 : 1 <= n.
  Hypothesis Hend : forall lvl, lvl <= D -> at_end k maxLevel lvl = (lvl =? D).
  Hypothesis Htot : total_bits k maxLevel = D + lg.
  Hypothesis Hbits : D + lg < 64.
  Hypothesis HD : D <= S maxLevel.
  Hypothesis Hlast : forall lvl, lvl < D -> S lvl = maxLevel -> noroot = true /\ S lvl = D.
  Hypothesis Hleaf : forall active roots X p r,
    (forall i, i < n -> active i = Ok (is_some (X i))) -> okf 0 D roots X -> aligned lg p ->
    and_leaf k Ts n active roots p r = Ok (r ++ inter lmem lg n 0 X p).

  Notation interx := (interx lmem lg n).

  Lemma somes_act : forall X : forest (A := A), somes Ts X -> forall i, i < n -> all_active i = Ok (is_some (X i)).
  Proof. clear. intros X H i Hi. specialize (H i Hi). destruct (X i); auto. congruence. Qed.

  Lemma somes_left : forall X : forest (A := A), somes Ts X -> all_left n X = true -> somes Ts (InterSpec.lefts X).
  Proof.
    clear. intros X H HL i Hi. assert (L := all_left_has Ts X HL i). specialize (H i Hi).
    unfold InterSpec.lefts. destruct (X i) as [t|]; [|congruence]. specialize (L t Hi eq_refl).
    destruct t; discriminate.
  Qed.

  Lemma somes_right : forall X : forest (A := A), somes Ts X -> all_right n X = true -> somes Ts (InterSpec.rights X).
  Proof.
    clear. intros X H HL i Hi. assert (L := all_right_has Ts X HL i). specialize (H i Hi).
    unfold InterSpec.rights. destruct (X i) as [t|]; [|congruence]. specialize (L t Hi eq_refl).
    destruct t; discriminate.
  Qed.

  Theorem AND_runs : forall d lvl roots X p r fuel,
    lvl + d = D -> okf d lvl roots X -> somes Ts X -> aligned (d + lg) p -> d <= fuel ->
    exists fl, AND k Ts n maxLevel fuel lvl roots p r = Ok (r ++ interx d X p, fl).
  Proof.
    induction d; intros lvl roots X p r fuel HDl HX HS Ha Hf.
    - replace lvl with D in * by lia. exists (Some true).
      rewrite <- interx_0 by (intros i t Hi E; apply (HX i t Hi E)).
      destruct fuel; cbn [AND]; rewrite Hend, Nat.eqb_refl by lia;
      rewrite (Hleaf all_active roots X) by (auto using somes_act); reflexivity.
    - destruct fuel as [|fuel]; [lia|]. cbn [AND]. rewrite Hend by lia.
      replace (lvl =? D) with false by (symmetry; apply Nat.eqb_neq; lia).
      rewrite (AND_scan Ts leafok noroot d lvl roots X) by auto. cbn [bind].
      rewrite interx_step; auto.
      2:{ intros i t Hi E. apply (HX i t Hi E). }
      rewrite code_0, code_1, code_2.
      destruct (all_left n X) eqn:EL, (all_right n X) eqn:ER; cbn [negb andb].
      + rewrite (right_prefix_spec k maxLevel lmem lg D leafok Htot Hbits lvl d) by auto. cbn [bind].
        destruct (both_children_spec Ts maxLevel D leafok noroot Hn Hlast d lvl roots X all_active) as (ln & rn & -> & HL & HR);
          eauto using somes_act, all_left_has, all_right_has. cbn [bind].
        destruct (IHd (S lvl) ln (InterSpec.lefts X) p r fuel) as (f1 & ->);
          auto using somes_left, aligned_S; try lia. cbn [bind].
        destruct (IHd (S lvl) rn (InterSpec.rights X) (p + pow2 (d + lg))%N (r ++ interx d (InterSpec.lefts X) p) fuel)
          as (f2 & ->); auto using somes_right, aligned_right; try lia. cbn [bind].
        rewrite app_assoc. eauto.
      + destruct (left_children_spec Ts maxLevel D leafok noroot Hn Hlast d lvl roots X all_active) as (ln & -> & HL);
          eauto using somes_act, all_left_has. cbn [bind].
        destruct (IHd (S lvl) ln (InterSpec.lefts X) p r fuel) as (f1 & ->);
          auto using somes_left, aligned_S; try lia. cbn [bind].
        rewrite app_nil_r. eauto.
      + rewrite (right_prefix_spec k maxLevel lmem lg D leafok Htot Hbits lvl d) by auto. cbn [bind].
        destruct (right_children_spec Ts maxLevel D leafok noroot Hn Hlast d lvl roots X all_active) as (rn & -> & HR);
          eauto using somes_act, all_right_has. cbn [bind].
        destruct (IHd (S lvl) rn (InterSpec.rights X) (p + pow2 (d + lg))%N r fuel)
          as (f2 & ->); auto using somes_right, aligned_right; try lia. cbn [bind app].
        eauto.
      + rewrite app_nil_r. eauto.
  Qed.

  Variable X : forest (A := A).
  Hypothesis HX : okf D 0 init_roots X.
  Hypothesis Hs : somes Ts X.
  Hypothesis Hheights : forall T, In T Ts -> t_height T = maxLevel.

  Theorem seq_no_runs : forall s1 s2 hc parallel, (1 <= hc)%N -> par_branch maxLevel hc parallel = false ->
    Intersect_mem k s1 s2 hc Ts false parallel = Ok (interx D X 0%N, mkMem 0 []).
  Proof.
    intros s1 s2 hc parallel Hhc Hb. unfold Intersect_mem.
    destruct (same_heights Ts maxLevel Hn1 Hheights) as (T0 & -> & E1 & E2).
    cbn [bind]. rewrite E1, E2. cbn [negb].
    replace (N.eqb hc 0) with false by (symmetry; apply N.eqb_neq; lia).
    unfold par_branch in Hb. rewrite Hb.
    destruct (AND_runs D 0 init_roots X 0%N [] (S maxLevel)) as (fl & ->); auto using aligned_0; lia.
  Qed.

  (** * The parallel branch *)

  Notation walk := (walk Ts lg false (A := A)).
  Notation task_ok := (task_ok Ts lg D leafok noroot false false).

  Definition gx (lvl : nat) (g : ghost A) : list N := interx (D - lvl) (fst g) (snd g).
  Definition tx (lt : nat * ghost A) : list N := gx (fst lt) (snd lt).

  Lemma wfs_left : forall d X, wfs n (S d) X -> wfs n d (InterSpec.lefts (A := A) X).
  Proof.
    clear. intros d X H i t Hi E. unfold InterSpec.lefts in E. destruct (X i) as [y|] eqn:EY; [|discriminate].
    specialize (H i y Hi EY). destruct y; inversion E; subst; cbn in H; tauto.
  Qed.

  Lemma wfs_right : forall d X, wfs n (S d) X -> wfs n d (InterSpec.rights (A := A) X).
  Proof.
    clear. intros d X H i t Hi E. unfold InterSpec.rights in E. destruct (X i) as [y|] eqn:EY; [|discriminate].
    specialize (H i y Hi EY). destruct y; inversion E; subst; cbn in H; tauto.
  Qed.

  Lemma walk_tasks : forall c d X p, aligned (d + lg) p -> wfs n d X ->
    fst (walk c d X p) = [] /\
    concat (map (fun g => interx (d - c) (fst g) (snd g)) (snd (walk c d X p))) = interx d X p /\
    Forall (fun g => aligned (d - c + lg) (snd g) /\ wfs n (d - c) (fst g)) (snd (walk c d X p)).
  Proof.
    clear. induction c; intros d X p Ha W.
    - assert (E : walk 0 d X p = ([], [(X, p)])) by (destruct d; reflexivity). rewrite E.
      cbn [fst snd map concat]. rewrite Nat.sub_0_r, app_nil_r. split; auto.
    - destruct d as [|d]; [cbn; rewrite app_nil_r; auto|].
      cbn [InterPar.walk andb]. rewrite interx_step by auto.
      change (S d - S c) with (d - c).
      assert (HL : forall b : bool, (b = true -> True) ->
        let w := if b then walk c d (InterSpec.lefts X) p else ([], []) in
        fst w = [] /\ concat (map (fun g => interx (d - c) (fst g) (snd g)) (snd w)) = (if b then interx d (InterSpec.lefts X) p else []) /\
        Forall (fun g => aligned (d - c + lg) (snd g) /\ wfs n (d - c) (fst g)) (snd w)).
      { intros [] _; cbv zeta; [|cbn; auto]. apply IHc; [apply aligned_S; auto|apply wfs_left; auto]. }
      assert (HR : forall b : bool, (b = true -> True) ->
        let w := if b then walk c d (InterSpec.rights X) (p + pow2 (d + lg))%N else ([], []) in
        fst w = [] /\ concat (map (fun g => interx (d - c) (fst g) (snd g)) (snd w))
          = (if b then interx d (InterSpec.rights X) (p + pow2 (d + lg))%N else []) /\
        Forall (fun g => aligned (d - c + lg) (snd g) /\ wfs n (d - c) (fst g)) (snd w)).
      { intros [] _; cbv zeta; [|cbn; auto]. apply IHc; [apply aligned_right; auto|apply wfs_right; auto]. }
      destruct (HL (all_left n X) (fun _ => I)) as (L1 & L2 & L3).
      destruct (HR (all_right n X) (fun _ => I)) as (R1 & R2 & R3).
      cbn [fst snd]. rewrite L1, R1, map_app, concat_app, L2, R2. split; auto. split; auto.
      apply Forall_app. auto.
  Qed.

  Lemma expand_tasks : forall cut nT tl made,
    Forall (fun g : ghost A => aligned (D - cut + lg) (snd g) /\ wfs n (D - cut) (fst g)) tl ->
    let e := expand Ts lg D false cut nT tl made in
    fst (fst e) = [] /\
    concat (map (gx (S cut)) (snd (fst e))) ++ concat (map (gx cut) (snd e)) = concat (map (gx cut) tl).
  Proof.
    clear. intros cut nT. induction tl as [|g tl IH]; intros made F; cbv zeta; [cbn; auto|].
    apply Forall_cons_iff in F. destruct F as ((Ha & W) & F). cbn [expand].
    destruct (N.ltb 1 (nT - N.of_nat (length (g :: tl) + made))); [|cbn [fst snd map concat app]; auto].
    destruct (walk_tasks 1 (D - cut) (fst g) (snd g) Ha W) as (E1 & E2 & _).
    destruct (IH (made + length (snd (walk 1 (D - cut) (fst g) (snd g)))) F) as (E3 & E4).
    cbn [fst snd]. rewrite E1, E3. split; auto. cbn [map concat]. rewrite map_app, concat_app, <- app_assoc, E4.
    f_equal. unfold gx at 2. rewrite <- E2. f_equal. apply map_ext. intros g'. unfold gx.
    replace (D - S cut) with (D - cut - 1) by lia. auto.
  Qed.

  Lemma run_task_runs : forall gl levels st t g,
    levels = map fst gl -> Forall (fun lt => fst lt <= D) gl ->
    pa_ints st = map snd (map snd gl) ->
    Forall2 (fun lt rt => task_ok (fst lt) (snd lt) rt) gl (pa_roots st) ->
    nth_error gl t = Some g ->
    exists tk, get_task false levels st t = Ok tk /\ run_task k Ts n maxLevel false tk = Ok (tx g).
  Proof.
    intros gl levels st t [l g] -> HDl Hi Hr Hg. unfold get_task.
    rewrite (vget_nth _ _ _ l) by (apply (map_nth_error fst _ _ Hg)). cbn [bind].
    destruct (Forall2_nth _ _ _ _ _ _ _ Hr Hg) as (rt & Er & (K1 & K2 & K3 & K4 & K5)).
    cbn [fst snd] in *.
    rewrite (vget_nth _ _ _ rt Er). cbn [bind].
    assert (Hl : l <= D).
    { rewrite Forall_forall in HDl. apply nth_error_In in Hg. apply (HDl _ Hg). }
    rewrite Hi. rewrite (vget_nth _ _ _ (snd g)) by (apply map_nth_error; apply (map_nth_error snd _ _ Hg)). cbn [bind].
    eexists; split; [reflexivity|]. unfold run_task. cbn [tk_level tk_roots tk_active tk_prefix].
    unfold tx, gx. cbn [fst snd].
    destruct (AND_runs (D - l) l (snd rt) (fst g) (snd g) [] (S maxLevel)) as (fl & ->); auto; lia.
  Qed.

  Theorem par_no_runs : forall s1 s2 hc, (1 <= hc)%N -> valid_scheduler s1 -> valid_scheduler s2 ->
    par_branch maxLevel hc true = true ->
    N.to_nat (N.log2 hc) <= 15 -> N.to_nat (N.log2 hc) <= D ->
    (S (N.to_nat (N.log2 hc)) <= D \/ (2 ^ N.log2 hc <= 2)%N) ->
    exists m, Intersect_mem k s1 s2 hc Ts false true = Ok (interx D X 0%N, m).
  Proof.
    intros s1 s2 hc Hhc V1 V2 Hb H15 HcD Hdeep. set (cut := N.to_nat (N.log2 hc)) in *.
    assert (HP : forall nT, plan_pushed Ts lg D false cut nT X = [] /\
                 concat (map tx (plan_tasks Ts lg D false cut nT X)) = interx D X 0%N).
    { intros nT. unfold plan_pushed, plan_tasks.
      assert (WX : wfs n D X) by (intros i t Hi E; apply (HX i t Hi E)).
      destruct (walk_tasks cut D X 0%N (aligned_0 _) WX) as (E1 & E2 & E3).
      destruct (expand_tasks cut nT _ 0 E3) as (E4 & E5). rewrite E1, E4. split; auto.
      rewrite map_app, !map_map, concat_app. etransitivity; [|exact E2]. exact E5. }
    unfold Intersect_mem. destruct (same_heights Ts maxLevel Hn1 Hheights) as (T0 & -> & E1 & E2).
    cbn [bind]. rewrite E1, E2. cbn [negb].
    replace (N.eqb hc 0) with false by (symmetry; apply N.eqb_neq; lia).
    unfold par_branch in Hb. rewrite Hb. fold cut. rewrite n_tries_16 by exact Hn.
    destruct (par_plan_spec k Ts maxLevel lmem lg D leafok noroot Hn Hn1 Htot Hbits Hlast false false cut
                (2 ^ N.log2 hc)%N (nT_pow hc) H15 HcD Hdeep X HX Hs) as
      [(r & m & -> & (_ & _ & _ & _ & P5 & P6 & _))|(used & levels & st & -> & W)]; [discriminate| |]; cbn [bind].
    - destruct (HP (2 ^ N.log2 hc)%N) as (Q1 & Q2). rewrite P6 in Q2. rewrite P5, Q1, <- Q2. eauto.
    - destruct W as (gl & Z & leaked & W1 & W2 & W3 & W4 & W5 & W6 & W7 & W8 & W9 & W10 & W11 & W12 & WL & W13 & W14 & W15 & W16).
      destruct (HP (2 ^ N.log2 hc)%N) as (Q1 & Q2).
      rewrite (par_results_gen k Ts maxLevel false s1 tx gl levels st used V1 W1 W2).
      2:{ intros t g Hg. apply (run_task_runs gl); auto. }
      cbn [bind].
      rewrite (par_concat_spec s2 used (pa_r st) (map tx gl)); auto.
      2:{ rewrite map_length; auto. }
      cbn [bind].
      assert (Nd : NoDup ((map fst (pa_roots st) ++ map fst (pa_active st)) ++ leaked)).
      { apply (Permutation_NoDup (l := seq 0 (m_next (pa_mem st)))); [symmetry; auto|apply seq_NoDup]. }
      destruct (free_loop_spec false st used) as (fr & -> & Pf); auto.
      { rewrite W1. eapply Forall2_length; eauto. }
      { apply NoDup_app_remove_r in Nd. auto. }
      cbn [bind]. rewrite W14, Q1, W15, Q2. eauto.
  Qed.
End Seq.

Section Inst.
  Context {A : Type}.
  Variable lok : trie_ops -> nat -> A -> Prop.
  Variable lmem : A -> N -> bool.
  Variable lg D maxLevel : nat.
  Variable k : kind.
  Variable Ts : list trie_ops.
  Variable ts : list (tree A).
  Variable xs : list (bool * list N).
  Variable b : N.
  Variable noroot : bool.
  Hypothesis HR : Forall2 (repr lok D maxLevel) Ts ts.
  (** A run lies around a value where the set has the block of [b] values around it. *)
  Hypothesis HI : Forall2 (fun t x => sel lmem (D + lg) t 0 = snd x /\
    forall q, (q < pow2 (D + lg))%N -> (runat lg (pred D) D t q = true <-> run_around b q x)) ts xs.
  Hypothesis Hn : 1 <= length Ts <= 16.
  Hypothesis Hend : forall lvl, lvl <= D -> at_end k maxLevel lvl = (lvl =? D).
  Hypothesis Htot : total_bits k maxLevel = D + lg.
  Hypothesis Hbits : D + lg < 64.
  Hypothesis HD : D <= S maxLevel.
  Hypothesis Hlast : forall lvl, lvl < D -> S lvl = maxLevel -> noroot = true /\ S lvl = D.
  Hypothesis Hleaf : forall active roots X p r,
    (forall i, i < length Ts -> active i = Ok (is_some (X i))) ->
    okf Ts (leafok lok Ts) noroot 0 D roots X -> aligned lg p ->
    and_leaf k Ts (length Ts) active roots p r = Ok (r ++ inter lmem lg (length Ts) 0 X p).

  Theorem flag_outcome : exists r, common_where xs (fun v => ~ Exists (run_around b v) xs) r /\
    (forall s1 s2 hc, (1 <= hc)%N -> Intersect k s1 s2 hc Ts false false = Ok r) /\
    (forall s1 s2 hc, (1 <= hc < 2 ^ 16)%N -> valid_scheduler s1 -> valid_scheduler s2 ->
       (par_branch maxLevel hc true = true ->
        N.to_nat (N.log2 hc) <= D /\ (S (N.to_nat (N.log2 hc)) <= D \/ (2 ^ N.log2 hc <= 2)%N)) ->
       Intersect k s1 s2 hc Ts false true = Ok r).
  Proof.
    exists (interx lmem lg (length Ts) D (forest_of ts) 0%N). split.
    2:{ assert (OK : okf Ts (leafok lok Ts) noroot D 0 init_roots (forest_of ts))
          by (apply inst_okf with (maxLevel := maxLevel); auto; lia).
        assert (SM : somes Ts (forest_of ts)) by (apply (inst_somes lok D maxLevel); auto).
        assert (HH : forall T, In T Ts -> t_height T = maxLevel) by (eapply inst_heights; eauto).
        assert (SQ : forall s1 s2 hc parallel, (1 <= hc)%N -> par_branch maxLevel hc parallel = false ->
          Intersect k s1 s2 hc Ts false parallel = Ok (interx lmem lg (length Ts) D (forest_of ts) 0%N)).
        { intros s1 s2 hc parallel Hhc Hb. unfold Intersect.
          rewrite (seq_no_runs k Ts maxLevel lmem lg D (leafok lok Ts) noroot) with (X := forest_of ts); auto; lia. }
        split; [intros; apply SQ; auto|]. intros s1 s2 hc Hhc V1 V2 Hc.
        destruct (par_branch maxLevel hc true) eqn:Hb; [|apply SQ; auto; lia].
        destruct (Hc eq_refl) as (C1 & C2). destruct (hc_threads hc ltac:(lia) ltac:(lia)) as (H15 & _).
        unfold Intersect.
        destruct (par_no_runs k Ts maxLevel lmem lg D (leafok lok Ts) noroot) with (X := forest_of ts) (hc := hc)
          (s1 := s1) (s2 := s2) as (m & ->); auto; lia. }
    assert (L1 := Forall2_length HR). assert (L2 := Forall2_length HI).
    assert (Hat : forall i t x v, nth_error ts i = Some t -> nth_error xs i = Some x -> (v < pow2 (D + lg))%N ->
      (memx lmem (D + lg) t v = true <-> In v (snd x) /\ ~ run_around b v x)).
    { intros i t x v Et Ex Hv. destruct (Forall2_nth _ _ _ _ _ _ _ HI Et) as (x' & Ex' & Es & Hrun).
      rewrite Ex in Ex'. injection Ex' as <-. destruct (inst_nth lok D maxLevel Ts ts HR i t Et) as (_ & W & _).
      rewrite memx_runat, andb_true_iff, negb_true_iff by auto. rewrite <- (Hrun v Hv), not_true_iff_false.
      assert (S := sel_In _ lmem _ _ _ Es v). tauto. }
    split; [apply filter_sorted, nrange_sorted|].
    intros v. unfold interx. rewrite filter_In, In_nrange, of_nat_pow2. unfold fmemx.
    rewrite forallb_seq. unfold forest_of. split.
    - intros (Hv & Hall). assert (Hv' : (v < pow2 (D + lg))%N) by lia. split.
      + apply Forall_forall. intros x Hx. apply In_nth_error in Hx. destruct Hx as (i & Ei).
        destruct (nth_error ts i) as [t|] eqn:Et.
        * specialize (Hall i). rewrite Et in Hall. apply (Hat i t x v Et Ei Hv').
          apply Hall. rewrite L1. apply nth_error_Some. congruence.
        * apply nth_error_None in Et. assert (N : nth_error xs i <> None) by congruence. apply nth_error_Some in N. lia.
      + intros Hex. apply Exists_exists in Hex. destruct Hex as (x & Hx & Hrun).
        apply In_nth_error in Hx. destruct Hx as (i & Ei).
        destruct (nth_error ts i) as [t|] eqn:Et.
        * specialize (Hall i). rewrite Et in Hall. apply (proj2 (proj1 (Hat i t x v Et Ei Hv')
            (Hall ltac:(rewrite L1; apply nth_error_Some; congruence)))). auto.
        * apply nth_error_None in Et. assert (N : nth_error xs i <> None) by congruence. apply nth_error_Some in N. lia.
    - intros (Hall & Hex).
      assert (Hv : (v < pow2 (D + lg))%N).
      { destruct (nth_error ts 0) as [t|] eqn:E; [|apply nth_error_None in E; lia].
        destruct (Forall2_nth _ _ _ _ _ _ _ HI E) as (x & Ex & Es & _).
        rewrite Forall_forall in Hall. specialize (Hall x (nth_error_In _ _ Ex)).
        apply (sel_In _ lmem _ _ _ Es v) in Hall. tauto. }
      split; [lia|]. intros i Hi. destruct (nth_error ts i) as [t|] eqn:Et; auto.
      destruct (Forall2_nth _ _ _ _ _ _ _ HI Et) as (x & Ex & _).
      apply (Hat i t x v Et Ex Hv). rewrite Forall_forall in Hall. split; [apply Hall; eapply nth_error_In; eauto|].
      intros Hrun. apply Hex. apply Exists_exists. exists x. split; auto. eapply nth_error_In; eauto.
  Qed.
End Inst.

Theorem bin_wrong_flag : forall u (l : list bitem),
  (2 <= u <= 2 ^ 48)%N -> 1 <= length l <= 16 -> Forall (bitem_ok u) l ->
  exists Ts r, each_ok (make_bitem u) l = Ok Ts /\
    common_where (map b_part l) (fun v => ~ Exists (run_around 4 v) (map b_part l)) r /\
    (forall s1 s2 hc, (1 <= hc)%N -> Intersect Bin s1 s2 hc (map bin_ops Ts) false false = Ok r) /\
    (forall s1 s2 hc, (1 <= hc < 2 ^ 16)%N -> (3 <= u \/ hc <= 3)%N -> valid_scheduler s1 -> valid_scheduler s2 ->
       Intersect Bin s1 s2 hc (map bin_ops Ts) false true = Ok r).
Proof.
  intros u l Hu Hn Hl.
  destruct (height_of_spec u Hu) as (h & Hh & H1 & Hp & H2 & _).
  destruct (each_ok_spec _ _ (make_bitem u) (fun x t => exists T, T = bin_tree h (snd (fst x)) (snd x) /\
    repr lok_bin h h (bin_ops t) T /\ sel umem (h + 0) T 0 = snd x) l) as (Ts & E & HT).
  { eapply Forall_impl; [|exact Hl]. intros [[v e] s] Hx.
    destruct (bin_make_tree u h v e s Hh Hu H1 Hp H2 Hx) as (t & ? & ? & ?). exists t. split; eauto. }
  apply Forall2_split in HT. destruct HT as (ts & HA & HB).
  assert (HR : Forall2 (repr lok_bin h h) (map bin_ops Ts) ts).
  { apply Forall2_map_l. eapply Forall2_impl; [|exact HA]. cbn. intros t T (x & _ & _ & ? & _). auto. }
  assert (HI : Forall2 (fun t x => sel umem (h + 0) t 0 = snd x /\
    forall q, (q < pow2 (h + 0))%N -> (runat 0 (pred h) h t q = true <-> run_around 4 q x)) ts (map b_part l)).
  { apply Forall2_map_r. eapply Forall2_impl; [|exact HB]. cbn. intros T x (t & -> & (_ & W & _) & Es). split; auto.
    intros q Hq. rewrite bin_runat by (auto; lia). unfold run_around, b_part. cbn [fst snd].
    replace (Nat.max 2 (h - pred h)) with 2 by lia. reflexivity. }
  assert (Ln : length (map bin_ops Ts) = length l).
  { rewrite (Forall2_length HR), (Forall2_length HI), map_length. auto. }
  destruct (flag_outcome lok_bin umem 0 h h Bin (map bin_ops Ts) ts (map b_part l) 4%N true HR HI ltac:(lia)
    (bin_end h) (bin_tot h) ltac:(lia) ltac:(lia) (bin_last h) (bin_leaf h (map bin_ops Ts))) as (r & Hr & HIr).
  exists Ts, r. split; auto. split; auto. split; [apply HIr|]. intros s1 s2 hc Hhc Hsm V1 V2.
  apply HIr; auto. intros Hb. apply (bin_cut h H1 hc ltac:(lia) ltac:(lia)) with (parallel := true); auto.
  destruct Hsm as [H3|H3]; [left; apply H2; auto|right; auto].
Qed.

Theorem fast_wrong_flag : forall u lw (l : list fitem),
  fast_universe u lw -> 1 <= length l <= 16 -> Forall (fitem_ok u) l ->
  exists Ts r, each_ok (make_fitem u lw) l = Ok Ts /\
    common_where (map f_part l) (fun v => ~ Exists (run_around (2 * 2 ^ N.of_nat lw) v) (map f_part l)) r /\
    (forall s1 s2 hc, (1 <= hc)%N -> Intersect (Fast lw) s1 s2 hc (map fast_ops Ts) false false = Ok r) /\
    (forall s1 s2 hc, (1 <= hc < 2 ^ 16)%N -> (2 ^ N.of_nat lw < u \/ hc = 1)%N -> valid_scheduler s1 -> valid_scheduler s2 ->
       Intersect (Fast lw) s1 s2 hc (map fast_ops Ts) false true = Ok r).
Proof.
  intros u lw l (Hlw & Hu) Hn Hl.
  assert (H8 : (2 ^ N.of_nat 3 <= 2 ^ N.of_nat lw)%N).
  { apply N.pow_le_mono_r; [lia|]. cbn in Hlw. lia. }
  change (2 ^ N.of_nat 3)%N with 8%N in H8.
  destruct (height_of_spec u ltac:(lia)) as (h & Hh & H1 & Hp & H2 & Hk).
  assert (Hlh : lw <= h).
  { destruct lw as [|lw]; [lia|]. change (2 ^ N.of_nat (S lw))%N with (pow2 (S lw)) in Hu.
    rewrite pow2_S in Hu. assert (lw < h) by (apply Hk; lia). lia. }
  assert (H6 : lw <= 6) by (cbn in Hlw; lia).
  assert (Eh : h - lw + lw = h) by lia. set (d := h - lw) in *.
  destruct (each_ok_spec _ _ (make_fitem u lw) (fun x t => exists T, T = fast_tree lw d (f_enc x) (snd x) /\
    repr lok_fast d (S d) (fast_ops t) T /\ sel (wmem lw) (d + lw) T 0 = snd x) l) as (Ts & E & HT).
  { eapply Forall_impl; [|exact Hl]. intros [[[jh je] e] s] Hx.
    destruct (fast_make_tree u h lw jh je e s Hh H6 Hlh ltac:(lia) Hp Hx) as (t & ? & ? & ?). exists t. split; auto.
    eauto 6. }
  apply Forall2_split in HT. destruct HT as (ts & HA & HB).
  assert (HR : Forall2 (repr lok_fast d (S d)) (map fast_ops Ts) ts).
  { apply Forall2_map_l. eapply Forall2_impl; [|exact HA]. cbn. intros t T (x & _ & _ & ? & _). auto. }
  assert (Eb : (2 * 2 ^ N.of_nat lw)%N = (2 ^ N.of_nat (S lw))%N) by (fold (pow2 lw); fold (pow2 (S lw)); rewrite pow2_S; lia).
  assert (HI : Forall2 (fun t x => sel (wmem lw) (d + lw) t 0 = snd x /\
    forall q, (q < pow2 (d + lw))%N -> (runat lw (pred d) d t q = true <-> run_around (2 * 2 ^ N.of_nat lw) q x)) ts (map f_part l)).
  { apply Forall2_map_r. eapply Forall2_impl; [|exact HB]. cbn [fst snd f_part]. intros T x (t & -> & (_ & W & _) & Es).
    split; auto. intros q Hq. unfold run_around. cbn [fst snd]. rewrite Eb.
    destruct (Nat.eq_dec d 0) as [Ed|Ed].
    - rewrite Ed in *. assert (W' := W). apply wf_leaf in W'. destruct W' as (a & ->). cbn [runat pred].
      split; [discriminate|]. intros (_ & Hb). exfalso.
      assert (Hq2 : (2 ^ N.of_nat (S lw) * (q / 2 ^ N.of_nat (S lw)) + pow2 lw < pow2 lw)%N).
      { apply (sel_In _ _ _ _ _ Es). apply Hb. fold (pow2 (S lw)). rewrite N.mul_comm, N.div_add_l by apply pow2_nz.
        rewrite (N.div_small (pow2 lw)); [lia|]. rewrite pow2_S. assert (G := pow2_nz lw). lia. }
      apply (N.lt_irrefl (pow2 lw)). eapply N.le_lt_trans; [|exact Hq2]. rewrite N.add_comm. apply N.le_add_r.
    - rewrite fast_runat by (auto; lia). replace (d + lw - pred d) with (S lw) by lia. reflexivity. }
  assert (Ln : length (map fast_ops Ts) = length l).
  { rewrite (Forall2_length HR), (Forall2_length HI), map_length. auto. }
  destruct (flag_outcome lok_fast (wmem lw) lw d (S d) (Fast lw) (map fast_ops Ts) ts (map f_part l) _ false HR HI ltac:(lia)
    (fast_end lw d) (fast_tot lw d) ltac:(lia) ltac:(lia) (fast_last d) (fast_leaf lw d H6 (map fast_ops Ts))) as (r & Hr & HIr).
  exists Ts, r. split; auto. split; auto. split; [apply HIr|]. intros s1 s2 hc Hhc Hsm V1 V2.
  apply HIr; auto. intros Hb. apply (fast_cut d hc) with (parallel := true); auto.
  destruct Hsm as [H3|H3]; [left; unfold d; apply Hk in H3; lia|right; auto].
Qed.
