(** Proofs about the calls made by the threads of a parallel intersection. *)

From Verif Require Import Base FlatTrie LevelTrie FastTrie ParallelFor Intersection Tries Calls ParCalls Facts Tree
  Groups Reps Layout BuildFlat BuildLevel BuildFast WordBits Spec RoundTrip RoundTripFacts Compress
  WriteOnes CompressFast RunsFacts RunsThms SpecTries SpecMeasures SpecCalls NodeCount
  InterSpec InterSeq ParFacts InterPar InterPlan InterTop InterInst InterTight InterMain InterThms InterFlag LayoutThms CallsThms
  CallsMain.

(** * The record changes nothing *)

Lemma run_task_erase : forall k Ts n maxLevel runs tk,
  drop (run_task_calls k Ts n maxLevel runs tk) = run_task k Ts n maxLevel runs tk.
Proof.
  intros. unfold run_task_calls, run_task. destruct runs.
  - apply runsAND_erase.
  - rewrite <- (AND_erase k Ts n maxLevel _ _ _ _ _ []). unfold drop.
    destruct (AND_calls _ _ _ _ _ _ _ _ _ _) as [[[r f] c]| |]; reflexivity.
Qed.

Lemma par_results_erase : forall k Ts n maxLevel runs s used levels st,
  drop (par_results_calls k Ts n maxLevel runs s used levels st) = par_results k Ts n maxLevel runs s used levels st.
Proof.
  intros. unfold par_results_calls, par_results, drop.
  assert (L : forall m j outs cs,
    (let* (o, _) := for_loop m j (fun t oc =>
      let* tk := get_task runs levels st t in
      let* (r, c) := run_task_calls k Ts n maxLevel runs tk in
      Ok (fst oc ++ [r], snd oc ++ [c])) (outs, cs) in Ok o) =
    for_loop m j (fun t outs =>
      let* tk := get_task runs levels st t in
      let* r := run_task k Ts n maxLevel runs tk in
      Ok (outs ++ [r])) outs).
  { induction m as [|m IH]; intros j outs cs; cbn [for_loop]; auto.
    destruct (get_task runs levels st j) as [tk| |]; cbn [bind]; auto.
    rewrite <- run_task_erase. unfold drop.
    destruct (run_task_calls _ _ _ _ _ tk) as [[r c]| |]; cbn [bind]; auto. }
  rewrite <- (L used 0 [] []).
  destruct (for_loop _ _ _ ([], [])) as [[outs cs]| |]; cbn [bind]; auto.
  destruct (pf_traces _ _ _) as [tr| |]; cbn [bind]; auto.
  destruct (exec_push _ _); cbn [bind]; auto.
Qed.

Theorem par_calls_erase : forall k s1 s2 hc Ts runs,
  drop (Intersect_par_calls k s1 s2 hc Ts runs) = Intersect k s1 s2 hc Ts runs true.
Proof.
  intros. assert (Hseq := Intersect_erase k s1 s2 hc Ts runs).
  unfold Intersect_par_calls, Intersect, Intersect_mem, drop in *.
  destruct (vget Ts 0) as [T0| |]; cbn [bind] in *; auto.
  destruct (negb _); auto. destruct (N.eqb hc 0); auto. cbn [andb] in *.
  destruct ((t_height T0 <? 2) || _)%bool.
  - destruct (par_plan _ _ _ _ _ _ _) as [[r0 m0|used levels st]| |]; cbn [bind]; auto.
    rewrite <- par_results_erase. unfold drop.
    destruct (par_results_calls _ _ _ _ _ _ _ _ _) as [[res cs]| |]; cbn [bind]; auto.
    destruct (par_concat _ _ _ _) as [r1| |]; cbn [bind]; auto.
    destruct (free_loop _ _ _); auto.
  - rewrite <- Hseq. destruct (Intersect_calls _ _ _ _) as [[r c]| |]; auto.
Qed.

(** * The visits of the tasks *)

Lemma NoDup_parts : forall X (a b a' b' : list X), NoDup (a ++ b) -> NoDup a' -> NoDup b' -> incl a' a -> incl b' b ->
  NoDup (a' ++ b').
Proof.
  intros X a b a' b' H A B IA IB. apply NoDup_both; auto. intros x Xa Xb. apply IA in Xa. apply IB in Xb.
  clear - H Xa Xb. induction a as [|y a IH]; [destruct Xa|]. inversion H; subst. destruct Xa as [->|Xa]; auto.
  apply H2. apply in_or_app. auto.
Qed.

Section Walk.
  Context {A : Type}.
  Variable Ts : list trie_ops.
  Variable lg D : nat.
  Variable runs : bool.
  Notation n := (length Ts).
  Notation walk := (walk Ts lg runs (A := A)).
  Notation visits := (visits lg n (A := A)).
  Hypothesis Hn : 1 <= n.

  Definition gvisits (lvl d : nat) (g : ghost A) : calls := visits d (fst g) lvl (snd g).
  Notation gv lvl d gs := (concat (map (gvisits lvl d) gs)).

  (** Where no trie has a run, a call goes on to the children that all have. *)
  Lemma visits_down : forall d X lvl p, somes Ts X -> all_left n X = true \/ all_right n X = true ->
    visits (S d) X lvl p = (lvl, p) ::
      ((if all_left n X then visits d (lefts X) (S lvl) p else [])
       ++ (if all_right n X then visits d (rights X) (S lvl) (p + pow2 (d + lg)) else [])).
  Proof.
    intros d X lvl p HS HC. cbn [CallsThms.visits].
    assert (HD : forall i, i < n -> drop_full X i = X i).
    { intros i Hi. unfold drop_full. destruct (X i) as [t|] eqn:E; auto. destruct t; auto. exfalso.
      destruct HC as [HC|HC]; unfold all_left, all_right in HC; rewrite forallb_seq in HC; specialize (HC i Hi);
        rewrite E in HC; discriminate. }
    assert (E1 : none_left n (drop_full X) = false).
    { apply forallb_seq_false. exists 0. split; [lia|]. rewrite HD by lia.
      specialize (HS 0 ltac:(lia)). destruct (X 0); congruence. }
    assert (E2 : all_left n (drop_full X) = all_left n X)
      by (apply forallb_seq_ext; intros; rewrite HD; auto).
    assert (E3 : all_right n (drop_full X) = all_right n X)
      by (apply forallb_seq_ext; intros; rewrite HD; auto).
    rewrite E1, E2, E3.
    rewrite (visits_ext _ _ _ _ (lefts (drop_full X)) (lefts X)) by (intros; unfold lefts; rewrite HD; auto).
    rewrite (visits_ext _ _ _ _ (rights (drop_full X)) (rights X)) by (intros; unfold rights; rewrite HD; auto).
    reflexivity.
  Qed.

  Lemma walk_visits : forall c d lvl X p, c <= d -> somes Ts X ->
    NoDup (gv (lvl + c) (d - c) (snd (walk c d X p))) /\
    incl (gv (lvl + c) (d - c) (snd (walk c d X p))) (visits d X lvl p) /\
    Forall (fun g => somes Ts (fst g)) (snd (walk c d X p)).
  Proof.
    induction c as [|c IH]; intros d lvl X p Hc HS.
    - cbn [InterPar.walk snd map concat]. rewrite Nat.sub_0_r, Nat.add_0_r, app_nil_r. unfold gvisits. cbn [fst snd].
      split; [apply visits_NoDup|]. split; [apply incl_refl|]. constructor; auto.
    - destruct d as [|d]; [lia|]. cbn [InterPar.walk]. destruct (runs && all_full Ts X)%bool.
      { cbn [snd map concat]. split; [constructor|]. split; [intros x []|constructor]. }
      cbn [snd Nat.sub]. replace (lvl + S c) with (S lvl + c) by lia.
      assert (L : all_left n X = true ->
        NoDup (gv (S lvl + c) (d - c) (snd (walk c d (lefts X) p))) /\
        incl (gv (S lvl + c) (d - c) (snd (walk c d (lefts X) p))) (visits d (lefts X) (S lvl) p) /\
        Forall (fun g => somes Ts (fst g)) (snd (walk c d (lefts X) p))).
      { intros E. apply IH; [lia|]. apply somes_left; auto. }
      assert (R : all_right n X = true ->
        NoDup (gv (S lvl + c) (d - c) (snd (walk c d (rights X) (p + pow2 (d + lg))%N))) /\
        incl (gv (S lvl + c) (d - c) (snd (walk c d (rights X) (p + pow2 (d + lg))%N))) (visits d (rights X) (S lvl) (p + pow2 (d + lg))) /\
        Forall (fun g => somes Ts (fst g)) (snd (walk c d (rights X) (p + pow2 (d + lg))%N))).
      { intros E. apply IH; [lia|]. apply somes_right; auto. }
      destruct (all_left n X) eqn:EL, (all_right n X) eqn:ER; cbn [snd]; rewrite ?app_nil_r; cbn [app];
        try (specialize (L eq_refl); destruct L as (L1 & L2 & L3)); try (specialize (R eq_refl); destruct R as (R1 & R2 & R3)).
      + rewrite visits_down by auto. rewrite EL, ER, map_app, concat_app, Forall_app. split; [|split; auto].
        * eapply NoDup_parts; [|eauto..]. assert (V := visits_NoDup lg n (S d) X lvl p). rewrite visits_down in V by auto.
          rewrite EL, ER in V. inversion V; auto.
        * intros x Hx. right. apply in_app_or in Hx. apply in_or_app. destruct Hx; [left|right]; auto.
      + rewrite visits_down by auto. rewrite EL, ER, app_nil_r. split; auto. split; auto. intros x Hx. right. auto.
      + rewrite visits_down by auto. rewrite EL, ER. split; auto. split; auto. intros x Hx. right. auto.
      + cbn. split; [constructor|]. split; [intros x []|constructor].
  Qed.

  (** Without runs nothing is left out below the cut. *)
  Lemma walk_all : forall c d lvl X p, c <= d -> runs = false -> plains Ts X ->
    (forall m q, In (m, q) (visits d X lvl p) -> lvl + c <= m -> In (m, q) (gv (lvl + c) (d - c) (snd (walk c d X p)))) /\
    Forall (fun g => plains Ts (fst g)) (snd (walk c d X p)).
  Proof.
    induction c as [|c IH]; intros d lvl X p Hc Hr HP.
    - cbn [InterPar.walk snd map concat]. rewrite Nat.sub_0_r, Nat.add_0_r, app_nil_r. unfold gvisits. cbn [fst snd].
      split; auto.
    - destruct d as [|d]; [lia|]. cbn [InterPar.walk]. rewrite Hr. cbn [andb snd Nat.sub].
      replace (lvl + S c) with (S lvl + c) by lia.
      assert (L := fun E => IH d (S lvl) (lefts X) p ltac:(lia) Hr (plains_left Ts X HP E)).
      assert (R := fun E => IH d (S lvl) (rights X) (p + pow2 (d + lg))%N ltac:(lia) Hr (plains_right Ts X HP E)).
      rewrite plain_step by auto. rewrite Hr in L, R.
      destruct (all_left n X) eqn:EL, (all_right n X) eqn:ER; cbn [snd]; rewrite ?app_nil_r; cbn [app];
        try (specialize (L eq_refl); destruct L as (L1 & L2)); try (specialize (R eq_refl); destruct R as (R1 & R2)).
      + rewrite map_app, concat_app, Forall_app. split; [|auto].
        intros m q [H|H] Hm; [inversion H; lia|]. apply in_app_or in H. apply in_or_app. destruct H; [left|right]; auto.
      + split; auto. intros m q [H|H] Hm; [inversion H; lia|]. auto.
      + split; auto. intros m q [H|H] Hm; [inversion H; lia|]. auto.
      + split; [|constructor]. intros m q [H|[]] Hm. inversion H; lia.
  Qed.

  Variable cut : nat.
  Variable nThreads : N.
  Notation expand := (expand Ts lg D runs cut nThreads (A := A)).

  Definition ev (e : list N * list (ghost A) * list (ghost A)) : calls :=
    gv (S cut) (D - S cut) (snd (fst e)) ++ gv cut (D - cut) (snd e).

  Lemma NoDup_app_r : forall X (a b : list X), NoDup (a ++ b) -> NoDup b.
  Proof. induction a as [|x a IH]; intros b H; auto. inversion H; auto. Qed.

  Lemma expand_visits : S cut <= D \/ (nThreads <= 2)%N -> forall tl made, (S cut <= D \/ tl = [] \/ 0 < made + length tl) -> Forall (fun g => somes Ts (fst g)) tl -> NoDup (gv cut (D - cut) tl) ->
    NoDup (ev (expand tl made)) /\ incl (ev (expand tl made)) (gv cut (D - cut) tl).
  Proof.
    intros Hd. induction tl as [|[X p] tl IH]; intros made Hm G ND; cbn [InterPlan.expand].
    - split; [constructor|intros x []].
    - destruct (N.ltb_spec 1 (nThreads - N.of_nat (length ((X, p) :: tl) + made))) as [Hlt|Hge]; unfold ev; cbn [fst snd].
      + assert (HD : S cut <= D) by (destruct Hd; [auto|cbn [length] in *; lia]).
        apply Forall_cons_iff in G. destruct G as (G1 & G2). cbn [fst] in G1. cbn [map concat] in ND.
        destruct (IH (made + length (snd (walk 1 (D - cut) X p))) ltac:(auto) G2 (NoDup_app_r _ _ _ ND)) as (I1 & I2).
        destruct (walk_visits 1 (D - cut) cut X p ltac:(lia) G1) as (W1 & W2 & _).
        replace (cut + 1) with (S cut) in W1, W2 by lia. replace (D - cut - 1) with (D - S cut) in W1, W2 by lia.
        rewrite map_app, concat_app, <- app_assoc. cbn [map concat]. split.
        * eapply NoDup_parts; [exact ND|exact W1|exact I1|exact W2|exact I2].
        * apply incl_app; [intros x Hx; apply in_or_app; left; apply W2; auto|intros x Hx; apply in_or_app; right; apply I2; auto].
      + cbn [map concat app]. split; auto. apply incl_refl.
  Qed.

  Lemma expand_all : S cut <= D \/ (nThreads <= 2)%N -> runs = false ->
    forall tl made, (S cut <= D \/ tl = [] \/ 0 < made + length tl) -> Forall (fun g => plains Ts (fst g)) tl ->
    forall m q, In (m, q) (gv cut (D - cut) tl) -> cut < m -> In (m, q) (ev (expand tl made)).
  Proof.
    intros Hd Hr. induction tl as [|[X p] tl IH]; intros made Hmd G m q H Hm; cbn [InterPlan.expand].
    - destruct H.
    - destruct (N.ltb_spec 1 (nThreads - N.of_nat (length ((X, p) :: tl) + made))) as [Hlt|Hge]; unfold ev; cbn [fst snd].
      + assert (HD : S cut <= D) by (destruct Hd; [auto|cbn [length] in *; lia]).
        apply Forall_cons_iff in G. destruct G as (G1 & G2). cbn [fst] in G1. cbn [map concat] in H.
        destruct (walk_all 1 (D - cut) cut X p ltac:(lia) Hr G1) as (W1 & _).
        replace (cut + 1) with (S cut) in W1 by lia. replace (D - cut - 1) with (D - S cut) in W1 by lia.
        rewrite map_app, concat_app, <- app_assoc. apply in_app_or in H. apply in_or_app. destruct H as [H|H].
        * left. apply W1; auto.
        * right. apply IH; auto.
      + cbn [map concat app]. exact H.
  Qed.

  Variable X : forest (A := A).
  Hypothesis HcutD : cut <= D.
  Hypothesis Hdeep : S cut <= D \/ (nThreads <= 2)%N.
  Hypothesis Hs : somes Ts X.

  Definition tvisits (lt : nat * ghost A) : calls := gvisits (fst lt) (D - fst lt) (snd lt).
  Notation tasks := (plan_tasks Ts lg D runs cut nThreads X).

  Lemma tasks_ev : concat (map tvisits tasks) = ev (expand (snd (walk cut D X 0%N)) 0).
  Proof. unfold plan_tasks, ev. cbv zeta. rewrite map_app, concat_app, !map_map. reflexivity. Qed.

  Lemma walk_nonempty_or : forall tl : list (ghost A), S cut <= D \/ tl = [] \/ 0 < 0 + length tl.
  Proof. intros [|g tl]; [auto|right; right; cbn; lia]. Qed.

  Theorem tasks_visits :
    NoDup (concat (map tvisits tasks)) /\ incl (concat (map tvisits tasks)) (visits D X 0 0%N) /\
    (runs = false -> plains Ts X -> forall m q, In (m, q) (visits D X 0 0%N) -> cut < m -> In (m, q) (concat (map tvisits tasks))).
  Proof.
    destruct (walk_visits cut D 0 X 0%N HcutD Hs) as (W1 & W2 & W3). cbn [Nat.add] in *.
    destruct (expand_visits Hdeep (snd (walk cut D X 0%N)) 0 (walk_nonempty_or _) W3 W1) as (E1 & E2).
    rewrite tasks_ev. split; auto. split; [eapply incl_tran; eauto|].
    intros Hr HP m q H Hm. destruct (walk_all cut D 0 X 0%N HcutD Hr HP) as (A1 & A2). cbn [Nat.add] in *.
    apply expand_all; auto using walk_nonempty_or. apply A1; auto. lia.
  Qed.
End Walk.

(** * The call *)

Section ParTop.
  Context {A : Type}.
  Variable lok : trie_ops -> nat -> A -> Prop.
  Variable lmem : A -> N -> bool.
  Variable lg D maxLevel : nat.
  Variable k : kind.
  Variable Ts : list trie_ops.
  Variable ts : list (tree A).
  Variable noroot : bool.
  Notation n := (length Ts).
  Hypothesis HR : Forall2 (repr lok D maxLevel) Ts ts.
  Hypothesis Hn : 1 <= length Ts <= 16.
  Hypothesis Hend : forall lvl, lvl <= D -> at_end k maxLevel lvl = (lvl =? D).
  Hypothesis Htot : total_bits k maxLevel = D + lg.
  Hypothesis Hbits : D + lg < 64.
  Hypothesis HDm : D <= maxLevel.
  Hypothesis Hlast : forall lvl, lvl < D -> S lvl = maxLevel -> noroot = true /\ S lvl = D.
  Hypothesis Hleaf : forall active roots X p r,
    (forall i, i < length Ts -> active i = Ok (is_some (X i))) ->
    okf Ts (leafok lok Ts) noroot 0 D roots X -> aligned lg p ->
    and_leaf k Ts (length Ts) active roots p r = Ok (r ++ inter lmem lg (length Ts) 0 X p).
  Variable runs : bool.
  Hypothesis Hpl : runs = false -> Forall plain ts.
  Notation task_ok := (task_ok Ts lg D (leafok lok Ts) noroot runs true).
  Notation acts_ok := (acts_ok Ts runs (A := A)).

  Lemma run_calls_spec : forall gl levels st t g,
    levels = map fst gl -> Forall (fun lt => fst lt <= D) gl ->
    pa_ints st = map snd (map snd gl) ->
    Forall2 (fun lt rt => task_ok (fst lt) (snd lt) rt) gl (pa_roots st) ->
    acts_ok (map snd gl) (pa_active st) ->
    nth_error gl t = Some g ->
    exists tk, get_task runs levels st t = Ok tk /\
      run_task_calls k Ts n maxLevel runs tk = Ok (tinter Ts lmem lg D g, tvisits Ts lg D g).
  Proof.
    intros gl levels st t [l g] El HD Hi Hr Ha Hg.
    destruct (run_task_spec k Ts maxLevel lmem lg D (leafok lok Ts) noroot ltac:(lia) ltac:(lia) Hend Htot Hbits HDm Hlast Hleaf
                runs gl levels st t (l, g) El HD Hi Hr Ha Hg) as (tk & Etk & Erun).
    exists tk. split; auto. rewrite <- run_task_erase in Erun. revert Etk Erun. subst levels. unfold get_task.
    rewrite (vget_nth _ _ _ l) by (apply (map_nth_error fst _ _ Hg)). cbn [bind].
    destruct (Forall2_nth _ _ _ _ _ _ _ Hr Hg) as (rt & Er & (K1 & K2 & K3 & K4 & K5)).
    cbn [fst snd] in *.
    rewrite (vget_nth _ _ _ rt Er). cbn [bind].
    assert (Hl : l <= D).
    { rewrite Forall_forall in HD. apply nth_error_In in Hg. apply (HD _ Hg). }
    assert (Hg2 : nth_error (map snd gl) t = Some g) by (apply (map_nth_error snd _ _ Hg)).
    assert (Hact : exists act, (if runs then let* a := vget (pa_active st) t in Ok (snd a) else Ok []) = Ok act
              /\ (runs = true -> actok Ts act (fst g))).
    { unfold InterPar.acts_ok in Ha. destruct runs.
      - destruct (Forall2_nth _ _ _ _ _ _ _ Ha Hg2) as (a & Ea & Ha').
        exists (snd a). split; auto. rewrite (vget_nth (harr bool) (pa_active st) _ a Ea). auto.
      - exists []. split; auto. discriminate. }
    destruct Hact as (act & -> & Hact). cbn [bind]. rewrite Hi.
    rewrite (vget_nth _ _ _ (snd g)) by (apply map_nth_error; auto). cbn [bind].
    intros Etk. injection Etk as <-. unfold run_task_calls, tvisits, gvisits.
    cbn [tk_level tk_roots tk_active tk_prefix fst snd]. destruct runs.
    - destruct (runsAND_calls_spec k Ts maxLevel lmem lg D (leafok lok Ts) noroot ltac:(lia) Hend Htot Hbits Hlast Hleaf
                 (D - l) l (snd rt) act (fst g) (snd g) [] [] (S maxLevel)) as (r & ->); auto; try lia.
      unfold drop. cbn [bind app]. intros Hd. assert (r = tinter Ts lmem lg D (l, g)) as -> by congruence. reflexivity.
    - destruct (AND_calls_spec k Ts maxLevel lmem lg D (leafok lok Ts) noroot ltac:(lia) ltac:(lia) Hend Htot Hbits Hlast Hleaf
                 (D - l) l (snd rt) (fst g) (snd g) [] [] (S maxLevel)) as (r & fl & ->); auto; try lia.
      unfold drop. cbn [bind app]. intros Hd. assert (r = tinter Ts lmem lg D (l, g)) as -> by congruence. reflexivity.
  Qed.

  Lemma results_calls : forall s gl levels st,
    valid_scheduler s -> 1 <= length gl ->
    levels = map fst gl -> Forall (fun lt => fst lt <= D) gl ->
    pa_ints st = map snd (map snd gl) ->
    Forall2 (fun lt rt => task_ok (fst lt) (snd lt) rt) gl (pa_roots st) ->
    acts_ok (map snd gl) (pa_active st) ->
    par_results_calls k Ts n maxLevel runs s (length gl) levels st =
      Ok (map (tinter Ts lmem lg D) gl, map (tvisits Ts lg D) gl).
  Proof.
    intros s gl levels st Hs H1 El HD Hi Hr Ha. unfold par_results_calls.
    loop_inv (fun j (oc : list (list N) * list calls) =>
      oc = (map (tinter Ts lmem lg D) (firstn j gl), map (tvisits Ts lg D) (firstn j gl))) LI.
    destruct LI as (oc & E & Eo).
    - auto.
    - intros j oc Hj ->.
      destruct (nth_error gl j) as [g|] eqn:Eg; [|apply nth_error_None in Eg; lia].
      destruct (run_calls_spec gl levels st j g El HD Hi Hr Ha Eg) as (tk & -> & E2).
      cbn [bind]. rewrite E2. cbn [bind fst snd]. eexists; split; [reflexivity|].
      rewrite (firstn_S_nth _ _ _ _ Eg), !map_app. auto.
    - rewrite E. cbn [bind Nat.add] in *. rewrite firstn_all in Eo. subst oc. cbn [bind].
      rewrite pf_traces_diag by auto. cbn [bind].
      replace (length gl) with (length (map (tinter Ts lmem lg D) gl)) by apply map_length.
      rewrite exec_push_own by apply Hs. reflexivity.
  Qed.

  Variable hc : N.
  Notation cut := (N.to_nat (N.log2 hc)).
  Hypothesis Hhc : (1 <= hc < 2 ^ 16)%N.
  Hypothesis HcutD : par_branch maxLevel hc true = true -> cut <= D /\ (S cut <= D \/ (2 ^ N.log2 hc <= 2)%N).

  Notation X := (forest_of ts).

  Theorem par_calls : forall s1 s2, valid_scheduler s1 -> valid_scheduler s2 ->
    exists r cs rs c, Intersect_par_calls k s1 s2 hc Ts runs = Ok (r, cs) /\
      Intersect_calls k hc Ts runs = Ok (rs, c) /\
      NoDup (concat cs) /\ incl (concat cs) c /\ (N.of_nat (length cs) <= 2 ^ N.log2 hc)%N /\
      (runs = false -> forall m q, In (m, q) c -> cut < m -> In (m, q) (concat cs)).
  Proof.
    intros s1 s2 V1 V2.
    assert (Hs := inst_somes lok D maxLevel Ts ts HR).
    assert (HX := inst_okf lok D maxLevel Ts ts HR noroot ltac:(lia)).
    assert (Hh := inst_heights lok D maxLevel Ts ts HR).
    assert (HP : runs = false -> plains Ts X) by (intros Hf; eapply inst_plains; eauto).
    destruct (hc_threads hc ltac:(lia) ltac:(lia)) as (H15 & H3 & _).
    destruct (calls_visits lok lmem lg D maxLevel k Ts ts noroot HR Hn Hend Htot Hbits HDm Hlast Hleaf hc ltac:(lia) runs Hpl)
      as (rs & Ec).
    assert (P1 : (1 <= 2 ^ N.log2 hc)%N) by (assert (2 ^ N.log2 hc <> 0)%N by (apply N.pow_nonzero; lia); lia).
    unfold Intersect_par_calls. destruct (same_heights Ts maxLevel ltac:(lia) Hh) as (T0 & -> & E1 & E2).
    cbn [bind]. rewrite E1, E2. cbn [negb].
    replace (N.eqb hc 0) with false by (symmetry; apply N.eqb_neq; lia).
    unfold par_branch in HcutD. cbn [andb] in HcutD. destruct ((maxLevel <? 2) || (cut <=? maxLevel - 2))%bool.
    - destruct (HcutD eq_refl) as (C1 & C2). rewrite n_tries_16 by lia.
      destruct (tasks_visits Ts lg D runs ltac:(lia) cut (2 ^ N.log2 hc)%N X C1 C2 Hs) as (T1 & T2 & T3).
      destruct (par_plan_spec k Ts maxLevel lmem lg D (leafok lok Ts) noroot ltac:(lia) ltac:(lia) Htot Hbits Hlast runs true cut
                (2 ^ N.log2 hc)%N (nT_pow hc) H15 C1 C2 X HX Hs (fun H _ => HP H))
        as [(r & m & -> & (_ & _ & _ & _ & _ & P6 & _))|(used & levels & st & -> & W)]; cbn [bind].
      + rewrite P6 in T1, T2, T3. exists r, [], rs. eexists. split; [reflexivity|]. split; [exact Ec|].
        cbn [concat map length] in *. split; auto. split; auto. split; [lia|]. intros Hf. apply T3; auto.
      + destruct W as (gl & Z & leaked & W1 & W2 & W3 & W4 & W5 & W6 & W7 & W8 & W9 & W10 & W11 & W12 & WL & W13 & W14 & W15 & W16).
        rewrite <- W15 in T1, T2, T3. rewrite W1 in W2, W3 |- *.
        rewrite (results_calls s1 gl levels st V1 W2 W4 W5 W6 W7 W8). cbn [bind].
        rewrite (par_concat_spec s2 (length gl) (pa_r st) (map (tinter Ts lmem lg D) gl)); auto; [|rewrite map_length; auto].
        cbn [bind].
        assert (Nd : NoDup ((map fst (pa_roots st) ++ map fst (pa_active st)) ++ leaked)).
        { apply (Permutation_NoDup (l := seq 0 (m_next (pa_mem st)))); [symmetry; auto|apply seq_NoDup]. }
        destruct (free_loop_spec runs st (length gl)) as (fr & -> & Pf); auto.
        { eapply Forall2_length; eauto. }
        { unfold InterPar.acts_ok in W8. destruct runs; auto.
          apply Forall2_length in W8. rewrite map_length in W8. congruence. }
        { apply NoDup_app_remove_r in Nd. auto. }
        cbn [bind]. do 4 eexists. split; [reflexivity|]. split; [exact Ec|].
        split; auto. split; auto. split; [rewrite map_length; auto|]. intros Hf. apply T3; auto.
    - rewrite Ec. cbn [bind]. do 4 eexists. split; [reflexivity|]. split; [reflexivity|].
      cbn [concat length]. rewrite app_nil_r. split; [apply visits_NoDup|]. split; [apply incl_refl|]. split; [lia|auto].
  Qed.
End ParTop.

(** * Tries built from sets *)

Theorem bin_par_calls : forall u (l : list bitem) runs s1 s2 hc,
  (2 <= u <= 2 ^ 48)%N -> 1 <= length l <= 16 -> Forall (bitem_ok u) l ->
  (runs = false -> Forall (fun x : bitem => snd (fst x) = false) l) ->
  (1 <= hc < 2 ^ 16)%N -> (3 <= u \/ hc <= 3)%N -> valid_scheduler s1 -> valid_scheduler s2 ->
  exists Ts r cs rs c, each_ok (make_bitem u) l = Ok Ts /\
    Intersect_par_calls Bin s1 s2 hc (map bin_ops Ts) runs = Ok (r, cs) /\
    Intersect_calls Bin hc (map bin_ops Ts) runs = Ok (rs, c) /\
    NoDup (concat cs) /\ incl (concat cs) c /\ (N.of_nat (length cs) <= hc)%N /\
    (runs = false -> forall m p, In (m, p) c -> N.to_nat (N.log2 hc) < m -> In (m, p) (concat cs)).
Proof.
  intros u l runs s1 s2 hc Hu Hn Hl Hr Hhc Hsm V1 V2.
  destruct (height_of_spec u Hu) as (h & Hh & H1 & Hp & H2 & Hk).
  destruct (each_ok_spec _ _ (make_bitem u) (fun x t => exists T, T = bin_tree h (snd (fst x)) (snd x) /\
    repr lok_bin h h (bin_ops t) T /\ sel umem (h + 0) T 0 = snd x) l) as (Ts & E & HT).
  { eapply Forall_impl; [|exact Hl]. intros [[v e] s] Hx.
    destruct (bin_make_tree u h v e s Hh Hu H1 Hp H2 Hx) as (t & ? & ? & ?). exists t. split; eauto. }
  apply Forall2_split in HT. destruct HT as (ts & HA & HB).
  assert (HR : Forall2 (repr lok_bin h h) (map bin_ops Ts) ts).
  { apply Forall2_map_l. eapply Forall2_impl; [|exact HA]. cbn. intros t T (x & _ & _ & ? & _). auto. }
  assert (Hpl : runs = false -> Forall plain ts).
  { intros Hf. specialize (Hr Hf). apply Forall_forall. intros T HTi. apply In_nth_error in HTi. destruct HTi as (i & Ei).
    destruct (Forall2_nth _ _ _ _ _ _ _ HB Ei) as (x & Ex & (t & -> & _)).
    rewrite Forall_forall in Hr. rewrite (Hr x) by (eapply nth_error_In; eauto). apply tree_of_plain. }
  assert (Ln : length (map bin_ops Ts) = length l).
  { rewrite (Forall2_length HR), (Forall2_length HB). auto. }
  assert (Hsmall : 2 <= h \/ (hc <= 3)%N).
  { destruct Hsm as [Hsm|Hsm]; [left|right; exact Hsm]. apply Hk. change (2 < u)%N. lia. }
  destruct (par_calls lok_bin umem 0 h h Bin (map bin_ops Ts) ts true HR ltac:(lia)
    (bin_end h) (bin_tot h) ltac:(lia) ltac:(lia) (bin_last h) (bin_leaf h (map bin_ops Ts)) runs Hpl hc Hhc
    (bin_cut h H1 hc ltac:(lia) ltac:(lia) Hsmall true) s1 s2 V1 V2) as (r & cs & rs & c & Q1 & Q2 & Q3 & Q4 & Q5 & Q6).
  exists Ts, r, cs, rs, c. repeat (split; [assumption|]). split; [|assumption].
  assert (2 ^ N.log2 hc <= hc)%N by (apply N.log2_spec; lia). lia.
Qed.

Theorem fast_par_calls : forall u lw (l : list fitem) runs s1 s2 hc,
  fast_universe u lw -> 1 <= length l <= 16 -> Forall (fitem_ok u) l ->
  (runs = false -> Forall (fun x => f_enc x = false) l) ->
  (1 <= hc < 2 ^ 16)%N -> (2 ^ N.of_nat lw < u \/ hc = 1)%N -> valid_scheduler s1 -> valid_scheduler s2 ->
  exists Ts r cs rs c, each_ok (make_fitem u lw) l = Ok Ts /\
    Intersect_par_calls (Fast lw) s1 s2 hc (map fast_ops Ts) runs = Ok (r, cs) /\
    Intersect_calls (Fast lw) hc (map fast_ops Ts) runs = Ok (rs, c) /\
    NoDup (concat cs) /\ incl (concat cs) c /\ (N.of_nat (length cs) <= hc)%N /\
    (runs = false -> forall m p, In (m, p) c -> N.to_nat (N.log2 hc) < m -> In (m, p) (concat cs)).
Proof.
  intros u lw l runs s1 s2 hc (Hlw & Hu) Hn Hl Hr Hhc Hsm V1 V2.
  assert (H8 : (2 ^ N.of_nat 3 <= 2 ^ N.of_nat lw)%N).
  { apply N.pow_le_mono_r; [lia|]. cbn in Hlw. lia. }
  change (2 ^ N.of_nat 3)%N with 8%N in H8.
  destruct (height_of_spec u ltac:(lia)) as (h & Hh & H1 & Hp & H2 & Hk).
  assert (Hlh : lw <= h).
  { destruct lw as [|lw]; [lia|]. change (2 ^ N.of_nat (S lw))%N with (pow2 (S lw)) in Hu.
    rewrite pow2_S in Hu. assert (lw < h) by (apply Hk; lia). lia. }
  assert (H6 : lw <= 6) by (cbn in Hlw; lia).
  assert (Eh : h - lw + lw = h) by lia. set (d := h - lw) in *.
  destruct (each_ok_spec _ _ (make_fitem u lw) (fun x t => exists T, T = fast_tree lw d (f_enc x) (snd x) /\
    repr lok_fast d (S d) (fast_ops t) T /\ sel (wmem lw) (d + lw) T 0 = snd x) l) as (Ts & E & HT).
  { eapply Forall_impl; [|exact Hl]. intros [[[jh je] e] s] Hx.
    destruct (fast_make_tree u h lw jh je e s Hh H6 Hlh ltac:(lia) Hp Hx) as (t & ? & ? & ?). exists t. split; auto.
    eauto 6. }
  apply Forall2_split in HT. destruct HT as (ts & HA & HB).
  assert (HR : Forall2 (repr lok_fast d (S d)) (map fast_ops Ts) ts).
  { apply Forall2_map_l. eapply Forall2_impl; [|exact HA]. cbn. intros t T (x & _ & _ & ? & _). auto. }
  assert (Hpl : runs = false -> Forall plain ts).
  { intros Hf. specialize (Hr Hf). apply Forall_forall. intros T HTi. apply In_nth_error in HTi. destruct HTi as (i & Ei).
    destruct (Forall2_nth _ _ _ _ _ _ _ HB Ei) as (x & Ex & (t & -> & _)).
    rewrite Forall_forall in Hr. rewrite (Hr x) by (eapply nth_error_In; eauto). apply tree_of_plain. }
  assert (Ln : length (map fast_ops Ts) = length l).
  { rewrite (Forall2_length HR), (Forall2_length HB). auto. }
  assert (Hsmall : 1 <= d \/ hc = 1%N).
  { destruct Hsm as [Hsm|Hsm]; [left|right; exact Hsm]. assert (lw < h) by (apply Hk; exact Hsm). lia. }
  destruct (par_calls lok_fast (wmem lw) lw d (S d) (Fast lw) (map fast_ops Ts) ts false HR ltac:(lia)
    (fast_end lw d) (fast_tot lw d) ltac:(lia) ltac:(lia) (fast_last d) (fast_leaf lw d H6 (map fast_ops Ts)) runs Hpl hc Hhc
    (fast_cut d hc Hsmall true) s1 s2 V1 V2) as (r & cs & rs & c & Q1 & Q2 & Q3 & Q4 & Q5 & Q6).
  exists Ts, r, cs, rs, c. repeat (split; [assumption|]). split; [|assumption].
  assert (2 ^ N.log2 hc <= hc)%N by (apply N.log2_spec; lia). lia.
Qed.

Lemma par_calls_agree : forall k s1 s2 hc Ts runs r cs, Intersect_par_calls k s1 s2 hc Ts runs = Ok (r, cs) ->
  Intersect k s1 s2 hc Ts runs true = Ok r.
Proof. intros k s1 s2 hc Ts runs r cs H. rewrite <- par_calls_erase, H. reflexivity. Qed.

Theorem bin_par_bound : forall u (l : list bitem) runs s1 s2 hc,
  (2 <= u <= 2 ^ 48)%N -> 1 <= length l <= 16 -> Forall (bitem_ok u) l ->
  (runs = false -> Forall (fun x : bitem => snd (fst x) = false) l) ->
  (1 <= hc < 2 ^ 16)%N -> (3 <= u \/ hc <= 3)%N -> valid_scheduler s1 -> valid_scheduler s2 ->
  exists Ts r cs, each_ok (make_bitem u) l = Ok Ts /\
    Intersect_par_calls Bin s1 s2 hc (map bin_ops Ts) runs = Ok (r, cs) /\
    Intersect Bin s1 s2 hc (map bin_ops Ts) runs true = Ok r /\
    NoDup (concat cs) /\
    (forall m p, In (m, p) (concat cs) -> exists b q, call_at (digits u) m p b q /\ common_prefix (map snd l) b q /\
       (m = 0 \/ ~ Forall (fun x => bin_run x b p) l)) /\
    Forall (fun s => length (concat cs) <= 1 + digits u * length s) (map snd l).
Proof.
  intros u l runs s1 s2 hc Hu Hn Hl Hr Hhc Hsm V1 V2.
  destruct (bin_par_calls u l runs s1 s2 hc Hu Hn Hl Hr Hhc Hsm V1 V2) as (Ts & r & cs & rs & c & E & Ep & Ec & Nd & Hi & _).
  destruct (bin_calls u l runs s1 s2 hc Hu Hn Hl Hr ltac:(lia)) as (Ts' & r' & c' & E' & Ec' & _ & _ & _ & Hin & Hb).
  assert (Ts' = Ts) by congruence. subst Ts'. assert (c' = c) by congruence. subst c'.
  exists Ts, r, cs. split; auto. split; auto. split; [eapply par_calls_agree; eauto|]. split; auto. split.
  - intros m p H. apply Hin. auto.
  - eapply Forall_impl; [|exact Hb]. cbn beta. intros s Hs. assert (K := NoDup_incl_length Nd Hi). lia.
Qed.

Theorem fast_par_bound : forall u lw (l : list fitem) runs s1 s2 hc,
  fast_universe u lw -> 1 <= length l <= 16 -> Forall (fitem_ok u) l ->
  (runs = false -> Forall (fun x => f_enc x = false) l) ->
  (1 <= hc < 2 ^ 16)%N -> (2 ^ N.of_nat lw < u \/ hc = 1)%N -> valid_scheduler s1 -> valid_scheduler s2 ->
  exists Ts r cs, each_ok (make_fitem u lw) l = Ok Ts /\
    Intersect_par_calls (Fast lw) s1 s2 hc (map fast_ops Ts) runs = Ok (r, cs) /\
    Intersect (Fast lw) s1 s2 hc (map fast_ops Ts) runs true = Ok r /\
    NoDup (concat cs) /\
    (forall m p, In (m, p) (concat cs) -> exists b q, call_at (digits u) m p b q /\ lw <= b /\ common_prefix (map snd l) b q /\
       (m = 0 \/ ~ Forall (fun x => fast_run x b p) l)) /\
    Forall (fun s => length (concat cs) <= 1 + (digits u - lw) * length s) (map snd l).
Proof.
  intros u lw l runs s1 s2 hc Hu Hn Hl Hr Hhc Hsm V1 V2.
  destruct (fast_par_calls u lw l runs s1 s2 hc Hu Hn Hl Hr Hhc Hsm V1 V2) as (Ts & r & cs & rs & c & E & Ep & Ec & Nd & Hi & _).
  destruct (fast_calls u lw l runs s1 s2 hc Hu Hn Hl Hr ltac:(lia)) as (Ts' & r' & c' & E' & Ec' & _ & _ & _ & Hin & Hb).
  assert (Ts' = Ts) by congruence. subst Ts'. assert (c' = c) by congruence. subst c'.
  exists Ts, r, cs. split; auto. split; auto. split; [eapply par_calls_agree; eauto|]. split; auto. split.
  - intros m p H. apply Hin. auto.
  - eapply Forall_impl; [|exact Hb]. cbn beta. intros s Hs. assert (K := NoDup_incl_length Nd Hi). lia.
Qed.
