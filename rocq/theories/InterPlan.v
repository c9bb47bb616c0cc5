(** The planning phase of the parallel intersection: the tasks handed to the
    threads cover the whole intersection. *)

From Coq Require Import Permutation.
From Verif Require Import Base FlatTrie LevelTrie FastTrie ParallelFor Intersection Facts Tree Reps
  InterSpec InterSeq InterPar.

Lemma n_tries_small : forall n, (N.of_nat n < 2 ^ 16)%N -> n_tries n = n.
Proof. intros n H. unfold n_tries, wrap16. rewrite N.mod_small by auto. lia. Qed.

Lemma n_tries_16 : forall n, n <= 16 -> n_tries n = n.
Proof. intros n H. apply n_tries_small. change (2 ^ 16)%N with 65536%N. lia. Qed.

Lemma wrap32_sub : forall a b, (b <= a)%N -> (a < 2 ^ 32)%N -> wrap32 (a + 2 ^ 32 - b) = (a - b)%N.
Proof.
  intros. unfold wrap32. replace (a + 2 ^ 32 - b)%N with ((a - b) + 1 * 2 ^ 32)%N by lia.
  rewrite N.mod_add by discriminate. apply N.mod_small. lia.
Qed.

Lemma wrap16_sub : forall a b, (b <= a)%N -> (a - b < 2 ^ 16)%N -> wrap16 (a + 2 ^ 64 - b) = (a - b)%N.
Proof.
  intros. unfold wrap16. replace (a + 2 ^ 64 - b)%N with ((a - b) + 2 ^ 48 * 2 ^ 16)%N by lia.
  rewrite N.mod_add by discriminate. apply N.mod_small. auto.
Qed.

Lemma Forall2_length : forall X Y (P : X -> Y -> Prop) a b, Forall2 P a b -> length a = length b.
Proof. intros X Y P a b H. induction H; cbn; auto. Qed.
Arguments Forall2_length {X Y P a b}.

Lemma Forall2_nth : forall X Y (P : X -> Y -> Prop) a b i x, Forall2 P a b -> nth_error a i = Some x ->
  exists y, nth_error b i = Some y /\ P x y.
Proof.
  intros X Y P a b i x H; revert i. induction H; intros [|i] E; cbn in *; try discriminate; eauto.
  inversion E; subst. eauto.
Qed.

Lemma perm_six : forall X (x1 x2 x3 x4 x5 x6 : list X),
  Permutation (x1 ++ x2 ++ x3 ++ x4 ++ x5 ++ x6) (x5 ++ x2 ++ x6 ++ x4 ++ x1 ++ x3).
Proof.
  intros. transitivity (x5 ++ x1 ++ x2 ++ x3 ++ x4 ++ x6).
  { rewrite (Permutation_app_swap_app x4 x5), (Permutation_app_swap_app x3 x5),
      (Permutation_app_swap_app x2 x5). apply Permutation_app_swap_app. }
  apply Permutation_app_head. rewrite (Permutation_app_swap_app x1 x2). apply Permutation_app_head.
  transitivity ((x1 ++ x3) ++ (x6 ++ x4)).
  { rewrite <- app_assoc. do 2 apply Permutation_app_head. apply Permutation_app_comm. }
  rewrite Permutation_app_comm. rewrite <- !app_assoc. auto.
Qed.

Section Plan.
  Context {A : Type}.
  Variable k : kind.
  Variable Ts : list trie_ops.
  Variable maxLevel : nat.
  Variable lmem : A -> N -> bool.
  Variable lg D : nat.
  Variable leafok : nat -> nat -> A -> Prop.
  Variable noroot : bool.

  Notation n := (length Ts).
  Notation okf := (okf Ts leafok noroot).
  Notation plains := (plains Ts (A := A)).
  Notation actok := (actok Ts (A := A)).

  Hypothesis Hn : n <= 16.
  Hypothesis Hn1 : 1 <= n.
  Hypothesis Htot : total_bits k maxLevel = D + lg.
  Hypothesis Hbits : D + lg < 64.
  Hypothesis Hlast : forall lvl, lvl < D -> S lvl = maxLevel -> noroot = true /\ S lvl = D.

  Notation inter := (inter lmem lg n).
  Variable runs trk : bool.

  Notation task_ok := (task_ok Ts lg D leafok noroot runs trk).
  Notation acts_ok := (acts_ok Ts runs (A := A)).
  Notation ginter := (ginter Ts lmem lg D).
  Notation noruns_f := (noruns_f Ts (A := A)).
  Notation mixed := (mixed Ts lg (A := A)).
  Notation walk := (walk Ts lg runs (A := A)).
  Notation emits := (emits Ts lmem lg D leafok noroot runs trk).

  Variable cut : nat.
  Variable nThreads : N.
  Hypothesis HnT : nThreads = pow2 cut.
  Hypothesis Hcut15 : cut <= 15.
  Hypothesis HcutD : cut <= D.
  Hypothesis Hdeep : S cut <= D \/ (nThreads <= 2)%N.

  Lemma nT_bound : (nThreads <= 32768)%N.
  Proof. rewrite HnT. apply (N.pow_le_mono_r 2 _ 15); lia. Qed.

  (** The tasks taken one level further: what is pushed meanwhile, the new tasks and
      the tasks that stay as they are, when [made] tasks have been made before. *)
  Fixpoint expand (tl : list (ghost A)) (made : nat) : list N * list (ghost A) * list (ghost A) :=
    match tl with
    | [] => ([], [], [])
    | g :: tl' =>
      if N.ltb 1 (nThreads - N.of_nat (length tl + made)) then
        let w := walk 1 (D - cut) (fst g) (snd g) in
        let e := expand tl' (made + length (snd w)) in
        (fst w ++ fst (fst e), snd w ++ snd (fst e), snd e)
      else ([], [], tl)
    end.

  Section Fill.
    Variables (gs0 : list (ghost A)) (rts0 : list (harr nat)) (acts0 : list (harr bool)).
    Hypothesis Hgs : Forall2 (task_ok cut) gs0 rts0.
    Hypothesis Has : acts_ok gs0 acts0.
    Notation total := (length gs0).

    Lemma fill_loop_spec : forall tl pre used st fuel,
      gs0 = pre ++ tl -> length tl <= fuel ->
      used = N.of_nat (length tl + length (pa_roots st)) -> (used <= nThreads)%N ->
      (S cut <= D \/ (nThreads <= 2 /\ 1 <= used)%N) ->
      exists t1 t2 gs rts acts newr Z m,
        tl = t1 ++ t2 /\
        fill_loop k Ts n maxLevel runs fuel cut nThreads total (map snd gs0) rts0 acts0
          (length pre) used st
        = Ok (length pre + length t1, N.of_nat (length t2 + length (pa_roots st ++ rts)),
              mkPA (pa_r st ++ newr) (pa_ints st ++ map snd gs) (pa_roots st ++ rts)
                   (pa_active st ++ acts) (mkMem (m_next (pa_mem st) + m) (m_freed (pa_mem st)))) /\
        Forall2 (task_ok (S cut)) gs rts /\ acts_ok gs acts /\
        Permutation (map fst rts ++ map fst acts) (seq (m_next (pa_mem st)) m) /\
        (N.of_nat (length t2 + length (pa_roots st ++ rts)) <= nThreads)%N /\
        Permutation (newr ++ concat (map (ginter (S cut)) gs) ++ Z) (concat (map (ginter cut) t1)) /\
        (trk = true -> forall x, In x Z -> exists g, In g t1 /\ In x (ginter cut g) /\ mixed 1 (D - cut) (fst g) x) /\
        (Forall (fun g => noruns_f 1 (fst g)) tl ->
          newr = [] /\ Z = [] /\ concat (map (ginter (S cut)) gs) = concat (map (ginter cut) t1)) /\
        ((nThreads <= 2)%N -> (1 <= used)%N -> t1 = []) /\
        (gs <> [] -> S cut <= D) /\
        expand tl (length (pa_roots st)) = (newr, gs, t2).
    Proof.
      assert (Hb := nT_bound).
      induction tl as [|g tl IH]; intros pre used st fuel Eg Hf Hu Hle Hd.
      - exists [], [], [], [], [], [], [], 0.
        assert (Et : total = length pre) by (rewrite Eg, app_nil_r; auto).
        split; auto. split.
        + destruct fuel; cbn [fill_loop]; rewrite Et, Nat.ltb_irrefl, andb_false_r;
          destruct st as [r ints rts acts [nx fr]]; cbn; rewrite !app_nil_r, !Nat.add_0_r, Hu; auto.
        + repeat split; auto; try apply acts_ok_nil; try congruence; [|intros _ x []].
          cbn [app]. rewrite app_nil_r. cbn [length Nat.add] in Hu. cbn [length Nat.add]. lia.
      - destruct fuel as [|fuel]; [cbn in Hf; lia|]. cbn [fill_loop].
        rewrite wrap32_sub by (auto; lia).
        assert (Et : total = length pre + S (length tl)) by (rewrite Eg, app_length; auto).
        replace (length pre <? total) with true by (symmetry; apply Nat.ltb_lt; lia).
        rewrite andb_true_r. destruct (N.ltb_spec 1 (nThreads - used)) as [Hlt|Hge].
        + assert (HD : S cut <= D) by lia.
          assert (Eg' : nth_error gs0 (length pre) = Some g)
            by (rewrite Eg, nth_error_app2, Nat.sub_diag by auto; auto).
          destruct (Forall2_nth _ _ _ _ _ _ _ Hgs Eg') as (rt & Er & (K1 & K2 & K3 & K4 & K5)).
          rewrite (vget_nth _ _ _ _ Er). cbn [bind].
          assert (Ha : exists act, (if runs then let* a := vget acts0 (length pre) in Ok (snd a)
                                    else Ok init_active) = Ok act /\ (runs = true -> actok act (fst g))).
          { unfold InterPar.acts_ok in Has. destruct runs.
            - destruct (Forall2_nth _ _ _ _ _ _ _ Has Eg') as (a & Ea & Ha).
              exists (snd a). split; auto. rewrite (vget_nth (harr bool) acts0 _ a Ea). auto.
            - eexists; split; [reflexivity|]. discriminate. }
          destruct Ha as (act & -> & Hact). cbn [bind].
          rewrite (vget_nth _ (map snd gs0) (length pre) (snd g)) by (apply map_nth_error; auto).
          cbn [bind].
          destruct (partialAND_spec k Ts maxLevel lmem lg D leafok noroot Hn Hn1 Htot Hbits Hlast runs trk
                      1 (D - cut) cut (snd rt) act (fst g) (snd g) st (S (S cut)))
            as (st1 & E1 & (gs1 & rts1 & acts1 & newr1 & Z1 & m1 & -> & F1 & A1 & P1 & L1 & I1 & T1 & X1 & WK1));
            auto; try lia.
          replace (cut + 1) with (S cut) in * by lia. rewrite E1. cbn [bind pa_roots].
          assert (Lr : length rts1 = length gs1) by (symmetry; eapply Forall2_length; eauto).
          change (2 ^ 1) with 2 in L1.
          cbn [length] in Hu.
          assert (Ls : length (pa_roots st ++ rts1) = length (pa_roots st) + length gs1)
            by (rewrite app_length; lia).
          rewrite Ls. rewrite wrap16_sub by lia.
          replace (S (length pre)) with (length (pre ++ [g])) by (rewrite app_length; cbn; lia).
          match goal with |- context [fill_loop _ _ _ _ _ fuel _ _ _ _ _ _ _ ?u ?s] =>
            destruct (IH (pre ++ [g]) u s fuel)
              as (t1 & t2 & gs & rts & acts & newr & Z & m & E2 & E3 & F2 & A2 & P2 & L2 & I2 & M2 & X2 & Y2 & W2 & K2')
          end.
          { rewrite <- app_assoc. auto. }
          { cbn in Hf; lia. }
          { cbn [pa_roots]. rewrite Ls, app_length. cbn [length]. lia. }
          { rewrite app_length. cbn [length]. lia. }
          { auto. }
          cbn [pa_r pa_ints pa_roots pa_active pa_mem m_next m_freed] in *.
          exists (g :: t1), t2, (gs1 ++ gs), (rts1 ++ rts), (acts1 ++ acts), (newr1 ++ newr), (Z1 ++ Z), (m1 + m).
          split; [cbn; congruence|]. split.
          { rewrite E3. rewrite <- !app_assoc, map_app, !Nat.add_assoc.
            do 3 f_equal. rewrite app_length. cbn. lia. }
          split; [apply Forall2_app; auto|]. split; [apply acts_ok_app; auto|]. split.
          { rewrite !map_app, seq_app. apply perm_two; auto. }
          split; [rewrite <- app_assoc in L2; auto|]. split.
          { rewrite map_app, concat_app. cbn [map concat]. apply perm_join; auto. }
          split.
          { intros Htk x Hx. apply in_app_or in Hx. destruct Hx as [Hx|Hx].
            - exists g. split; [left; auto|]. split; [|apply T1; auto].
              apply (Permutation_in _ I1). rewrite !in_app_iff. auto.
            - destruct (M2 Htk x Hx) as (g' & Hg' & ?). exists g'. split; [right; auto|auto]. }
          split.
          { intros HF. inversion HF; subst. destruct (X1 0) as (-> & -> & C1 & _); auto.
            destruct X2 as (-> & -> & C2); auto. repeat split; auto.
            rewrite map_app, concat_app. cbn [map concat]. apply f_equal2; auto. }
          split; [intros; lia|]. split; [auto|].
          cbn [expand length]. replace (N.of_nat (S (length tl) + length (pa_roots st))) with used by lia.
          destruct (N.ltb_spec 1 (nThreads - used)) as [_|?]; [|lia].
          rewrite WK1. cbn [fst snd]. rewrite Ls in K2'. rewrite K2'. reflexivity.
        + exists [], (g :: tl), [], [], [], [], [], 0.
          split; auto. split.
          { destruct st as [r ints rts acts [nx fr]]; cbn; rewrite !app_nil_r, !Nat.add_0_r.
            cbn [length pa_roots Nat.add] in Hu. rewrite Hu. auto. }
          repeat split; auto; try apply acts_ok_nil; try congruence; [|intros _ x []|].
          { rewrite app_nil_r. lia. }
          cbn [expand]. rewrite <- Hu. destruct (N.ltb_spec 1 (nThreads - used)) as [?|_]; [lia|reflexivity].
    Qed.
  End Fill.

  Variable X : forest (A := A).
  Hypothesis HX : okf D 0 init_roots X.
  Hypothesis Hs : somes Ts X.
  Hypothesis Hpl : runs = false -> trk = true -> plains X.

  Notation I := (inter D X 0%N).

  Definition tinter (lt : nat * ghost A) : list N := ginter (fst lt) (snd lt).

  (** Which common values are dropped: those with a mixed level above the cut, and
      possibly some with a mixed level at the cut. *)
  Definition lost_ok (Z : list N) : Prop :=
    (forall x, In x Z -> mixed (S cut) D X x) /\ (forall x, In x I -> mixed cut D X x -> In x Z).

  (** What is pushed while planning, and the tasks with their levels. *)
  Definition plan_pushed : list N :=
    let w := walk cut D X 0%N in fst w ++ fst (fst (expand (snd w) 0)).
  Definition plan_tasks : list (nat * ghost A) :=
    let e := expand (snd (walk cut D X 0%N)) 0 in map (pair (S cut)) (snd (fst e)) ++ map (pair cut) (snd e).

  (** The number of tasks that are divided, and of arrays made for a task. *)
  Definition plan_divided : nat :=
    let w := walk cut D X 0%N in length (snd w) - length (snd (expand (snd w) 0)).
  Definition per_task : nat := if runs then 2 else 1.

  (** The vector returned. *)
  Definition outcome : list N :=
    let w := walk cut D X 0%N in
    let e := expand (snd w) 0 in
    fst w ++ fst (fst e) ++ concat (map (ginter (S cut)) (snd (fst e))) ++ concat (map (ginter cut) (snd e)).

  Lemma outcome_plan : plan_pushed ++ concat (map tinter plan_tasks) = outcome.
  Proof.
    clear. unfold plan_pushed, plan_tasks, outcome.
    rewrite map_app, !map_map, concat_app, <- !app_assoc. reflexivity.
  Qed.

  Definition work_ok (used : nat) (levels : list nat) (st : pa_state) : Prop :=
    exists gl Z leaked,
      used = length gl /\ 1 <= used /\ (N.of_nat used <= nThreads)%N /\
      levels = map fst gl /\ Forall (fun lt => fst lt <= D) gl /\
      pa_ints st = map snd (map snd gl) /\
      Forall2 (fun lt rt => task_ok (fst lt) (snd lt) rt) gl (pa_roots st) /\
      acts_ok (map snd gl) (pa_active st) /\
      m_freed (pa_mem st) = [] /\
      Permutation ((map fst (pa_roots st) ++ map fst (pa_active st)) ++ leaked)
                  (seq 0 (m_next (pa_mem st))) /\
      ((nThreads <= 2)%N -> leaked = []) /\
      Permutation (pa_r st ++ concat (map tinter gl) ++ Z) I /\ (trk = true -> lost_ok Z) /\
      (noruns_f (S cut) X -> pa_r st = [] /\ Z = [] /\ concat (map tinter gl) = I) /\
      pa_r st = plan_pushed /\ gl = plan_tasks /\ length leaked = per_task * plan_divided.

  Definition done_ok (r : list N) (m : Intersection.mem) : Prop :=
    (exists Z, Permutation (r ++ Z) I /\ (trk = true -> lost_ok Z)) /\ (noruns_f (S cut) X -> r = I) /\ m_freed m = [] /\
    ((nThreads <= 2)%N -> m_next m = 0) /\ r = plan_pushed /\ plan_tasks = [] /\
    m_next m = per_task * plan_divided.

  Lemma init_cells : forall Y (v : Y), @cells Ts Y (repeat (Some v) 16).
  Proof.
    intros Y v i Hi. exists v. apply aget_Some. apply nth_error_repeat. lia.
  Qed.

  Lemma map_pair : forall (l : nat) (gs : list (ghost A)),
    map tinter (map (pair l) gs) = map (ginter l) gs.
  Proof. intros. rewrite map_map. auto. Qed.

  Theorem par_plan_spec :
    (exists r m, par_plan k Ts n maxLevel runs cut nThreads = Ok (Done r m) /\ done_ok r m) \/
    (exists used levels st, par_plan k Ts n maxLevel runs cut nThreads = Ok (Work used levels st) /\
       work_ok used levels st).
  Proof.
    assert (Hb := nT_bound). unfold par_plan.
    destruct (partialAND_spec k Ts maxLevel lmem lg D leafok noroot Hn Hn1 Htot Hbits Hlast runs trk
                cut D 0 init_roots init_active X 0%N (mkPA [] [] [] [] (mkMem 0 [])) (S cut))
      as (st0 & E0 & (gs0 & rts0 & acts0 & newr0 & Z0 & m0 & -> & F0 & A0 & P0 & L0 & I0 & T & X0 & WK0));
      auto using aligned_0; try lia.
    { apply init_cells. }
    { intros _ i Hi. rewrite (aget_Some _ _ _ true).
      - specialize (Hs i Hi). destruct (X i); auto. congruence.
      - apply nth_error_repeat. lia. }
    cbn [Nat.add] in *. rewrite E0. cbn [bind pa_roots pa_r pa_ints pa_active pa_mem m_next m_freed app] in *.
    assert (Lr : length rts0 = length gs0) by (symmetry; eapply Forall2_length; eauto).
    assert (Ht : (N.of_nat (length rts0) <= nThreads)%N).
    { rewrite Lr, HnT. unfold pow2. replace 2%N with (N.of_nat 2) by auto.
      rewrite <- Nat2N.inj_pow. lia. }
    destruct (Nat.eqb_spec (length rts0) 0) as [E|E].
    { left. do 2 eexists; split; [reflexivity|].
      assert (gs0 = []) by (destruct gs0; cbn in *; auto; lia). subst gs0.
      cbn [map concat app] in *.
      assert (M0 : m0 = 0).
      { inversion F0; subst.
        assert (acts0 = []).
        { unfold InterPar.acts_ok in A0. destruct runs; auto. inversion A0; auto. }
        subst. cbn [map app] in P0. destruct m0; auto. apply Permutation_length in P0. cbn in P0. lia. }
      split; [|split; [|split; [|split; [|split; [unfold plan_pushed; rewrite WK0; cbn; rewrite app_nil_r; auto|
        split; [unfold plan_tasks; rewrite WK0; auto|]]]]]].
      - exists Z0. split; auto. intros Htk. destruct (T Htk) as (T1 & T2 & T3). split; auto. intros x Hx. apply mixed_mono with (c := cut); auto.
      - intros HN. destruct (X0 1) as (-> & -> & C & _); auto.
        replace (cut + 1) with (S cut) by lia. auto.
      - auto.
      - intros _. exact M0.
      - cbn [m_next]. unfold plan_divided. rewrite WK0. cbn. lia. }
    unfold wrap16. rewrite N.mod_small by lia. rewrite Nat2N.id, Lr. cbn [Nat.add].
    match goal with |- context [fill_loop _ _ _ _ _ _ _ _ _ _ _ _ _ ?u ?s] =>
      destruct (fill_loop_spec gs0 rts0 acts0 F0 A0 gs0 [] u s (S (length gs0)))
        as (t1 & t2 & gs & rts & acts & newr & Z & m & E2 & E3 & F2 & A2 & P2 & L2 & I2 & M2 & X2 & Y2 & W2 & WK2)
    end; auto; try lia.
    cbn [pa_roots length] in WK2.
    cbn [length Nat.add] in E3. rewrite E3. clear E3.
    cbn [bind pa_roots pa_r pa_ints pa_active pa_mem m_next m_freed app] in *.
    assert (Et : length gs0 - length t1 = length t2) by (rewrite E2, app_length; lia).
    rewrite Et.
    (* the loop that appends the tasks that were not expanded *)
    assert (Hr0 : exists r1 r2, rts0 = r1 ++ r2 /\ Forall2 (task_ok cut) t1 r1 /\ Forall2 (task_ok cut) t2 r2).
    { rewrite E2 in F0. apply Forall2_app_inv_l in F0. destruct F0 as (r1 & r2 & ? & ? & ?). eauto. }
    destruct Hr0 as (r1 & r2 & Er & Fr1 & Fr2).
    assert (Ha0 : exists a1 a2, acts0 = a1 ++ a2 /\ acts_ok t1 a1 /\ acts_ok t2 a2).
    { unfold InterPar.acts_ok in *. destruct runs.
      - rewrite E2 in A0. apply Forall2_app_inv_l in A0. destruct A0 as (a1 & a2 & ? & ? & ?). eauto.
      - exists [], []. subst. auto. }
    destruct Ha0 as (a1 & a2 & Ea & Fa1 & Fa2).
    assert (LL1 : length t1 = length r1) by (eapply Forall2_length; eauto).
    assert (LL2 : length t2 = length r2) by (eapply Forall2_length; eauto).
    set (M := mkMem (m0 + m) []).
    match goal with |- context [for_loop _ _ ?f _] => set (body := f) end.
    assert (HL : for_loop (length t2) (length t1) body
                   (repeat (S cut) (length rts), mkPA (newr0 ++ newr) (map snd gs) rts acts M)
                 = Ok (repeat (S cut) (length rts) ++ repeat cut (length t2),
                       mkPA (newr0 ++ newr) (map snd gs ++ map snd t2) (rts ++ r2) (acts ++ a2) M)).
    { unfold body. clear body.
      loop_inv (fun j (s : list nat * pa_state) => exists c, j = length t1 + c /\
        s = (repeat (S cut) (length rts) ++ repeat cut c,
             mkPA (newr0 ++ newr) (map snd gs ++ map snd (firstn c t2)) (rts ++ firstn c r2)
                  (acts ++ firstn c a2) M)) LI.
      destruct LI as (s & E' & (c & Ec & Es)).
      - exists 0. cbn. rewrite Nat.add_0_r, !app_nil_r. auto.
      - intros j s Hj (c & -> & ->). assert (Hc : c < length t2) by lia.
        destruct (nth_error t2 c) as [g|] eqn:Eg; [|apply nth_error_None in Eg; lia].
        destruct (nth_error r2 c) as [rt|] eqn:Ert; [|apply nth_error_None in Ert; lia].
        rewrite (vget_nth _ rts0 _ rt) by (rewrite Er, nth_error_app2 by lia;
          replace (length t1 + c - length r1) with c by lia; auto). cbn [bind].
        assert (Hact : exists a, (if runs then let* a := vget acts0 (length t1 + c) in Ok [a] else Ok []) = Ok a
                  /\ firstn (S c) a2 = firstn c a2 ++ a).
        { unfold InterPar.acts_ok in Fa1, Fa2. destruct runs.
          - assert (Q1 := Forall2_length Fa1). assert (Q2 := Forall2_length Fa2).
            destruct (nth_error a2 c) as [a|] eqn:Eac; [|apply nth_error_None in Eac; lia].
            rewrite (vget_nth _ acts0 _ a) by (rewrite Ea, nth_error_app2 by lia;
              replace (length t1 + c - length a1) with c by lia; auto). cbn [bind].
            exists [a]. split; auto.
            apply nth_error_split in Eac. destruct Eac as (x & y & -> & <-).
            rewrite !firstn_app, Nat.sub_diag, firstn_all, firstn_all2 by lia.
            replace (S (length x) - length x) with 1 by lia. cbn. rewrite app_nil_r. auto.
          - subst a2. exists []. rewrite !firstn_nil. auto. }
        destruct Hact as (a & -> & Ea2). cbn [bind].
        rewrite (vget_nth _ (map snd gs0) _ (snd g)).
        2:{ apply map_nth_error. rewrite E2, nth_error_app2 by lia.
            replace (length t1 + c - length t1) with c by lia. auto. }
        cbn [bind]. eexists; split; [reflexivity|]. exists (S c). split; [lia|].
        cbn [pa_r pa_ints pa_roots pa_active pa_mem].
        assert (R1 : repeat cut (S c) = repeat cut c ++ [cut]).
        { rewrite <- (Nat.add_1_r c), repeat_app. auto. }
        assert (R2 : firstn (S c) r2 = firstn c r2 ++ [rt]).
        { apply nth_error_split in Ert. destruct Ert as (x & y & -> & <-).
          rewrite !firstn_app, Nat.sub_diag, firstn_all, firstn_all2 by lia.
          replace (S (length x) - length x) with 1 by lia. cbn. rewrite app_nil_r. auto. }
        assert (R3 : map snd (firstn (S c) t2) = map snd (firstn c t2) ++ [snd g]).
        { apply nth_error_split in Eg. destruct Eg as (x & y & -> & <-).
          rewrite !firstn_app, Nat.sub_diag, firstn_all, firstn_all2 by lia.
          replace (S (length x) - length x) with 1 by lia. cbn. rewrite app_nil_r, map_app. auto. }
        rewrite R1, R2, R3, Ea2, !app_assoc. auto.
      - assert (c = length t2) by lia. subst c s. rewrite E'.
        rewrite firstn_all, (firstn_all2 r2) by lia.
        rewrite (firstn_all2 a2); auto.
        unfold InterPar.acts_ok in Fa2. destruct runs; [|subst; cbn; lia].
        apply Forall2_length in Fa2. lia. }
    rewrite HL. clear HL. cbn [bind pa_roots pa_r pa_mem].
    assert (Lrs : length rts = length gs) by (symmetry; eapply Forall2_length; eauto).
    assert (Nr : noruns_f (S cut) X -> newr0 = [] /\ Z0 = [] /\ newr = [] /\ Z = [] /\
                 concat (map (ginter (S cut)) gs) ++ concat (map (ginter cut) t2) = I).
    { intros HN. destruct (X0 1) as (-> & -> & C & G1). { replace (cut + 1) with (S cut) by lia; auto. }
      destruct (X2 G1) as (-> & -> & C2). repeat split; auto. rewrite C2, <- concat_app, <- map_app, <- E2. auto. }
    assert (Pm : Permutation ((newr0 ++ newr) ++ (concat (map (ginter (S cut)) gs) ++ concat (map (ginter cut) t2))
                   ++ (Z ++ Z0)) I).
    { rewrite <- I0, E2, map_app, concat_app, <- I2. rewrite <- !app_assoc.
      apply Permutation_app_head. apply Permutation_app_head. apply Permutation_app_head.
      apply Permutation_app_swap_app. }
    assert (LO : trk = true -> lost_ok (Z ++ Z0)).
    { intros Htk. destruct (T Htk) as (T1 & T2 & T3). split.
      - intros x Hx. apply in_app_or in Hx. destruct Hx as [Hx|Hx].
        + destruct (M2 Htk x Hx) as (g & Hg & Hi & Hm). rewrite <- (Nat.add_1_r cut).
          apply (T3 1 g x); auto. rewrite E2. apply in_or_app; auto.
        + apply mixed_mono with (c := cut); auto.
      - intros x Hi Hm. apply in_or_app. auto. }
    destruct (Nat.eqb_spec (length (rts ++ r2)) 0) as [E4|E4].
    { left. do 2 eexists; split; [reflexivity|].
      rewrite app_length in E4.
      assert (gs = []) by (destruct gs; cbn in *; auto; lia).
      assert (t2 = []) by (destruct t2; cbn in *; auto; lia). subst gs t2.
      cbn [map concat app] in *. split; [eauto|]. split; [|split; [|split; [|split; [|split]]]].
      - intros HN. destruct (Nr HN) as (-> & -> & -> & -> & C). auto.
      - auto.
      - intros H2. exfalso. rewrite Y2 in E2; auto; try lia.
        rewrite E2 in Lr. cbn in Lr. lia.
      - unfold plan_pushed. rewrite WK0. cbn [fst snd]. rewrite WK2. auto.
      - unfold plan_tasks. rewrite WK0. cbn [fst snd]. rewrite WK2. auto.
      - subst M. cbn [m_next]. unfold plan_divided. rewrite WK0. cbn [fst snd]. rewrite WK2. cbn [snd length].
        rewrite Nat.sub_0_r.
        assert (m = 0).
        { assert (rts = []) by (destruct rts; auto; discriminate Lrs). subst rts.
          assert (acts = []).
          { unfold InterPar.acts_ok in A2. destruct runs; auto. inversion A2; auto. }
          subst acts. cbn [map app] in P2. destruct m; auto. apply Permutation_length in P2. cbn in P2. lia. }
        subst m. apply Permutation_length in P0. rewrite app_length, !map_length, seq_length in P0.
        rewrite Nat.add_0_r, <- P0. transitivity (length gs0 + length acts0); [f_equal; exact Lr|].
        unfold per_task. clear - A0. unfold InterPar.acts_ok in A0.
        destruct runs; [apply Forall2_length in A0; lia|subst; cbn; lia]. }
    right. do 3 eexists; split; [reflexivity|].
    exists (map (pair (S cut)) gs ++ map (pair cut) t2), (Z ++ Z0), (map fst r1 ++ map fst a1).
    cbn [pa_ints pa_roots pa_active pa_r pa_mem m_freed m_next].
    assert (Lg : length (map (pair (S cut)) gs ++ map (pair cut) t2) = length t2 + length rts).
    { rewrite app_length, !map_length. lia. }
    assert (MS : forall l (g : list (ghost A)), map (@snd nat (ghost A)) (map (pair l) g) = g).
    { intros. rewrite map_map. apply map_id. }
    assert (MF : forall l (g : list (ghost A)), map (@fst nat (ghost A)) (map (pair l) g) = repeat l (length g)).
    { intros l g. rewrite map_map. cbn. induction g; cbn; auto. f_equal. auto. }
    rewrite (map_app (@snd nat (ghost A))), !MS, (map_app (@fst nat (ghost A))), !MF, Lrs.
    split; [rewrite Nat2N.id, Lg; lia|]. split; [rewrite Nat2N.id; rewrite app_length in E4; lia|].
    split; [rewrite N2Nat.id, <- Lrs; auto|]. split; [auto|]. split.
    { apply Forall_app. split; apply Forall_map; apply Forall_forall; intros g Hg; cbn; auto.
      apply W2. destruct gs; [destruct Hg|discriminate]. }
    split; [rewrite map_app; auto|]. split.
    { apply Forall2_app.
      - clear - F2. induction F2; cbn; auto.
      - clear - Fr2. induction Fr2; cbn; auto. }
    split; [apply acts_ok_app; auto|]. split; auto. split.
    { rewrite !map_app. subst M. cbn [m_next Nat.add].
      rewrite seq_app. rewrite <- P0, <- P2. rewrite Er, Ea, !map_app. cbn [Nat.add].
      rewrite <- !app_assoc.
      set (x1 := map fst rts). set (x2 := map fst r2). set (x3 := map fst acts). set (x4 := map fst a2).
      set (x5 := map fst r1). set (x6 := map fst a1).
      apply perm_six. }
    split.
    { intros H2. rewrite Y2 in LL1, Fa1; auto; try lia. cbn in LL1. destruct r1; [|discriminate].
      unfold InterPar.acts_ok in Fa1. destruct runs; [|subst; auto]. inversion Fa1. auto. }
    split.
    { rewrite map_app, !map_pair, concat_app. auto. }
    split; auto. split.
    { intros HN. destruct (Nr HN) as (-> & -> & -> & -> & C). repeat split; auto.
      rewrite map_app, !map_pair, concat_app. auto. }
    unfold plan_pushed, plan_tasks, plan_divided. rewrite WK0. cbn [fst snd]. rewrite WK2. cbn [fst snd].
    split; auto. split; auto. rewrite app_length, !map_length.
    transitivity (length t1 + length a1); [f_equal; symmetry; exact LL1|]. rewrite E2, app_length.
    replace (length t1 + length t2 - length t2) with (length t1) by lia. unfold per_task. clear - Fa1.
    unfold InterPar.acts_ok in Fa1. destruct runs; [apply Forall2_length in Fa1; lia|subst; cbn; lia].
  Qed.
End Plan.
