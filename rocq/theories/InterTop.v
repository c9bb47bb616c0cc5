(** The whole of Intersect against abstract trees: the sequential branch returns
    the intersection; the parallel branch returns part of it, and all of it when
    no trie has a run above the cut. *)

From Coq Require Import Permutation.
From Verif Require Import Base FlatTrie LevelTrie FastTrie ParallelFor Intersection Facts Tree Reps
  InterSpec InterSeq ParFacts InterPar InterPlan.

Lemma firstn_S_nth : forall X (l : list X) j x, nth_error l j = Some x ->
  firstn (S j) l = firstn j l ++ [x].
Proof.
  induction l as [|a l IH]; intros [|j] x E; try discriminate.
  - inversion E; auto.
  - cbn [firstn app]. f_equal. apply IH. auto.
Qed.

Lemma NoDup_app_remove_r : forall X (a b : list X), NoDup (a ++ b) -> NoDup a.
Proof.
  induction a as [|x a IH]; intros b H; [constructor|]. inversion H; subst. constructor.
  - intros Hin. apply H2. apply in_or_app. auto.
  - apply (IH b). auto.
Qed.

Section Top.
  Context {A : Type}.
  Variable k : kind.
  Variable Ts : list trie_ops.
  Variable maxLevel : nat.
  Variable lmem : A -> N -> bool.
  Variable lg D : nat.
  Variable leafok : nat -> nat -> A -> Prop.
  Variable noroot : bool.

  Notation n := (length Ts).
  Notation okf := (okf Ts leafok noroot).
  Notation plains := (plains Ts (A := A)).
  Notation actok := (actok Ts (A := A)).

  Hypothesis Hn : n <= 16.
  Hypothesis Hn1 : 1 <= n.
  Hypothesis Hend : forall lvl, lvl <= D -> at_end k maxLevel lvl = (lvl =? D).
  Hypothesis Htot : total_bits k maxLevel = D + lg.
  Hypothesis Hbits : D + lg < 64.
  Hypothesis Hmax : D <= maxLevel.
  Hypothesis Hlast : forall lvl, lvl < D -> S lvl = maxLevel -> noroot = true /\ S lvl = D.
  Hypothesis Hleaf : forall active roots X p r,
    (forall i, i < n -> active i = Ok (is_some (X i))) -> okf 0 D roots X -> aligned lg p ->
    and_leaf k Ts n active roots p r = Ok (r ++ inter lmem lg n 0 X p).

  Notation inter := (inter lmem lg n).
  Variable runs : bool.

  Notation task_ok := (task_ok Ts lg D leafok noroot runs true).
  Notation acts_ok := (acts_ok Ts runs (A := A)).
  Notation ginter := (ginter Ts lmem lg D).
  Notation noruns_f := (noruns_f Ts (A := A)).
  Notation tinter := (tinter Ts lmem lg D).

  (** One task computes its part. *)
  Lemma run_task_spec : forall gl levels st t g,
    levels = map fst gl -> Forall (fun lt => fst lt <= D) gl ->
    pa_ints st = map snd (map snd gl) ->
    Forall2 (fun lt rt => task_ok (fst lt) (snd lt) rt) gl (pa_roots st) ->
    acts_ok (map snd gl) (pa_active st) ->
    nth_error gl t = Some g ->
    exists tk, get_task runs levels st t = Ok tk /\ run_task k Ts n maxLevel runs tk = Ok (tinter g).
  Proof.
    intros gl levels st t [l g] -> HD Hi Hr Ha Hg. unfold get_task.
    rewrite (vget_nth _ _ _ l) by (apply (map_nth_error fst _ _ Hg)). cbn [bind].
    destruct (Forall2_nth _ _ _ _ _ _ _ Hr Hg) as (rt & Er & (K1 & K2 & K3 & K4 & K5)).
    cbn [fst snd] in *.
    rewrite (vget_nth _ _ _ rt Er). cbn [bind].
    assert (Hl : l <= D).
    { rewrite Forall_forall in HD. apply nth_error_In in Hg. apply (HD _ Hg). }
    assert (Hg2 : nth_error (map snd gl) t = Some g) by (apply (map_nth_error snd _ _ Hg)).
    assert (Hact : exists act, (if runs then let* a := vget (pa_active st) t in Ok (snd a) else Ok []) = Ok act
              /\ (runs = true -> actok act (fst g))).
    { unfold InterPar.acts_ok in Ha. destruct runs.
      - destruct (Forall2_nth _ _ _ _ _ _ _ Ha Hg2) as (a & Ea & Ha').
        exists (snd a). split; auto. rewrite (vget_nth (harr bool) (pa_active st) _ a Ea). auto.
      - exists []. split; auto. discriminate. }
    destruct Hact as (act & -> & Hact). cbn [bind]. rewrite Hi.
    rewrite (vget_nth _ _ _ (snd g)) by (apply map_nth_error; auto). cbn [bind].
    eexists; split; [reflexivity|]. unfold run_task. cbn [tk_level tk_roots tk_active tk_prefix].
    unfold InterPlan.tinter, InterPar.ginter. cbn [fst snd]. destruct runs.
    - rewrite (runsAND_spec k Ts maxLevel lmem lg D leafok noroot Hn Hend Htot Hbits Hlast Hleaf
                 (D - l) l (snd rt) act (fst g) (snd g) [] (S maxLevel)); auto; lia.
    - destruct (AND_spec k Ts maxLevel lmem lg D leafok noroot Hn Hend Htot Hbits Hlast Hleaf
                 (D - l) l (snd rt) (fst g) (snd g) [] (S maxLevel)) as (fl & ->); auto; lia.
  Qed.

  Lemma par_results_gen : forall s (f : nat * ghost A -> list N) gl levels st used,
    valid_scheduler s -> used = length gl -> 1 <= used ->
    (forall t g, nth_error gl t = Some g ->
       exists tk, get_task runs levels st t = Ok tk /\ run_task k Ts n maxLevel runs tk = Ok (f g)) ->
    par_results k Ts n maxLevel runs s used levels st = Ok (map f gl).
  Proof.
    clear. intros s f gl levels st used Hs -> H1 Ht. unfold par_results.
    loop_inv (fun j (outs : list (list N)) => outs = map f (firstn j gl)) LI.
    destruct LI as (outs & E & Eo).
    - auto.
    - intros j outs Hj ->.
      destruct (nth_error gl j) as [g|] eqn:Eg; [|apply nth_error_None in Eg; lia].
      destruct (Ht j g Eg) as (tk & -> & E2).
      cbn [bind]. rewrite E2. cbn [bind]. eexists; split; [reflexivity|].
      rewrite (firstn_S_nth _ _ _ _ Eg), map_app. auto.
    - rewrite E. cbn [bind Nat.add] in *. rewrite firstn_all in Eo. subst outs.
      rewrite pf_traces_diag by auto. cbn [bind].
      rewrite <- (map_length f gl).
      apply exec_push_own. apply Hs.
  Qed.

  Lemma par_results_spec : forall s gl levels st used,
    valid_scheduler s -> used = length gl -> 1 <= used ->
    levels = map fst gl -> Forall (fun lt => fst lt <= D) gl ->
    pa_ints st = map snd (map snd gl) ->
    Forall2 (fun lt rt => task_ok (fst lt) (snd lt) rt) gl (pa_roots st) ->
    acts_ok (map snd gl) (pa_active st) ->
    par_results k Ts n maxLevel runs s used levels st = Ok (map tinter gl).
  Proof.
    intros s gl levels st used Hs Hu H1 El HD Hi Hr Ha. apply par_results_gen; auto.
    intros t g Hg. apply (run_task_spec gl); auto.
  Qed.

  Lemma par_concat_spec : forall s used pre vs, valid_scheduler s -> used = length vs -> 1 <= used ->
    par_concat s used pre vs = Ok (pre ++ concat vs).
  Proof.
    clear. intros s used pre vs Hs -> H1. unfold par_concat.
    loop_inv (fun j (st : nat * list nat * nat) =>
      st = (length pre + length (concat (firstn j vs)),
            map (fun t => length pre + length (concat (firstn t vs))) (seq 0 j),
            length pre + length (concat (firstn j vs)))) LI.
    destruct LI as (st & E & Es).
    - cbn. rewrite Nat.add_0_r. auto.
    - intros j st Hj ->.
      destruct (nth_error vs j) as [v|] eqn:Eg; [|apply nth_error_None in Eg; lia].
      rewrite (vget_nth _ _ _ v Eg). cbn [bind]. eexists; split; [reflexivity|].
      assert (E : concat (firstn (S j) vs) = concat (firstn j vs) ++ v).
      { rewrite (firstn_S_nth _ _ _ _ Eg), concat_app. cbn. rewrite app_nil_r. auto. }
      rewrite E, seq_S, map_app, app_length, Nat.add_assoc. auto.
    - rewrite E. cbn [bind Nat.add] in *. rewrite firstn_all in Es. subst st.
      destruct (N.ltb _ _).
      + rewrite pf_traces_diag by auto. cbn [bind].
        replace (length pre + length (concat vs) - length pre) with (length (concat vs)) by lia.
        apply exec_write_own. apply Hs.
      + loop_inv (fun j (l : list N) => l = pre ++ concat (firstn j vs)) LI.
        destruct LI as (l & E' & El).
        * cbn. rewrite app_nil_r. auto.
        * intros j l Hj ->.
          destruct (nth_error vs j) as [v|] eqn:Eg; [|apply nth_error_None in Eg; lia].
          rewrite (vget_nth _ _ _ v Eg). cbn [bind]. eexists; split; [reflexivity|].
          rewrite (firstn_S_nth _ _ _ _ Eg), concat_app. cbn. rewrite app_nil_r, <- app_assoc. auto.
        * rewrite E', El. cbn [Nat.add]. rewrite firstn_all. auto.
  Qed.

  (** Freeing distinct addresses succeeds. *)
  Lemma free1_spec : forall m a, ~ In a (m_freed m) ->
    free1 m a = Ok (mkMem (m_next m) (m_freed m ++ [a])).
  Proof.
    clear. intros. unfold free1. destruct (existsb _ _) eqn:E; auto.
    apply existsb_exists in E. destruct E as (x & Hx & E). apply Nat.eqb_eq in E. subst. tauto.
  Qed.

  Lemma free_loop_spec : forall st used,
    used = length (pa_roots st) -> m_freed (pa_mem st) = [] ->
    (if runs then length (pa_active st) = used else pa_active st = []) ->
    NoDup (map fst (pa_roots st) ++ map fst (pa_active st)) ->
    exists fr, free_loop runs used st = Ok (mkMem (m_next (pa_mem st)) fr) /\
      Permutation fr (map fst (pa_roots st) ++ map fst (pa_active st)).
  Proof.
    clear. intros st used -> Hf Ha Hd. unfold free_loop.
    loop_inv (fun j (m : Intersection.mem) => m_next m = m_next (pa_mem st) /\
      Permutation (m_freed m) (map fst (firstn j (pa_roots st)) ++ map fst (firstn j (pa_active st)))) LI.
    destruct LI as (m & E & (E1 & E2)).
    - split; auto. rewrite Hf. auto.
    - intros j m Hj (E1 & E2).
      destruct (nth_error (pa_roots st) j) as [rt|] eqn:Er; [|apply nth_error_None in Er; lia].
      assert (Hroot : forall m', m_next m' = m_next (pa_mem st) ->
        Permutation (m_freed m') (map fst (firstn j (pa_roots st)) ++ map fst (firstn (S j) (pa_active st))) ->
        exists s', free1 m' (fst rt) = Ok s' /\ m_next s' = m_next (pa_mem st) /\
          Permutation (m_freed s') (map fst (firstn (S j) (pa_roots st)) ++ map fst (firstn (S j) (pa_active st)))).
      { intros m' N1 N2. rewrite free1_spec.
        - eexists; split; [reflexivity|]. cbn [m_next m_freed]. split; auto.
          rewrite N2, (firstn_S_nth _ _ _ _ Er), !map_app. cbn [map].
          rewrite <- app_assoc. rewrite <- app_assoc. apply Permutation_app_head. apply Permutation_app_comm.
        - intros Hin. apply (Permutation_in _ N2) in Hin.
          assert (Er' := Er). apply nth_error_split in Er'. destruct Er' as (x & y & Ex & Lx).
          rewrite Ex, map_app in Hd. cbn [map] in Hd. rewrite <- app_assoc in Hd. cbn [app] in Hd.
          apply NoDup_remove_2 in Hd. apply Hd. apply in_or_app.
          apply in_app_or in Hin. destruct Hin as [Hin|Hin].
          + left. rewrite Ex, firstn_app, Lx, Nat.sub_diag, firstn_all2, app_nil_r in Hin by lia. auto.
          + right. apply in_or_app. right.
            rewrite <- (firstn_skipn (S j) (pa_active st)), map_app. apply in_or_app. auto. }
      destruct runs.
      + destruct (nth_error (pa_active st) j) as [a|] eqn:Eg; [|apply nth_error_None in Eg; lia].
        rewrite (vget_nth (harr bool) _ _ a Eg), (vget_nth _ _ _ rt Er). cbn [bind].
        rewrite free1_spec.
        * cbn [bind]. apply Hroot; cbn [m_next m_freed]; auto.
          rewrite (firstn_S_nth _ _ _ _ Eg), map_app. cbn [map]. rewrite app_assoc, E2. auto.
        * intros Hin. apply (Permutation_in _ E2) in Hin.
          assert (Er' := Eg). apply nth_error_split in Er'. destruct Er' as (x & y & Ex & Lx).
          rewrite Ex, map_app in Hd. cbn [map] in Hd. rewrite app_assoc in Hd.
          apply NoDup_remove_2 in Hd. apply Hd.
          apply in_app_or in Hin. apply in_or_app. left. apply in_or_app. destruct Hin as [Hin|Hin].
          -- left. rewrite <- (firstn_skipn j (pa_roots st)), map_app. apply in_or_app. auto.
          -- right. rewrite Ex, firstn_app, Lx, Nat.sub_diag, firstn_all2, app_nil_r in Hin by lia. auto.
      + rewrite (vget_nth _ _ _ rt Er). cbn [bind]. apply Hroot; auto.
        rewrite Ha in E2 |- *. rewrite firstn_nil in *. auto.
    - exists (m_freed m). cbn [Nat.add] in *. rewrite E. split.
      + rewrite <- E1. destruct m; auto.
      + rewrite firstn_all in E2. destruct runs.
        * rewrite firstn_all2 in E2; auto. lia.
        * rewrite Ha in *. rewrite firstn_nil in E2. auto.
  Qed.

  Variable X : forest (A := A).
  Hypothesis HX : okf D 0 init_roots X.
  Hypothesis Hs : somes Ts X.
  Hypothesis Hpl : runs = false -> plains X.
  Notation I := (inter D X 0%N).

  Variable hc : N.
  Hypothesis Hhc : (1 <= hc)%N.
  Hypothesis Hheights : forall T, In T Ts -> t_height T = maxLevel.

  Lemma heights_ok : exists T0, vget Ts 0 = Ok T0 /\ t_height T0 = maxLevel /\ same_height maxLevel Ts = true.
  Proof.
    destruct Ts as [|T0 Tl] eqn:E; [cbn in Hn1; lia|]. exists T0. split; auto. split.
    - apply Hheights. left; auto.
    - unfold same_height. apply forallb_forall. intros T HT. apply Nat.eqb_eq. auto.
  Qed.

  Definition par_branch (parallel : bool) : bool :=
    parallel && ((maxLevel <? 2) || (N.to_nat (N.log2 hc) <=? maxLevel - 2)).

  Theorem seq_intersect : forall s1 s2 parallel, par_branch parallel = false ->
    Intersect_mem k s1 s2 hc Ts runs parallel = Ok (I, mkMem 0 []).
  Proof.
    intros s1 s2 parallel Hb. unfold Intersect_mem. destruct heights_ok as (T0 & -> & E1 & E2).
    cbn [bind]. rewrite E1, E2. cbn [negb].
    replace (N.eqb hc 0) with false by (symmetry; apply N.eqb_neq; lia).
    unfold par_branch in Hb. rewrite Hb. destruct runs.
    - rewrite (runsAND_spec k Ts maxLevel lmem lg D leafok noroot Hn Hend Htot Hbits Hlast Hleaf
                 D 0 init_roots init_active X 0%N [] (S maxLevel)); auto using aligned_0; try lia.
      intros i Hi. rewrite (aget_Some _ _ _ true).
      + specialize (Hs i Hi). destruct (X i); auto. congruence.
      + apply nth_error_repeat. lia.
    - destruct (AND_spec k Ts maxLevel lmem lg D leafok noroot Hn Hend Htot Hbits Hlast Hleaf
                 D 0 init_roots X 0%N [] (S maxLevel)) as (fl & ->); auto using aligned_0; lia.
  Qed.

  Notation cut := (N.to_nat (N.log2 hc)).
  Hypothesis Hcut15 : cut <= 15.
  Hypothesis HcutD : cut <= D.
  Hypothesis Hdeep : S cut <= D \/ (2 ^ N.log2 hc <= 2)%N.

  Lemma nT_pow : (2 ^ N.log2 hc)%N = pow2 cut.
  Proof. clear. unfold pow2. rewrite N2Nat.id. auto. Qed.

  Theorem par_intersect : forall s1 s2 parallel, valid_scheduler s1 -> valid_scheduler s2 ->
    par_branch parallel = true ->
    exists r m, Intersect_mem k s1 s2 hc Ts runs parallel = Ok (r, m) /\
      (exists Z, Permutation (r ++ Z) I /\ lost_ok Ts lmem lg D cut X Z) /\ (noruns_f (S cut) X -> r = I) /\
      NoDup (m_freed m) /\ (forall a, In a (m_freed m) -> a < m_next m) /\
      ((2 ^ N.log2 hc <= 2)%N -> Permutation (m_freed m) (seq 0 (m_next m))) /\
      r = outcome Ts lmem lg D runs cut (2 ^ N.log2 hc)%N X /\
      m_next m = length (m_freed m) + per_task runs * plan_divided Ts lg D runs cut (2 ^ N.log2 hc)%N X.
  Proof.
    intros s1 s2 parallel V1 V2 Hb. unfold Intersect_mem. destruct heights_ok as (T0 & -> & E1 & E2).
    cbn [bind]. rewrite E1, E2. cbn [negb].
    replace (N.eqb hc 0) with false by (symmetry; apply N.eqb_neq; lia).
    unfold par_branch in Hb. rewrite Hb. rewrite n_tries_16 by exact Hn.
    destruct (par_plan_spec k Ts maxLevel lmem lg D leafok noroot Hn Hn1 Htot Hbits Hlast runs true cut
                (2 ^ N.log2 hc)%N nT_pow Hcut15 HcutD Hdeep X HX Hs (fun H _ => Hpl H))
      as [(r & m & -> & ((Z & P1 & PL) & P2 & P3 & P4 & P5 & P6 & P7))|(used & levels & st & -> & W)]; cbn [bind].
    - exists r, m. split; auto. split; [exists Z; auto|]. split; auto. rewrite P3. split; [constructor|].
      split; [intros a []|]. split; [intros H2; rewrite P4 by auto; auto|].
      split; [rewrite <- outcome_plan, P6; cbn; rewrite app_nil_r; auto|exact P7].
    - destruct W as (gl & Z & leaked & W1 & W2 & W3 & W4 & W5 & W6 & W7 & W8 & W9 & W10 & W11 & W12 & WL & W13 & W14 & W15 & W16).
      rewrite (par_results_spec s1 gl levels st used V1 W1 W2 W4 W5 W6 W7 W8). cbn [bind].
      rewrite (par_concat_spec s2 used (pa_r st) (map tinter gl)); auto.
      2:{ rewrite map_length; auto. }
      cbn [bind].
      assert (Nd : NoDup ((map fst (pa_roots st) ++ map fst (pa_active st)) ++ leaked)).
      { apply (Permutation_NoDup (l := seq 0 (m_next (pa_mem st)))); [symmetry; auto|apply seq_NoDup]. }
      destruct (free_loop_spec st used) as (fr & -> & Pf); auto.
      { rewrite W1. eapply Forall2_length; eauto. }
      { unfold InterPar.acts_ok in W8. destruct runs; auto.
        apply Forall2_length in W8. rewrite map_length in W8. congruence. }
      { apply NoDup_app_remove_r in Nd. auto. }
      cbn [bind]. do 2 eexists; split; [reflexivity|]. cbn [m_freed m_next]. split.
      { exists Z. rewrite <- app_assoc. split; auto. }
      split.
      { intros HN. destruct (W13 HN) as (-> & -> & C). auto. }
      split.
      { apply (Permutation_NoDup (l := map fst (pa_roots st) ++ map fst (pa_active st))); [symmetry; auto|].
        apply NoDup_app_remove_r in Nd. auto. }
      split.
      { intros a Ha. apply (Permutation_in _ Pf) in Ha.
        assert (Hin : In a (seq 0 (m_next (pa_mem st)))).
        { apply (Permutation_in _ W10). apply in_or_app. auto. }
        apply in_seq in Hin. lia. }
      split; [intros H2; rewrite W11, app_nil_r in W10 by auto; rewrite Pf; auto|].
      split; [rewrite <- outcome_plan, W14, W15; auto|].
      rewrite <- W16. apply Permutation_length in Pf, W10. rewrite app_length, seq_length in W10. lia.
  Qed.

  (** The tasks of the parallel branch: their number. *)
  Theorem par_threads :
    match par_plan k Ts n maxLevel runs cut (2 ^ N.log2 hc)%N with
    | Ok (Done _ _) => True
    | Ok (Work used levels st) =>
        1 <= used /\ (N.of_nat used <= 2 ^ N.log2 hc)%N /\ used = length (pa_roots st) /\
        used = length levels /\ used = length (pa_ints st)
    | _ => False
    end.
  Proof.
    destruct (par_plan_spec k Ts maxLevel lmem lg D leafok noroot Hn Hn1 Htot Hbits Hlast runs true cut
                (2 ^ N.log2 hc)%N nT_pow Hcut15 HcutD Hdeep X HX Hs (fun H _ => Hpl H))
      as [(r & m & -> & _)|(used & levels & st & -> & W)]; auto.
    destruct W as (gl & Z & leaked & W1 & W2 & W3 & W4 & W5 & W6 & W7 & W8 & _).
    split; auto. split; auto. split; [|split].
    - rewrite W1. eapply Forall2_length; eauto.
    - rewrite W4, map_length. auto.
    - rewrite W6, !map_length. auto.
  Qed.
End Top.
