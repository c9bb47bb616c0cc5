(** Intersect in parallel over more than 16 tries, when only the number of tries modulo 65536
    reaches partialAND. *)

From Verif Require Import Base FlatTrie LevelTrie FastTrie ParallelFor Intersection Tries Facts Spec SpecTries
  SpecLimits SpecThreads SpecEnds EndsFacts EndsCalls ThreadBound ParFacts ParForThms SerializeFacts InterPlan InterInst InterThms InterMixed InterLimits.

(** * Only the first tries are looked at *)

Lemma vget_firstn : forall A (l : list A) n i, i < n -> vget (firstn n l) i = vget l i.
Proof.
  intros A l n i H. unfold vget. replace (nth_error (firstn n l) i) with (nth_error l i); auto.
  revert n i H. induction l as [|x l IH]; intros n i H; [rewrite firstn_nil; reflexivity|].
  destruct n as [|n]; [lia|]. destruct i as [|i]; [reflexivity|]. cbn [firstn nth_error]. apply IH. lia.
Qed.

Lemma bind_after : forall A B (m : result A) (f f' : A -> result B), (forall a, f a = f' a) -> bind m f = bind m f'.
Proof. intros A B m f f' H. destruct m; cbn; auto. Qed.

Section First.
  Variable k : kind.
  Variable Ts : list trie_ops.
  Variable n h : nat.
  Variable runs : bool.

  Ltac same := unfold pa_scan, pa_left, pa_right, pa_both; apply for_loop_ext; intros j s Hj;
    rewrite vget_firstn by lia; reflexivity.

  Lemma first_scan : forall l ro ac, pa_scan (firstn n Ts) n runs l ro ac = pa_scan Ts n runs l ro ac.
  Proof. intros. same. Qed.
  Lemma first_left : forall l ro, pa_left (firstn n Ts) n l ro = pa_left Ts n l ro.
  Proof. intros. same. Qed.
  Lemma first_right : forall l ro, pa_right (firstn n Ts) n l ro = pa_right Ts n l ro.
  Proof. intros. same. Qed.
  Lemma first_both : forall l ro, pa_both (firstn n Ts) n l ro = pa_both Ts n l ro.
  Proof. intros. same. Qed.

  Lemma first_partial : forall fuel l cut ro ac p st,
    partialAND k (firstn n Ts) n h runs fuel l cut ro ac p st = partialAND k Ts n h runs fuel l cut ro ac p st.
  Proof.
    induction fuel as [|fuel IH]; intros l cut ro ac p st; cbn [partialAND]; [reflexivity|].
    destruct (l =? cut); [reflexivity|]. rewrite first_scan. apply bind_after. intros [[temp res] node00].
    rewrite first_left, first_right, first_both.
    destruct (negb runs && N.eqb res 0)%bool; [reflexivity|]. destruct (runs && N.eqb node00 0)%bool; [reflexivity|].
    destruct (N.eqb res 2); [apply bind_after; intros; apply IH|].
    destruct (N.eqb res 1); [apply bind_after; intros; apply bind_after; intros; apply IH|].
    destruct (N.eqb res 3); [|reflexivity].
    apply bind_after. intros rp. apply bind_after. intros [a1 a2]. rewrite IH. apply bind_after. intros. apply IH.
  Qed.

  Lemma first_fill : forall fuel cut nT total ints tr ta i used st,
    fill_loop k (firstn n Ts) n h runs fuel cut nT total ints tr ta i used st
    = fill_loop k Ts n h runs fuel cut nT total ints tr ta i used st.
  Proof.
    induction fuel as [|fuel IH]; intros; cbn [fill_loop]; [reflexivity|].
    destruct (_ && _)%bool; [|reflexivity]. apply bind_after. intros rt. apply bind_after. intros act.
    apply bind_after. intros pp. rewrite first_partial. apply bind_after. intros st'. apply IH.
  Qed.

  Lemma first_plan : forall cut nT, par_plan k (firstn n Ts) n h runs cut nT = par_plan k Ts n h runs cut nT.
  Proof.
    intros. unfold par_plan. rewrite first_partial. apply bind_after. intros st.
    destruct (_ =? 0); [reflexivity|]. rewrite first_fill. reflexivity.
  Qed.
End First.

(** * The arrays of the threads have 16 cells *)

Definition short_arrays (runs : bool) (st : pa_state) : Prop :=
  Forall (fun a => length (snd a) <= 16) (pa_roots st) /\ Forall (fun a => length (snd a) <= 16) (pa_active st).

Lemma aset_same : forall A (v : list (option A)) i x v', aset v i x = Ok v' -> length v' = length v.
Proof.
  intros A v i x v' H. destruct (Nat.ltb_spec i (length v)) as [L|L].
  - destruct (aset_len _ v i x L) as (w & E & Lw). congruence.
  - unfold aset, vset in H. apply Nat.ltb_ge in L. rewrite L in H. discriminate.
Qed.

Lemma copy_16 : forall A n (src dst : list (option A)), copy_arr n src = Ok dst -> length dst = 16.
Proof.
  intros A n src dst H. unfold copy_arr in H.
  apply (for_inv _ (fun v => length v = 16)) in H; auto.
  intros i s s' L E. apply bind_inv in E. destruct E as (x & _ & E). apply aset_same in E. lia.
Qed.

Section Short.
  Variable k : kind.
  Variable Ts : list trie_ops.
  Variable n h : nat.
  Variable runs : bool.

  Lemma short_emit : forall ro ac p st st', short_arrays runs st -> pa_emit n runs ro ac p st = Ok st' -> short_arrays runs st'.
  Proof.
    intros ro ac p st st' (S1 & S2) H. unfold pa_emit in H. apply bind_inv in H. destruct H as (rts & E1 & H).
    apply copy_16 in E1. destruct runs.
    - apply bind_inv in H. destruct H as (ats & E2 & H). apply copy_16 in E2. injection H as <-.
      split; cbn [pa_roots pa_active]; apply Forall_app; (split; [assumption|]); constructor; auto; cbn [snd]; lia.
    - injection H as <-. split; cbn [pa_roots pa_active]; auto.
      apply Forall_app; split; [assumption|]. constructor; auto. cbn [snd]. lia.
  Qed.

  Lemma short_partial : forall fuel l cut ro ac p st st', short_arrays runs st ->
    partialAND k Ts n h runs fuel l cut ro ac p st = Ok st' -> short_arrays runs st'.
  Proof.
    induction fuel as [|fuel IH]; intros l cut ro ac p st st' S0 H; cbn [partialAND] in H;
      (destruct (l =? cut); [eapply short_emit; eassumption|]); [discriminate|].
    inv_bind H. destruct a as [[temp res] node00].
    destruct (negb runs && N.eqb res 0)%bool; [congruence|].
    destruct (runs && N.eqb node00 0)%bool.
    { inv_bind H. injection H as <-. exact S0. }
    destruct (N.eqb res 2). { inv_bind H. eauto. }
    destruct (N.eqb res 1). { inv_bind H. inv_bind H. eauto. }
    destruct (N.eqb res 3); [|congruence].
    inv_bind H. inv_bind H. destruct a0 as [a1 a2]. inv_bind H. eauto.
  Qed.

  Lemma short_fill : forall fuel cut nT total ints tr ta i used st i' used' st', short_arrays runs st ->
    fill_loop k Ts n h runs fuel cut nT total ints tr ta i used st = Ok (i', used', st') -> short_arrays runs st'.
  Proof.
    induction fuel as [|fuel IH]; intros cut nT total ints tr ta i used st i' used' st' S0 H; cbn [fill_loop] in H;
      (destruct (_ && _)%bool; [|congruence]); [discriminate|].
    inv_bind H. inv_bind H. inv_bind H. inv_bind H. eapply IH; [|exact H]. eapply short_partial; eassumption.
  Qed.

  Lemma short_plan : forall cut nT used levels st, par_plan k Ts n h runs cut nT = Ok (Work used levels st) ->
    short_arrays runs st /\ length (pa_roots st) <> 0.
  Proof.
    intros cut nT used levels st E. unfold par_plan in E. apply bind_inv in E. destruct E as (st0 & E0 & E).
    apply short_partial in E0; [|split; constructor].
    destruct (_ =? 0); [discriminate|]. apply bind_inv in E. destruct E as ([[i used'] st1] & E1 & E).
    apply short_fill in E1; [|split; constructor].
    apply bind_inv in E. destruct E as ([levels' st2] & L & E).
    destruct (Nat.eqb_spec (length (pa_roots st2)) 0) as [Z|Z]; [discriminate|].
    assert (st2 = st) as -> by congruence. clear E. split; [|exact Z].
    apply (for_inv _ (fun x => short_arrays runs (snd x))) in L; [exact L|exact E1|].
    intros j [lv s] [lv' s'] (P1 & P2) Q. cbv beta iota in Q. cbn [snd] in *. apply bind_inv in Q. destruct Q as (rt & Q1 & Q).
    apply bind_inv in Q. destruct Q as (act & Q2 & Q). apply bind_inv in Q. destruct Q as (p & _ & Q).
    injection Q as _ <-. destruct E0 as (R1 & R2). rewrite Forall_forall in R1, R2.
    split; cbn [pa_roots pa_active]; apply Forall_app; (split; [assumption|]).
    - constructor; auto. apply R1. eapply nth_error_In, Facts.vget_inv. exact Q1.
    - destruct runs; [|injection Q2 as <-; constructor]. apply bind_inv in Q2. destruct Q2 as (a & Q2 & Q3). injection Q3 as <-.
      constructor; auto. apply R2. eapply nth_error_In, Facts.vget_inv. exact Q2.
  Qed.

  (** * More tries than cells *)

  Lemma loop_each : forall S (f : nat -> S -> result S) m start s s', for_loop m start f s = Ok s' ->
    forall i, start <= i < start + m -> exists a b, f i a = Ok b.
  Proof.
    induction m as [|m IH]; intros start s s' H i Hi; [lia|]. cbn [for_loop] in H.
    apply bind_inv in H. destruct H as (s1 & E & H). destruct (Nat.eq_dec i start) as [->|]; [eauto|].
    eapply IH; [exact H|lia].
  Qed.

  Lemma aget_short : forall A (v : list (option A)) i x, length v <= i -> aget v i <> Ok x.
  Proof.
    intros A v i x H. unfold aget. rewrite vget_len by auto. discriminate.
  Qed.

  Lemma wide_task : forall tk r, 16 < n -> length (tk_roots tk) <= 16 -> (runs = true -> length (tk_active tk) <= 16) ->
    match k with Bin => tk_level tk <> h | Fast _ => True end -> run_task k Ts n h runs tk <> Ok r.
  Proof.
    intros tk r Hn Hr Ha Hk H. unfold run_task in H. destruct runs eqn:Er.
    - cbn [runsAND] in H. specialize (Ha eq_refl). destruct (at_end k h (tk_level tk)) eqn:E.
      + unfold and_leaf in H. destruct k as [|lw]; [cbn in E; apply Nat.eqb_eq in E; congruence|].
        apply bind_inv in H. destruct H as (w & H & _). apply (loop_each _ _ _ _ _ _) with (i := 16) in H; [|lia].
        destruct H as (a & b & H). apply bind_inv in H. destruct H as (x & H & _). eapply aget_short; [|exact H]. lia.
      + apply bind_inv in H. destruct H as ([[t1 t2] t3] & H & _). unfold runs_scan in H.
        apply (loop_each _ _ _ _ _ _) with (i := 16) in H; [|lia]. destruct H as ([[a1 a2] a3] & b & H).
        apply bind_inv in H. destruct H as (x & H & _). eapply aget_short; [|exact H]. lia.
    - apply bind_inv in H. destruct H as ([r0 fl] & H & _). cbn [AND] in H. destruct (at_end k h (tk_level tk)) eqn:E.
      + apply bind_inv in H. destruct H as (r1 & H & _).
        unfold and_leaf in H. destruct k as [|lw]; [cbn in E; apply Nat.eqb_eq in E; congruence|].
        apply bind_inv in H. destruct H as (w & H & _). apply (loop_each _ _ _ _ _ _) with (i := 16) in H; [|lia].
        destruct H as (a & b & H). unfold all_active in H. cbn [bind] in H. apply bind_inv in H. destruct H as (x & _ & H).
        apply bind_inv in H. destruct H as (y & H & _). eapply aget_short; [|exact H]. lia.
      + apply bind_inv in H. destruct H as (a & H & _).
        apply (loop_each _ _ _ _ _ _) with (i := 16) in H; [|lia]. destruct H as (a1 & b & H).
        apply bind_inv in H. destruct H as (x & _ & H).
        apply bind_inv in H. destruct H as (y & H & _). eapply aget_short; [|exact H]. lia.
  Qed.

  Lemma wide_results : forall s used levels st r, 16 < n -> used <> 0 -> short_arrays runs st ->
    Forall (fun l => match k with Bin => l <> h | Fast _ => True end) levels ->
    par_results k Ts n h runs s used levels st <> Ok r.
  Proof.
    intros s used levels st r Hn Hu (S1 & S2) L H. unfold par_results in H. apply bind_inv in H. destruct H as (outs & H & _).
    apply (loop_each _ _ _ _ _ _) with (i := 0) in H; [|lia]. destruct H as (a & b & H).
    apply bind_inv in H. destruct H as (tk & T & H). apply bind_inv in H. destruct H as (x & H & _).
    rewrite Forall_forall in S1, S2, L.
    unfold get_task in T. apply bind_inv in T. destruct T as (lv & V & T). apply Facts.vget_inv, nth_error_In in V.
    apply bind_inv in T. destruct T as (rt & V2 & T). apply Facts.vget_inv, nth_error_In in V2.
    apply bind_inv in T. destruct T as (act & V3 & T).
    apply bind_inv in T. destruct T as (p & _ & T).
    assert (tk = mkTask lv (snd rt) act p) as -> by congruence.
    eapply wide_task; [exact Hn| | | |exact H]; cbn [tk_roots tk_active tk_level]; auto.
    - intros ->. apply bind_inv in V3. destruct V3 as (c & V3 & V4). injection V4 as <-.
      apply Facts.vget_inv, nth_error_In in V3. auto.
    - destruct k; auto.
  Qed.
End Short.

(** * Intersect *)

Lemma quiet_partial : forall k Ts n h fuel l cut ro ac p st st',
  partialAND k Ts n h false fuel l cut ro ac p st = Ok st' -> pa_r st' = pa_r st.
Proof.
  induction fuel as [|fuel IH]; intros l cut ro ac p st st' H; cbn [partialAND] in H; (destruct (l =? cut);
    [unfold pa_emit in H; inv_bind H; injection H as <-; reflexivity|]); [discriminate|].
  inv_bind H. destruct a as [[temp res] node00]. cbn [negb andb] in H.
  destruct (N.eqb res 0); [congruence|].
  destruct (N.eqb res 2). { inv_bind H. eauto. }
  destruct (N.eqb res 1). { inv_bind H. inv_bind H. eauto. }
  destruct (N.eqb res 3); [|congruence].
  inv_bind H. inv_bind H. destruct a0 as [a1 a2]. inv_bind H. apply IH in H, E2. congruence.
Qed.

Lemma quiet_fill : forall k Ts n h fuel cut nT total ints tr ta i used st i' used' st',
  fill_loop k Ts n h false fuel cut nT total ints tr ta i used st = Ok (i', used', st') -> pa_r st' = pa_r st.
Proof.
  induction fuel as [|fuel IH]; intros cut nT total ints tr ta i used st i' used' st' H; cbn [fill_loop] in H;
    (destruct (_ && _)%bool; [|congruence]); [discriminate|].
  inv_bind H. inv_bind H. inv_bind H. inv_bind H. apply IH in H. apply quiet_partial in E2. congruence.
Qed.

Lemma quiet_plan : forall k Ts n h cut nT r m, par_plan k Ts n h false cut nT = Ok (Done r m) -> r = [].
Proof.
  intros k Ts n h cut nT r m E. unfold par_plan in E. apply bind_inv in E. destruct E as (st0 & E0 & E).
  apply quiet_partial in E0. cbn [pa_r] in E0.
  destruct (_ =? 0); [congruence|]. apply bind_inv in E. destruct E as ([[i used'] st1] & E1 & E).
  apply quiet_fill in E1. cbn [pa_r] in E1.
  apply bind_inv in E. destruct E as ([levels' st2] & L & E). destruct (_ =? 0); [|discriminate].
  assert (r = pa_r st2) as -> by congruence.
  apply (for_inv _ (fun x => pa_r (snd x) = [])) in L; [exact L|cbn [snd]; congruence|].
  intros j [lv s] [lv' s'] P Q. cbv beta iota in Q. cbn [snd] in *. apply bind_inv in Q. destruct Q as (rt & _ & Q).
  apply bind_inv in Q. destruct Q as (act & _ & Q). apply bind_inv in Q. destruct Q as (p & _ & Q).
  injection Q as _ <-. exact P.
Qed.

Lemma defined_or_not : forall A (m : result A), ends m -> (exists e, m = UB e) \/ exists r, m = Ok r.
Proof. intros A [r|e|] H; eauto. congruence. Qed.

Lemma wide_call : forall k s1 s2 hc Ts h runs, 16 < length Ts -> (forall T, In T Ts -> t_height T = h) ->
  2 <= h -> (1 <= hc < 2 ^ 16)%N -> N.to_nat (N.log2 hc) <= h - 2 ->
  forall r m, Intersect_mem k s1 s2 hc Ts runs true = Ok (r, m) ->
  par_plan k Ts (n_tries (length Ts)) h runs (N.to_nat (N.log2 hc)) (2 ^ N.log2 hc)%N = Ok (Done r m).
Proof.
  intros k s1 s2 hc Ts h runs Hn Hh H2 (Hc1 & Hc2) Hc r m H. unfold Intersect_mem in H.
  apply bind_inv in H. destruct H as (T0 & V & H). apply Facts.vget_inv, nth_error_In in V. rewrite (Hh T0 V) in H.
  assert (Hs : same_height h Ts = true) by (apply forallb_forall; intros; apply Nat.eqb_eq; auto).
  rewrite Hs in H. cbn [negb] in H. replace (N.eqb hc 0) with false in H by (symmetry; apply N.eqb_neq; lia).
  replace (N.to_nat (N.log2 hc) <=? h - 2) with true in H by (symmetry; apply Nat.leb_le; auto).
  rewrite Bool.orb_true_r in H. cbn [andb] in H. apply bind_inv in H. destruct H as (p & P & H).
  destruct p as [r' m'|used levels st]; [congruence|]. exfalso.
  apply bind_inv in H. destruct H as (results & H & _). revert H.
  destruct (short_plan _ _ _ _ _ _ _ _ _ _ P) as (Sh & Ne).
  destruct (tasks_bounded _ _ _ _ _ _ _ _ _ Hc2 P) as (_ & U & _).
  apply wide_results; [exact Hn|lia|exact Sh|].
  apply plan_levels in P. eapply Forall_impl; [|exact P]. intros l Hl. cbv beta in Hl. destruct k; [lia|exact I].
Qed.

Lemma first_height : forall (Ts : list trie_ops) h m, (forall T, In T Ts -> t_height T = h) ->
  forall T, In T (firstn m Ts) -> t_height T = h.
Proof. intros Ts h m H T HT. apply H. rewrite <- (firstn_skipn m Ts). apply in_or_app. auto. Qed.

Theorem wide_intersect : forall k s1 s2 hc Ts h runs, 16 < length Ts -> (forall T, In T Ts -> t_height T = h) ->
  2 <= h -> (1 <= hc < 2 ^ 16)%N -> N.to_nat (N.log2 hc) <= h - 2 ->
  Forall ops_end Ts -> match k with Bin => True | Fast lw => lw <= 6 end ->
  n_tries (length Ts) <> 0 ->
  (exists e, Intersect k s1 s2 hc Ts runs true = UB e) \/
  (exists r, Intersect k s1 s2 hc Ts runs true = Ok r /\
     Intersect k s1 s2 hc (firstn (n_tries (length Ts)) Ts) runs true = Ok r /\ (runs = false -> r = [])).
Proof.
  intros k s1 s2 hc Ts h runs Hn Hh H2 Hc Hcut TE K Hm.
  destruct (defined_or_not _ (Intersect k s1 s2 hc Ts runs true)) as [H|(r & H)]; [|left; exact H|right].
  { apply ends_Intersect; auto. intros T V. apply nth_error_In, Hh in V. rewrite V. split; [destruct k; auto; lia|auto]. }
  exists r. split; [exact H|]. unfold Intersect in H. apply bind_inv in H. destruct H as ([r' m] & H & E).
  injection E as ->. apply (wide_call _ _ _ _ _ h) in H; auto.
  split; [|intros ->; eapply quiet_plan; exact H].
  assert (Le : n_tries (length Ts) <= length Ts).
  { unfold n_tries, wrap16. rewrite <- (Nat2N.id (length Ts)) at 2.
    assert (X : (N.of_nat (length Ts) mod 2 ^ 16 <= N.of_nat (length Ts))%N) by (apply N.mod_le; discriminate).
    revert X. generalize (N.of_nat (length Ts) mod 2 ^ 16)%N. intros; lia. }
  assert (Lf : length (firstn (n_tries (length Ts)) Ts) = n_tries (length Ts)) by (rewrite firstn_length; lia).
  assert (Hf := first_height Ts h (n_tries (length Ts)) Hh).
  assert (Id : n_tries (n_tries (length Ts)) = n_tries (length Ts)).
  { unfold n_tries, wrap16. rewrite N2Nat.id, N.mod_mod by discriminate. reflexivity. }
  set (Ts' := firstn (n_tries (length Ts)) Ts) in *. unfold Intersect, Intersect_mem. rewrite Lf, Id.
  destruct (vget Ts' 0) as [T0| |] eqn:V; [| |].
  - apply Facts.vget_inv, nth_error_In in V. cbn [bind]. rewrite (Hf T0 V).
    assert (Hs : same_height h Ts' = true) by (apply forallb_forall; intros; apply Nat.eqb_eq; auto).
    rewrite Hs. cbn [negb]. replace (N.eqb hc 0) with false by (symmetry; apply N.eqb_neq; lia).
    replace (N.to_nat (N.log2 hc) <=? h - 2) with true by (symmetry; apply Nat.leb_le; auto).
    rewrite Bool.orb_true_r. cbn [andb]. unfold Ts'. rewrite first_plan, H. reflexivity.
  - unfold vget in V. destruct (nth_error Ts' 0) eqn:Z; [discriminate|]. apply nth_error_None in Z. lia.
  - unfold vget in V. destruct (nth_error Ts' 0) eqn:Z; discriminate.
Qed.

(** * A multiple of 65536 tries *)

Lemma none_partial : forall k Ts h fuel l cut ro ac p st st',
  partialAND k Ts 0 h false fuel l cut ro ac p st = Ok st' -> length (pa_roots st) < length (pa_roots st').
Proof.
  induction fuel as [|fuel IH]; intros l cut ro ac p st st' H; cbn [partialAND] in H; (destruct (l =? cut);
    [unfold pa_emit in H; inv_bind H; injection H as <-; cbn [pa_roots]; rewrite app_length; cbn [length]; lia|]); [discriminate|].
  unfold pa_scan in H. cbn [for_loop bind negb andb] in H.
  change (N.eqb 3 0) with false in H. change (N.eqb 3 2) with false in H. change (N.eqb 3 1) with false in H.
  change (N.eqb 3 3) with true in H. cbv iota in H. inv_bind H. inv_bind H. destruct a0 as [a1 a2]. inv_bind H.
  apply IH in H, E1. lia.
Qed.

Lemma none_fill : forall k Ts h fuel cut nT total ints tr ta i used st i' used' st',
  fill_loop k Ts 0 h false fuel cut nT total ints tr ta i used st = Ok (i', used', st') ->
  length (pa_roots st) + i' <= length (pa_roots st') + i.
Proof.
  induction fuel as [|fuel IH]; intros cut nT total ints tr ta i used st i' used' st' H; cbn [fill_loop] in H;
    (destruct (_ && _)%bool; [|injection H as <- _ <-; lia]); [discriminate|].
  inv_bind H. inv_bind H. inv_bind H. inv_bind H. apply IH in H. apply none_partial in E2. lia.
Qed.

Lemma rest_length : forall (runs : bool) cut (st : pa_state) n i lv0 s0 lv1 s1, for_loop n i (fun j '(levels, st') =>
      let* rt := vget (pa_roots st) j in
      let* act := (if runs then let* a := vget (pa_active st) j in Ok [a] else Ok []) in
      let* p := vget (pa_ints st) j in
      Ok (levels ++ [cut],
          mkPA (pa_r st') (pa_ints st' ++ [p]) (pa_roots st' ++ [rt])
               (pa_active st' ++ act) (pa_mem st'))) (lv0 : list nat, s0) = Ok (lv1, s1) ->
  length (pa_roots s1) = length (pa_roots s0) + n.
Proof.
  induction n as [|n IH]; intros i lv0 s0 lv1 s1 H; cbn [for_loop] in H.
  - inversion H; subst. lia.
  - inv_bind H. inv_bind E. inv_bind E. inv_bind E. injection E as <-. apply IH in H.
    cbn [pa_roots] in H. rewrite app_length in H. cbn [length] in H. lia.
Qed.

Lemma none_plan : forall k Ts h runs hc r m, (hc < 2 ^ 16)%N -> runs = false \/ hc = 1%N ->
  par_plan k Ts 0 h runs (N.to_nat (N.log2 hc)) (2 ^ N.log2 hc)%N <> Ok (Done r m).
Proof.
  intros k Ts h runs hc r m Hc Hr E. rewrite counters_exact in E by exact Hc.
  unfold par_plan_exact in E. apply bind_inv in E. destruct E as (st0 & E0 & E).
  assert (L0 : 0 < length (pa_roots st0)).
  { destruct Hr as [->| ->].
    - apply none_partial in E0. cbn [pa_roots length] in E0. lia.
    - change (N.to_nat (N.log2 1)) with 0 in E0. cbn [partialAND Nat.eqb] in E0. unfold pa_emit, copy_arr in E0.
      cbn [for_loop bind] in E0. destruct runs; injection E0 as <-; cbn; lia. }
  destruct (Nat.eqb_spec (length (pa_roots st0)) 0); [lia|].
  apply bind_inv in E. destruct E as ([[i used'] st1] & E1 & E).
  apply bind_inv in E. destruct E as ([levels' st2] & L & E).
  destruct (Nat.eqb_spec (length (pa_roots st2)) 0) as [Z|Z]; [|discriminate].
  apply rest_length in L. rewrite Z in L.
  destruct Hr as [->| ->].
  - assert (X : forall fuel cut nT total ints tr ta i used st i' used' st',
      fill_loop_exact k Ts 0 h false fuel cut nT total ints tr ta i used st = Ok (i', used', st') ->
      length (pa_roots st) + i' <= length (pa_roots st') + i).
    { clear. induction fuel as [|fuel IH]; intros cut nT total ints tr ta i used st i' used' st' H; cbn [fill_loop_exact] in H;
        (destruct (_ && _)%bool; [|injection H as <- _ <-; lia]); [discriminate|].
      inv_bind H. inv_bind H. inv_bind H. inv_bind H. apply IH in H. apply none_partial in E2. lia. }
    apply X in E1. cbn [pa_roots length] in E1. lia.
  - change (N.to_nat (N.log2 1)) with 0 in E1. cbn [Nat.pow] in E1. cbn [fill_loop_exact] in E1.
    replace (1 <? 1 - length (pa_roots st0)) with false in E1 by (symmetry; apply Nat.ltb_ge; lia).
    cbn [andb] in E1. injection E1 as <- _ <-. cbn [pa_roots length] in L. lia.
Qed.

Theorem none_intersect : forall k s1 s2 hc Ts h runs, 16 < length Ts -> (forall T, In T Ts -> t_height T = h) ->
  2 <= h -> (1 <= hc < 2 ^ 16)%N -> N.to_nat (N.log2 hc) <= h - 2 ->
  Forall ops_end Ts -> match k with Bin => True | Fast lw => lw <= 6 end ->
  n_tries (length Ts) = 0 -> runs = false \/ hc = 1%N ->
  exists e, Intersect k s1 s2 hc Ts runs true = UB e.
Proof.
  intros k s1 s2 hc Ts h runs Hn Hh H2 Hc Hcut TE K Hm Hr.
  destruct (defined_or_not _ (Intersect k s1 s2 hc Ts runs true)) as [H|(r & H)]; [|exact H|exfalso].
  { apply ends_Intersect; auto. intros T V. apply nth_error_In, Hh in V. rewrite V. split; [destruct k; auto; lia|auto]. }
  unfold Intersect in H. apply bind_inv in H. destruct H as ([r' m] & H & E).
  apply (wide_call _ _ _ _ _ h) in H; auto. rewrite Hm in H. revert H. apply none_plan; [apply Hc|exact Hr].
Qed.

(** * Tries built from sets *)


Lemma wide_first : forall k Ts h runs s1 s2 hc r m, m <= length Ts -> (N.of_nat m < 2 ^ 16)%N -> 1 <= h ->
  (forall T, In T Ts -> t_height T = h) -> (forall T, In T Ts -> in_or_out (t_getNode T 0 0)) ->
  match k with Bin => True | Fast _ => forall T, In T Ts -> in_or_out (t_getWord T 0) end -> (1 <= hc)%N ->
  Intersect k s1 s2 hc (firstn m Ts) runs true = Ok r -> m <= 16.
Proof.
  intros k Ts h runs s1 s2 hc r m Hm Hm16 Hh H1 H2 H3 Hc H.
  destruct (le_lt_dec m 16) as [|Hl]; [assumption|exfalso].
  assert (Lf : length (firstn m Ts) = m) by (rewrite firstn_length; lia).
  assert (In1 : forall T, In T (firstn m Ts) -> In T Ts).
  { intros T HT. rewrite <- (firstn_skipn m Ts). apply in_or_app. auto. }
  rewrite (many_intersect k (firstn m Ts) h) in H; auto; try discriminate; rewrite ?Lf; auto.
  destruct k; auto.
Qed.

Theorem bin_wide : forall (u : N) (l : list bitem), (2 <= u <= 2 ^ 48)%N -> 16 < length l -> Forall (bitem_ok u) l ->
  let m := N.to_nat (N.of_nat (length l) mod 2 ^ 16) in
  exists Ts, each_ok (make_bitem u) l = Ok Ts /\
    forall s1 s2 hc runs, (1 <= hc < 2 ^ 16)%N -> (4 * 2 ^ N.log2 hc <= rounded u)%N ->
      m <> 0 \/ runs = false \/ hc = 1%N ->
      (exists e, Intersect Bin s1 s2 hc (map bin_ops Ts) runs true = UB e) \/
      (1 <= m <= 16 /\ exists r, Intersect Bin s1 s2 hc (map bin_ops Ts) runs true = Ok r /\
         Intersect Bin s1 s2 hc (map bin_ops (firstn m Ts)) runs true = Ok r /\ (runs = false -> r = [])).
Proof.
  intros u l Hu Hn Hl m. destruct (bin_family u l Hu Hl) as (h & Ts & ts & Hh & _ & _ & Eh & E & HR & HS & _).
  assert (L : length (map bin_ops Ts) = length l) by (rewrite (Forall2_length HR), (Forall2_length HS), map_length; auto).
  exists Ts. split; auto. intros s1 s2 hc runs Hc H4 Hm. rewrite (height_rounded u h) in * by (auto; lia).
  assert (H4' : (2 + N.log2 hc <= N.of_nat h)%N).
  { unfold pow2 in H4. change 4%N with (2 ^ 2)%N in H4. rewrite <- N.pow_add_r in H4.
    apply N.pow_le_mono_r_iff in H4; [exact H4|reflexivity]. }
  assert (H2 : 2 <= h /\ N.to_nat (N.log2 hc) <= h - 2) by (clear - H4'; lia). destruct H2 as (H2 & H3).
  assert (Hh' : forall T, In T (map bin_ops Ts) -> t_height T = h) by (eapply inst_heights; eauto).
  assert (TE : Forall ops_end (map bin_ops Ts)).
  { apply Forall_forall. intros T HT. apply in_map_iff in HT. destruct HT as (t & <- & _). apply bin_ops_end. }
  assert (En : n_tries (length (map bin_ops Ts)) = m) by (rewrite L; reflexivity).
  destruct (Nat.eq_dec m 0) as [Z|Z].
  - left. apply (none_intersect Bin s1 s2 hc _ h); auto; try (rewrite L; exact Hn); try (rewrite En; exact Z).
    destruct Hm as [Hm|Hm]; [contradiction|exact Hm].
  - destruct (wide_intersect Bin s1 s2 hc (map bin_ops Ts) h runs) as [H|(r & H & H' & H'')]; auto;
      try (rewrite L; exact Hn); try (rewrite En; exact Z).
    right. split; [split; [lia|]|exists r; rewrite En, firstn_map in H'; auto].
    assert (M1 : m <= length (map bin_ops Ts)).
    { rewrite L. unfold m. assert (X : (N.of_nat (length l) mod 2 ^ 16 <= N.of_nat (length l))%N) by (apply N.mod_le; discriminate).
      clear - X. revert X. generalize (N.of_nat (length l) mod 2 ^ 16)%N. intros. lia. }
    assert (M2 : (N.of_nat m < 2 ^ 16)%N) by (unfold m; rewrite N2Nat.id; apply N.mod_lt; discriminate).
    assert (Nd : forall T, In T (map bin_ops Ts) -> in_or_out (t_getNode T 0 0)).
    { intros T HT. apply in_map_iff in HT. destruct HT as (t & <- & _). apply bin_node_io. }
    rewrite En in H'.
    exact (wide_first Bin _ h runs s1 s2 hc r m M1 M2 ltac:(lia) Hh' Nd I (proj1 Hc) H').
Qed.

Theorem fast_wide : forall (u : N) (lw : nat) (l : list fitem), fast_universe u lw -> 16 < length l -> Forall (fitem_ok u) l ->
  let m := N.to_nat (N.of_nat (length l) mod 2 ^ 16) in
  exists Ts, each_ok (make_fitem u lw) l = Ok Ts /\
    forall s1 s2 hc runs, (1 <= hc < 2 ^ 16)%N -> (2 * 2 ^ N.of_nat lw * 2 ^ N.log2 hc <= rounded u)%N ->
      m <> 0 \/ runs = false \/ hc = 1%N ->
      (exists e, Intersect (Fast lw) s1 s2 hc (map fast_ops Ts) runs true = UB e) \/
      (1 <= m <= 16 /\ exists r, Intersect (Fast lw) s1 s2 hc (map fast_ops Ts) runs true = Ok r /\
         Intersect (Fast lw) s1 s2 hc (map fast_ops (firstn m Ts)) runs true = Ok r /\ (runs = false -> r = [])).
Proof.
  intros u lw l Hu Hn Hl m.
  destruct (fast_family u lw l Hu Hl) as (d & Ts & ts & Hw & Hd & Eh & Hu' & _ & E & HR & HS & _).
  assert (L : length (map fast_ops Ts) = length l) by (rewrite (Forall2_length HR), (Forall2_length HS), map_length; auto).
  exists Ts. split; auto. intros s1 s2 hc runs Hc H4 Hm. rewrite (height_rounded u (d + lw)) in * by (auto; lia).
  assert (H4' : (1 + N.of_nat lw + N.log2 hc <= N.of_nat (d + lw))%N).
  { unfold pow2 in H4. change (2 * 2 ^ N.of_nat lw)%N with (2 ^ 1 * 2 ^ N.of_nat lw)%N in H4. rewrite <- !N.pow_add_r in H4.
    apply N.pow_le_mono_r_iff in H4; [exact H4|reflexivity]. }
  assert (H2 : 2 <= S d /\ N.to_nat (N.log2 hc) <= S d - 2) by (clear - H4'; lia). destruct H2 as (H2 & H3).
  assert (Hh' : forall T, In T (map fast_ops Ts) -> t_height T = S d) by (eapply inst_heights; eauto).
  assert (TE : Forall ops_end (map fast_ops Ts)).
  { apply Forall_forall. intros T HT. apply in_map_iff in HT. destruct HT as (t & <- & _). apply fast_ops_end. }
  assert (En : n_tries (length (map fast_ops Ts)) = m) by (rewrite L; reflexivity).
  assert (K : lw <= 6) by lia.
  destruct (Nat.eq_dec m 0) as [Z|Z].
  - left. apply (none_intersect (Fast lw) s1 s2 hc _ (S d)); auto; try (rewrite L; exact Hn); try (rewrite En; exact Z).
    destruct Hm as [Hm|Hm]; [contradiction|exact Hm].
  - destruct (wide_intersect (Fast lw) s1 s2 hc (map fast_ops Ts) (S d) runs) as [H|(r & H & H' & H'')]; auto;
      try (rewrite L; exact Hn); try (rewrite En; exact Z).
    right. split; [split; [lia|]|exists r; rewrite En, firstn_map in H'; auto].
    assert (M1 : m <= length (map fast_ops Ts)).
    { rewrite L. unfold m. assert (X : (N.of_nat (length l) mod 2 ^ 16 <= N.of_nat (length l))%N) by (apply N.mod_le; discriminate).
      clear - X. revert X. generalize (N.of_nat (length l) mod 2 ^ 16)%N. intros. lia. }
    assert (M2 : (N.of_nat m < 2 ^ 16)%N) by (unfold m; rewrite N2Nat.id; apply N.mod_lt; discriminate).
    assert (Nd : forall T, In T (map fast_ops Ts) -> in_or_out (t_getNode T 0 0)).
    { intros T HT. apply in_map_iff in HT. destruct HT as (t & <- & _). apply fast_node_io. }
    assert (W : forall T, In T (map fast_ops Ts) -> in_or_out (t_getWord T 0)).
    { intros T HT. apply in_map_iff in HT. destruct HT as (t & <- & _). apply fast_word_io. }
    rewrite En in H'.
    exact (wide_first (Fast lw) _ (S d) runs s1 s2 hc r m M1 M2 ltac:(lia) Hh' Nd W (proj1 Hc) H').
Qed.

Lemma others_ok : forall n, Forall (bitem_ok 8) (repeat (VFlat false, false, [1; 6]%N) n).
Proof.
  intros n. apply Forall_forall. intros x Hx. apply repeat_spec in Hx. subst x. repeat split; try discriminate; repeat constructor.
Qed.

Lemma whole_ok_8 : bitem_ok 8 (VLevel false, true, [0; 1; 2; 3; 4; 5; 6; 7]%N).
Proof. repeat split; try discriminate; repeat constructor. Qed.

Lemma each_ok_repeat : forall A B (f : A -> result B) x y n, f x = Ok y -> each_ok f (repeat x n) = Ok (repeat y n).
Proof. intros A B f x y n H. induction n as [|n IH]; cbn [repeat each_ok]; [reflexivity|]. rewrite H. cbn [bind]. rewrite IH. reflexivity. Qed.

Lemma map_repeat : forall A B (f : A -> B) x n, map f (repeat x n) = repeat (f x) n.
Proof. induction n as [|n IH]; cbn [repeat map]; congruence. Qed.

Lemma wide_done : forall k s1 s2 hc Ts h runs r m, Ts <> [] -> (forall T, In T Ts -> t_height T = h) -> (1 <= hc)%N ->
  N.to_nat (N.log2 hc) <= h - 2 ->
  par_plan k (firstn (n_tries (length Ts)) Ts) (n_tries (length Ts)) h runs (N.to_nat (N.log2 hc)) (2 ^ N.log2 hc)%N
    = Ok (Done r m) ->
  Intersect k s1 s2 hc Ts runs true = Ok r.
Proof.
  intros k s1 s2 hc Ts h runs r m Hne Hh Hc Hcut H. rewrite first_plan in H. unfold Intersect, Intersect_mem.
  destruct Ts as [|T0 Ts]; [congruence|]. change (vget (T0 :: Ts) 0) with (Ok T0). cbn [bind].
  rewrite (Hh T0 (or_introl eq_refl)).
  assert (Hs : same_height h (T0 :: Ts) = true) by (apply forallb_forall; intros; apply Nat.eqb_eq; auto).
  rewrite Hs. cbn [negb]. replace (N.eqb hc 0) with false by (symmetry; apply N.eqb_neq; lia).
  replace (N.to_nat (N.log2 hc) <=? h - 2) with true by (symmetry; apply Nat.leb_le; auto).
  rewrite Bool.orb_true_r. cbn [andb]. rewrite H. reflexivity.
Qed.

Lemma wide_copies : forall n T0 T1, (N.of_nat (S n) mod 2 ^ 16 = 1)%N ->
  make_bitem 8 (VLevel false, true, [0; 1; 2; 3; 4; 5; 6; 7]%N) = Ok T0 ->
  make_bitem 8 (VFlat false, false, [1; 6]%N) = Ok T1 ->
  Intersect Bin in_order in_order 2 (bin_ops T0 :: repeat (bin_ops T1) n) true true = Ok [0; 1; 2; 3; 4; 5; 6; 7]%N.
Proof.
  intros n T0 T1 Hn E0 E1. vm_compute in E0, E1. injection E0 as <-. injection E1 as <-.
  match goal with |- Intersect _ _ _ _ (?a :: repeat ?b n) _ _ = _ => set (A := a); set (B := b) end.
  assert (Hm : n_tries (length (A :: repeat B n)) = 1).
  { cbn [length]. rewrite repeat_length. unfold n_tries, wrap16. rewrite Hn. reflexivity. }
  apply (wide_done Bin in_order in_order 2 (A :: repeat B n) 3 true _ (mkMem 0 [])); [discriminate| |discriminate|cbn; lia|].
  - intros T [<-|HT]; [reflexivity|]. apply repeat_spec in HT. subst T. reflexivity.
  - rewrite Hm. cbn [firstn]. vm_compute. reflexivity.
Qed.

Theorem wide_example :
  let others := repeat (VFlat false, false, [1; 6]%N) (N.to_nat 65536) in
  let first := (VLevel false, true, [0; 1; 2; 3; 4; 5; 6; 7]%N) in
  (16 < length (first :: others) /\ Forall (bitem_ok 8) (first :: others) /\
   N.to_nat (N.of_nat (length (first :: others)) mod 2 ^ 16) = 1 /\ (4 * 2 ^ N.log2 2 <= rounded 8)%N) /\
  (let* Ts := each_ok (make_bitem 8) (first :: others) in Intersect Bin in_order in_order 2 (map bin_ops Ts) true true)
    = Ok [0; 1; 2; 3; 4; 5; 6; 7]%N.
Proof.
  assert (Hn : (N.of_nat (S (N.to_nat 65536)) mod 2 ^ 16 = 1)%N) by (rewrite Nat2N.inj_succ, N2Nat.id; reflexivity).
  assert (Hl : 16 < S (N.to_nat 65536)) by lia.
  revert Hn Hl. generalize (N.to_nat 65536). intros n Hn Hl others first.
  assert (L : length (first :: others) = S n) by (unfold others; cbn [length]; rewrite repeat_length; reflexivity).
  split.
  - rewrite L, Hn. split; [exact Hl|]. split; [constructor; [exact whole_ok_8|apply others_ok]|]. split; [reflexivity|discriminate].
  - destruct (make_bitem 8 first) as [T0| |] eqn:E0; [|vm_compute in E0; discriminate..].
    destruct (make_bitem 8 (VFlat false, false, [1; 6]%N)) as [T1| |] eqn:E1; [|vm_compute in E1; discriminate..].
    cbn [each_ok]. rewrite E0. cbn [bind]. unfold others. rewrite (each_ok_repeat _ _ _ _ _ _ E1). cbn [bind map].
    rewrite map_repeat. apply wide_copies; auto.
Qed.

Theorem wrapped_example :
  let l := repeat (VFlat false, false, [1; 6]%N) (N.to_nat 65536) in
  (Forall (bitem_ok 8) l /\ l <> [] /\ (N.of_nat (length l) mod 2 ^ 16 = 0)%N /\ (4 * 2 ^ N.log2 2 <= rounded 8)%N) /\
  (let* Ts := each_ok (make_bitem 8) l in Intersect Bin in_order in_order 2 (map bin_ops Ts) true true)
    = Ok [0; 1; 2; 3; 4; 5; 6; 7]%N.
Proof.
  assert (Hn : (N.of_nat (N.to_nat 65536) mod 2 ^ 16 = 0)%N) by (rewrite N2Nat.id; reflexivity).
  assert (Hl : 0 < N.to_nat 65536) by lia.
  revert Hn Hl. generalize (N.to_nat 65536). intros n Hn Hl l.
  assert (L : length l = n) by apply repeat_length.
  split.
  - rewrite L, Hn. split; [apply others_ok|]. split; [intros E; rewrite E in L; cbn [length] in L; lia|]. split; [reflexivity|discriminate].
  - destruct (make_bitem 8 (VFlat false, false, [1; 6]%N)) as [T1| |] eqn:E1; [|vm_compute in E1; discriminate..].
    unfold l. rewrite (each_ok_repeat _ _ _ _ _ _ E1). cbn [bind]. rewrite map_repeat.
    vm_compute in E1. injection E1 as <-.
    match goal with |- Intersect _ _ _ _ (repeat ?b n) _ _ = _ => set (B := b) end.
    change [0; 1; 2; 3; 4; 5; 6; 7]%N with (nrange 0 (2 ^ total_bits Bin 3)).
    apply wrapped_intersect; [|intros T HT; apply repeat_spec in HT; subst T; reflexivity|
      rewrite repeat_length; exact Hn|discriminate|cbn; lia|cbn; lia].
    intros E. apply (f_equal (@length _)) in E. rewrite repeat_length in E. cbn [length] in E. lia.
Qed.
