(** Laws of parallel intersection over run-encoded tries. *)

From Verif Require Import Base FlatTrie LevelTrie FastTrie ParallelFor Intersection Tries Serialize Tools Spec SpecTries SpecTools
  SpecLost SpecAnswers Facts InterMain InterRefute InterLaws InterExact SpecFiles SerializeThms ParForThms ToolsFacts ToolsThms FastToolsThms ToolsExact.

Section Same.
Variables (xs ys : list (bool * list N)).
Hypothesis sub : incl xs ys.

Lemma all_sub : forall P : bool * list N -> Prop, Forall P ys -> Forall P xs.
Proof. intros P F. rewrite Forall_forall in *. auto. Qed.

Lemma some_sub : forall P : bool * list N -> Prop, Exists P xs -> Exists P ys.
Proof. intros P E. rewrite Exists_exists in *. destruct E as (x & I & H). eauto. Qed.

Lemma met_sub : forall b q, met b q ys -> met b q xs.
Proof. intros b q. apply all_sub. Qed.

Lemma disagree_sub : forall b v, disagree b v xs -> disagree b v ys.
Proof. intros b v (A & B). split; apply some_sub; auto. Qed.

Lemma share_sub : forall b q, share b ys q -> share b xs q.
Proof. intros b q (M & S). split; [apply met_sub; auto|]. intros j J E. apply (S j J). apply some_sub. auto. Qed.

Lemma tasks_sub : forall b q k k', tasks_of b xs q k -> tasks_of b ys q k' -> k' <= k.
Proof.
  intros b q k k' [(E & ->)|(NE & hs & N & H & ->)] [(E' & ->)|(NE' & hs' & N' & H' & ->)]; try lia.
  - exfalso. apply NE'. apply some_sub. auto.
  - apply NoDup_incl_length; auto. intros h I. apply H' in I. destruct I as (I & M). apply H. split; auto.
    apply met_sub. auto.
Qed.

(** What is divided stays divided when there is less to do. *)
Lemma divided_sub : forall nT b qs made es rest, divided nT b xs qs made es rest ->
  forall qs' made' es' rest', divided nT b ys qs' made' es' rest' -> increasing qs -> increasing qs' -> incl qs' qs ->
  made' <= made -> forall q, In q es -> In q qs' -> In q es'.
Proof.
  intros nT b qs made es rest D. induction D as [made|q0 qs made Hs|q0 qs made k es rest Hg T D IH];
    intros qs' made' es' rest' D' I I' Sub L q Qe Qq; try destruct Qe.
  - (* the divided block itself *)
    subst q0. destruct qs' as [|q1 qs']; [destruct Qq|].
    assert (q1 = q).
    { apply StronglySorted_inv in I. destruct I as (_ & F). apply StronglySorted_inv in I'. destruct I' as (_ & F').
      rewrite Forall_forall in F, F'. destruct (Sub q1 (or_introl eq_refl)) as [E|E]; auto.
      destruct Qq as [->|Qq]; auto. specialize (F q1 E). specialize (F' q Qq). lia. }
    subst q1. inversion D' as [|? ? ? Hs'|? ? ? k' es1 rest1 Hg' T' D1]; subst; [|left; auto].
    assert (length qs' <= length qs).
    { assert (length (q :: qs') <= length (q :: qs)); [|cbn in *; lia]. apply NoDup_incl_length; auto.
      clear - I'. induction I' as [|x l I IH F]; constructor; auto. intros X. rewrite Forall_forall in F. specialize (F x X). lia. }
    cbn [length] in *. lia.
  - destruct (in_dec N.eq_dec q0 qs') as [Y|Y].
    + destruct qs' as [|q1 qs']; [destruct Y|].
      assert (q1 = q0).
      { apply StronglySorted_inv in I. destruct I as (_ & F). apply StronglySorted_inv in I'. destruct I' as (_ & F').
        rewrite Forall_forall in F, F'. destruct (Sub q1 (or_introl eq_refl)) as [E|E]; auto.
        destruct Y as [->|Y]; auto. specialize (F q1 E). specialize (F' q0 Y). lia. }
      subst q1. destruct Qq as [->|Qq].
      { exfalso. apply StronglySorted_inv in I. destruct I as (_ & F). rewrite Forall_forall in F.
        assert (E : In q qs) by (clear - D H; induction D; [destruct H|destruct H|destruct H; [left; auto|right; auto]]).
        specialize (F q E). lia. }
      assert (LL : length qs' <= length qs).
      { assert (length (q0 :: qs') <= length (q0 :: qs)); [|cbn in *; lia]. apply NoDup_incl_length; auto.
        clear - I'. induction I' as [|x l I IH F]; constructor; auto. intros X. rewrite Forall_forall in F. specialize (F x X). lia. }
      inversion D' as [|? ? ? Hs'|? ? ? k' es1 rest1 Hg' T' D1]; subst; [cbn [length] in *; lia|]. right.
      assert (K := tasks_sub _ _ _ _ T T').
      apply StronglySorted_inv in I. destruct I as (I & F). apply StronglySorted_inv in I'. destruct I' as (I' & F').
      eapply (IH qs' (made' + k')); eauto; [|lia]. intros z Z. destruct (Sub z (or_intror Z)) as [<-|]; auto.
      rewrite Forall_forall in F'. specialize (F' q0 Z). lia.
    + apply StronglySorted_inv in I. destruct I as (I & F).
      eapply (IH qs' made'); eauto; [|lia]. intros z Z. destruct (Sub z Z) as [<-|]; auto. contradiction.
Qed.
End Same.

Lemma run_smaller : forall b j v x, (b <> 0)%N -> run_around (b * 2 ^ j) v x -> run_around b v x.
Proof.
  intros b j v x B (E & H). split; auto. intros y Y. apply H.
  assert (P : (2 ^ j <> 0)%N) by (apply N.pow_nonzero; discriminate). rewrite <- !N.div_div by auto. rewrite Y. reflexivity.
Qed.

Lemma run_block : forall b j v x, (b <> 0)%N -> run_around (b * 2 ^ j) (v / b * b) x -> run_around (b * 2 ^ j) v x.
Proof.
  intros b j v x B (E & H). split; auto. intros y Y. apply H. rewrite Y.
  assert (P : (2 ^ j <> 0)%N) by (apply N.pow_nonzero; discriminate). rewrite <- !N.div_div by auto.
  rewrite N.div_mul by auto. reflexivity.
Qed.

Theorem outcome_smaller : forall b nT xs ys r r', b <> 0%N -> xs <> [] -> incl xs ys ->
  parallel_outcome b nT xs r -> parallel_outcome b nT ys r' -> incl r' r.
Proof.
  intros b nT xs ys r r' B NE Sub O O'.
  assert (NE' : ys <> []) by (intros ->; destruct xs as [|x xs]; [auto|destruct (Sub x); cbn; auto]).
  destruct (outcome_members b nT xs r B NE O) as (qs & es & rest & I & Q & D & _ & M).
  destruct (outcome_members b nT ys r' B NE' O') as (qs' & es' & rest' & I' & Q' & D' & _ & M').
  intros v V. apply M' in V. destruct V as (C & A & E). apply M.
  split; [eapply all_sub; eauto|]. split.
  - intros j J X. apply (A j J). eapply disagree_sub; eauto.
  - intros Ve X. assert (X' := disagree_sub _ _ Sub _ _ X). destruct X as (_ & X). rewrite Exists_exists in X.
    destruct X as (x & Ix & Nx).
    assert (S' : share b ys (v / b)).
    { split.
      - rewrite Forall_forall in C. unfold met. rewrite Forall_forall. intros y Iy. exists v. split; auto.
      - intros j J Ej. rewrite Exists_exists in Ej. destruct Ej as (y & Iy & Ry). apply run_block in Ry; auto.
        apply (A j J). split; rewrite Exists_exists; [exists y; auto|]. exists x. split; [apply Sub; auto|].
        intros R. apply Nx. eapply run_smaller; eauto. }
    apply E; auto. assert (L : forall q, In q qs' -> In q qs) by (intros q; rewrite Q, Q'; apply share_sub; auto).
    eapply (divided_sub xs ys Sub); eauto. apply Q'. auto.
Qed.

Lemma common_same : forall xs ys P P' r, (forall Q, Forall Q xs <-> Forall Q ys) -> (forall v, P v <-> P' v) ->
  common_where xs P r -> common_where ys P' r.
Proof. intros xs ys P P' r F E (I & A). split; auto. intros v. rewrite A, F, E. tauto. Qed.

Theorem outcome_same : forall b nT xs ys r, (forall x, In x xs <-> In x ys) ->
  parallel_outcome b nT xs r -> parallel_outcome b nT ys r.
Proof.
  intros b nT xs ys r S O.
  assert (FA : forall P, Forall P xs <-> Forall P ys) by (intros P; rewrite !Forall_forall; firstorder).
  assert (EX : forall P, Exists P xs <-> Exists P ys) by (intros P; rewrite !Exists_exists; firstorder).
  destruct O as (qs & es & rest & r1 & r2 & r3 & r4 & Q1 & Q2 & Q3 & E & A1 & A2 & A3 & A4).
  exists qs, es, rest, r1, r2, r3, r4. split; [exact Q1|]. split; [|split; [|split; [exact E|]]].
  - intros q. rewrite Q2. unfold share, met. rewrite FA. split; intros (A & B); split; auto; intros j J X; apply (B j J); apply EX; auto.
  - assert (TK : forall q k, tasks_of b xs q k -> tasks_of b ys q k).
    { intros q k [(X & ->)|(X & hs & N & H & ->)]; [left|right].
      - split; auto. apply EX. auto.
      - split; [rewrite <- EX; auto|]. exists hs. split; auto. split; auto. intros h. rewrite H. unfold met. rewrite FA. tauto. }
    clear - Q3 TK. induction Q3; [constructor|constructor; auto|econstructor; eauto].
  - assert (DI : forall w v, disagree w v xs <-> disagree w v ys) by (intros w v; unfold disagree; rewrite !EX; tauto).
    split; [|split; [|split]].
    + refine (common_same xs ys _ _ _ FA _ A1); cbv beta. intros v. split; intros ((j & J & X) & Y); (split; [exists j; split; [exact J|apply FA; exact X]|]);
        intros i I D; apply (Y i I); apply DI; exact D.
    + refine (common_same xs ys _ _ _ FA _ A2); cbv beta. intros v. rewrite FA. tauto.
    + refine (common_same xs ys _ _ _ FA _ A3); cbv beta. intros v. rewrite EX. tauto.
    + refine (common_same xs ys _ _ _ FA _ A4); cbv beta. tauto.
Qed.

(** * Calls *)

Lemma block_nonzero : forall u hc k, k <> 0%N -> (k * 2 ^ N.log2 hc <= rounded u)%N -> thread_block u hc <> 0%N.
Proof.
  intros u hc k K H E. unfold thread_block in E. apply N.div_small_iff in E; [|apply N.pow_nonzero; discriminate].
  assert (2 ^ N.log2 hc <= k * 2 ^ N.log2 hc)%N; [|lia]. rewrite <- (N.mul_1_l (2 ^ N.log2 hc)) at 1.
  apply N.mul_le_mono_r. lia.
Qed.

Lemma incl_both : forall A (l l' : list A), incl l l' -> incl l' l -> forall x, In x l <-> In x l'.
Proof. intros A l l' H H' x. split; auto. Qed.

(** Both descriptions at once. *)
Definition outcome (low u hc : N) (xs : list (bool * list N)) (r : list N) : Prop :=
  ((low * 2 ^ N.log2 hc <= rounded u)%N ->
   parallel_outcome (thread_block u hc) (N.to_nat (2 ^ N.log2 hc)) xs r) /\
  ((rounded u < low * 2 ^ N.log2 hc)%N -> is_intersection (map snd xs) r).

Lemma outcome_laws : forall low u hc xs ys r r', low <> 0%N -> xs <> [] -> incl xs ys ->
  outcome low u hc xs r -> outcome low u hc ys r' ->
  incl r' r /\ (incl ys xs -> r' = r).
Proof.
  intros low u hc xs ys r r' L NE Sub (H1 & H2) (H1' & H2').
  destruct (N.le_gt_cases (low * 2 ^ N.log2 hc) (rounded u)) as [K|K].
  - specialize (H1 K). specialize (H1' K). assert (B := block_nonzero u hc low L K). split.
    + eapply outcome_smaller; eauto.
    + intros Sup. eapply outcome_unique; eauto. eapply outcome_same; eauto. apply incl_both; auto.
  - destruct (H2 K) as (I & A). destruct (H2' K) as (I' & A'). split.
    + intros v. rewrite A, A'. rewrite !Forall_map, !Forall_forall. auto.
    + intros Sup. apply (inter_unique (map snd ys) (map snd xs)).
      * intros s. rewrite !in_map_iff. split; intros (x & E & X); exists x; auto.
      * split; auto.
      * split; auto.
Qed.

Lemma outcome_one : forall low u hc x r, low <> 0%N -> outcome low u hc [x] r -> NoDup r /\ forall v, In v r <-> In v (snd x).
Proof.
  intros low u hc x r L (H1 & H2). destruct (N.le_gt_cases (low * 2 ^ N.log2 hc) (rounded u)) as [K|K].
  - assert (B := block_nonzero u hc low L K).
    destruct (outcome_members _ _ [x] r B ltac:(discriminate) (H1 K)) as (qs & es & rest & _ & _ & _ & N & M).
    split; auto. assert (ND : forall b v, ~ disagree b v [x]).
    { intros b v (A & A'). inversion A; subst; [|inversion H0]. inversion A'; subst; [contradiction|inversion H3]. }
    intros v. rewrite M. split; [intros (F & _); inversion F; auto|]. intros V. split; [constructor; auto|]. split; intros; apply ND.
  - destruct (H2 K) as (I & A). split; [|intros v; rewrite A; cbn [map]; split; [intros F; inversion F; auto|intros V; constructor; auto]].
    clear - I. induction I as [|y l I IH F]; constructor; auto. intros X. rewrite Forall_forall in F. specialize (F y X). lia.
Qed.

Lemma bin_outcome : forall (u : N) (l : list bitem) hc s1 s2,
  (3 <= u <= 2 ^ 48)%N -> 1 <= length l <= 16 -> Forall (bitem_ok u) l ->
  (1 <= hc < 2 ^ 16)%N -> valid_scheduler s1 -> valid_scheduler s2 ->
  exists Ts r, each_ok (make_bitem u) l = Ok Ts /\
    Intersect Bin s1 s2 hc (map bin_ops Ts) true true = Ok r /\ outcome 4 u hc (map b_part l) r.
Proof.
  intros u l hc s1 s2 U L F H V1 V2. destruct (N.le_gt_cases (4 * 2 ^ N.log2 hc) (rounded u)) as [K|K].
  - destruct (bin_par_exact u l hc s1 s2 U L F H V1 V2 K) as (Ts & r & E & I & O). exists Ts, r. split; auto. split; auto.
    split; auto. intros K'. lia.
  - destruct (bin_par_runs_exact u l hc s1 s2 U L F H V1 V2 (or_intror K)) as (Ts & r & E & I & O). exists Ts, r.
    split; auto. split; auto. split; [intros K'; lia|]. intros _. rewrite map_map. exact O.
Qed.

Lemma fast_outcome : forall (u : N) (lw : nat) (l : list fitem) hc s1 s2,
  fast_universe u lw -> (2 ^ N.of_nat lw < u)%N -> 1 <= length l <= 16 -> Forall (fitem_ok u) l ->
  (1 <= hc < 2 ^ 16)%N -> valid_scheduler s1 -> valid_scheduler s2 ->
  exists Ts r, each_ok (make_fitem u lw) l = Ok Ts /\
    Intersect (Fast lw) s1 s2 hc (map fast_ops Ts) true true = Ok r /\
    outcome (2 * 2 ^ N.of_nat lw) u hc (map f_part l) r.
Proof.
  intros u lw l hc s1 s2 U W L F H V1 V2. destruct (N.le_gt_cases (2 * 2 ^ N.of_nat lw * 2 ^ N.log2 hc) (rounded u)) as [K|K].
  - destruct (fast_par_exact u lw l hc s1 s2 U W L F H V1 V2 K) as (Ts & r & E & I & O). exists Ts, r. split; auto. split; auto.
    split; auto. intros K'. exfalso. exact (N.lt_irrefl _ (N.lt_le_trans _ _ _ K' K)).
  - destruct (fast_par_runs_exact u lw l hc s1 s2 U W L F H V1 V2 (or_intror K)) as (Ts & r & E & I & O). exists Ts, r.
    split; auto. split; auto. split; [intros K'; exfalso; exact (N.lt_irrefl _ (N.lt_le_trans _ _ _ K K'))|].
    intros _. rewrite map_map. exact O.
Qed.

Theorem bin_laws : forall u (l l' : list bitem) hc s1 s2 s1' s2', (3 <= u <= 2 ^ 48)%N ->
  1 <= length l <= 16 -> 1 <= length l' <= 16 -> Forall (bitem_ok u) l -> Forall (bitem_ok u) l' ->
  incl (map b_part l) (map b_part l') -> (1 <= hc < 2 ^ 16)%N ->
  valid_scheduler s1 -> valid_scheduler s2 -> valid_scheduler s1' -> valid_scheduler s2' ->
  exists Ts Ts' r r', each_ok (make_bitem u) l = Ok Ts /\ each_ok (make_bitem u) l' = Ok Ts' /\
    Intersect Bin s1 s2 hc (map bin_ops Ts) true true = Ok r /\
    Intersect Bin s1' s2' hc (map bin_ops Ts') true true = Ok r' /\
    incl r' r /\ (incl (map b_part l') (map b_part l) -> r' = r).
Proof.
  intros u l l' hc s1 s2 s1' s2' U L L' F F' Sub H V1 V2 V1' V2'.
  destruct (bin_outcome u l hc s1 s2 U L F H V1 V2) as (Ts & r & E & I & O).
  destruct (bin_outcome u l' hc s1' s2' U L' F' H V1' V2') as (Ts' & r' & E' & I' & O').
  exists Ts, Ts', r, r'. split; auto. split; auto. split; auto. split; auto.
  apply (outcome_laws 4 u hc (map b_part l) (map b_part l')); auto; [discriminate|].
  destruct l; [cbn in L; lia|discriminate].
Qed.

Theorem fast_laws_par : forall u lw (l l' : list fitem) hc s1 s2 s1' s2', fast_universe u lw -> (2 ^ N.of_nat lw < u)%N ->
  1 <= length l <= 16 -> 1 <= length l' <= 16 -> Forall (fitem_ok u) l -> Forall (fitem_ok u) l' ->
  incl (map f_part l) (map f_part l') -> (1 <= hc < 2 ^ 16)%N ->
  valid_scheduler s1 -> valid_scheduler s2 -> valid_scheduler s1' -> valid_scheduler s2' ->
  exists Ts Ts' r r', each_ok (make_fitem u lw) l = Ok Ts /\ each_ok (make_fitem u lw) l' = Ok Ts' /\
    Intersect (Fast lw) s1 s2 hc (map fast_ops Ts) true true = Ok r /\
    Intersect (Fast lw) s1' s2' hc (map fast_ops Ts') true true = Ok r' /\
    incl r' r /\ (incl (map f_part l') (map f_part l) -> r' = r).
Proof.
  intros u lw l l' hc s1 s2 s1' s2' U W L L' F F' Sub H V1 V2 V1' V2'.
  destruct (fast_outcome u lw l hc s1 s2 U W L F H V1 V2) as (Ts & r & E & I & O).
  destruct (fast_outcome u lw l' hc s1' s2' U W L' F' H V1' V2') as (Ts' & r' & E' & I' & O').
  exists Ts, Ts', r, r'. split; auto. split; auto. split; auto. split; auto.
  apply (outcome_laws (2 * 2 ^ N.of_nat lw) u hc (map f_part l) (map f_part l')); auto.
  - intros Z. apply N.mul_eq_0 in Z. destruct Z as [Z|Z]; [discriminate|]. revert Z. apply N.pow_nonzero. discriminate.
  - destruct l; [cbn in L; lia|discriminate].
Qed.

Theorem bin_one : forall u (x : bitem) hc s1 s2, (3 <= u <= 2 ^ 48)%N -> bitem_ok u x -> (1 <= hc < 2 ^ 16)%N ->
  valid_scheduler s1 -> valid_scheduler s2 ->
  exists t r, make_bitem u x = Ok t /\ Intersect Bin s1 s2 hc [bin_ops t] true true = Ok r /\
    NoDup r /\ forall v, In v r <-> In v (snd x).
Proof.
  intros u x hc s1 s2 U F H V1 V2.
  destruct (bin_outcome u [x] hc s1 s2 U) as (Ts & r & E & I & O); auto; [cbn; lia|].
  cbn [each_ok] in E. destruct (make_bitem u x) as [t| |]; cbn [bind] in E; try discriminate.
  injection E as <-. exists t, r. split; auto. split; auto. apply (outcome_one 4 u hc (b_part x)); [discriminate|]. exact O.
Qed.

Theorem fast_one : forall u lw (x : fitem) hc s1 s2, fast_universe u lw -> (2 ^ N.of_nat lw < u)%N -> fitem_ok u x ->
  (1 <= hc < 2 ^ 16)%N -> valid_scheduler s1 -> valid_scheduler s2 ->
  exists t r, make_fitem u lw x = Ok t /\ Intersect (Fast lw) s1 s2 hc [fast_ops t] true true = Ok r /\
    NoDup r /\ forall v, In v r <-> In v (snd x).
Proof.
  intros u lw x hc s1 s2 U W F H V1 V2.
  destruct (fast_outcome u lw [x] hc s1 s2 U W) as (Ts & r & E & I & O); auto; [cbn; lia|].
  cbn [each_ok] in E. destruct (make_fitem u lw x) as [t| |]; cbn [bind] in E; try discriminate.
  injection E as <-. exists t, r. split; auto. split; auto. apply (outcome_one (2 * 2 ^ N.of_nat lw) u hc (f_part x)); [|exact O].
  intros Z. apply N.mul_eq_0 in Z. destruct Z as [Z|Z]; [discriminate|]. revert Z. apply N.pow_nonzero. discriminate.
Qed.

(** * Queries *)

Lemma lists_at_incl : forall lists q q', incl q q' -> incl (lists_at lists q) (lists_at lists q').
Proof. intros lists q q' H s. unfold lists_at. rewrite !in_map_iff. intros (i & E & I). exists i. auto. Qed.

Lemma answer_laws : forall low u hc lists q q' r r', low <> 0%N -> q <> [] -> incl q q' ->
  runs_answer low u hc lists q (Some r) -> runs_answer low u hc lists q' (Some r') ->
  incl r' r /\ (incl q' q -> r' = r).
Proof.
  intros low u hc lists q q' r r' L NE Sub (_ & A & B) (_ & A' & B').
  assert (M : forall l : list (list N), map snd (map (fun s => (true, s)) l) = l)
    by (intros l; rewrite map_map; cbn [snd]; apply map_id).
  destruct (outcome_laws low u hc (map (fun s => (true, s)) (lists_at lists q)) (map (fun s => (true, s)) (lists_at lists q')) r r')
    as (X & Y); auto.
  - destruct q; [congruence|discriminate].
  - apply incl_map, lists_at_incl; auto.
  - split; auto. rewrite M. auto.
  - split; auto. rewrite M. auto.
  - split; auto. intros Sup. apply Y. apply incl_map, lists_at_incl; auto.
Qed.

Lemma forall2_nth : forall A B (R : A -> B -> Prop) l l', Forall2 R l l' -> forall i a b,
  nth_error l i = Some a -> nth_error l' i = Some b -> R a b.
Proof.
  intros A B R l l' F. induction F; intros [|i] a b X Y; try discriminate; cbn in X, Y; [congruence|eauto].
Qed.

Theorem query_laws : forall fm min_size max_size rank_type block levelwise one u lists hc sched queries,
  formats_ok fm -> collection_ok one u lists -> (3 <= u)%N ->
  loadable_options rank_type block levelwise ->
  Forall (stored_ok u (built_variant rank_type levelwise) true) (kept_lists min_size max_size lists) ->
  (1 <= hc < 2 ^ 16)%N ->
  (forall nq rep, valid_scheduler (fst (sched nq rep)) /\ valid_scheduler (snd (sched nq rep))) ->
  Forall (query_ok (kept_lists min_size max_size lists)) queries ->
  exists file rs,
    build_tries fm min_size max_size rank_type block true levelwise (collection_file one u lists) = Ok file /\
    query_log fm sched hc true file queries = Ok rs /\ length rs = length queries /\
    forall i j q q' r r', nth_error queries i = Some q -> nth_error queries j = Some q' -> incl q q' ->
      nth_error rs i = Some (Some r) -> nth_error rs j = Some (Some r') ->
      incl r' r /\ (incl q' q -> r' = r).
Proof.
  intros fm mn mx rt bl lv one u lists hc sched queries H1 H2 H3 H4 H5 H6 H7 H8.
  destruct (end_to_end_exact fm mn mx rt bl lv one u lists hc sched queries H1 H2 H3 H4 H5 H6 H7 H8) as (file & rs & E & Q & F).
  exists file, rs. split; auto. split; auto. split; [clear - F; induction F; cbn [length]; auto|].
  intros i j q q' r r' I J Sub R R'.
  apply (answer_laws 4 u hc (kept_lists mn mx lists) q q' r r'); auto; [discriminate| |exact (forall2_nth _ _ _ _ _ F _ _ _ I R)|exact (forall2_nth _ _ _ _ _ F _ _ _ J R')].
  rewrite Forall_forall in H8. destruct (H8 q (nth_error_In _ _ I)) as (NE & _). exact NE.
Qed.

Theorem fast_query_laws :
  forall fm junk min_size max_size rank_type levelwise lw one u lists blank hc sched queries,
  formats_ok fm -> collection_ok one u lists -> fast_universe u lw -> (2 ^ N.of_nat lw < u)%N ->
  (rank_type < 2 ^ 32)%N -> rank_type <> 1%N ->
  junk_ok junk -> blank_ok blank -> Forall (fast_ok u) (kept_lists min_size max_size lists) ->
  (1 <= hc < 2 ^ 16)%N ->
  (forall nq rep, valid_scheduler (fst (sched nq rep)) /\ valid_scheduler (snd (sched nq rep))) ->
  queries <> [] -> Forall (query_ok (kept_lists min_size max_size lists)) queries ->
  exists file rs,
    build_fast_tries fm junk min_size max_size rank_type true levelwise lw (collection_file one u lists)
      = Ok file /\
    fast_query_log fm blank sched hc true file queries = Ok rs /\ length rs = length queries /\
    forall i j q q' r r', nth_error queries i = Some q -> nth_error queries j = Some q' -> incl q q' ->
      nth_error rs i = Some (Some r) -> nth_error rs j = Some (Some r') ->
      incl r' r /\ (incl q' q -> r' = r).
Proof.
  intros fm junk mn mx rt lv lw one u lists blank hc sched queries H1 H2 H3 H4 H5 H6 H7 H8 H9 H10 H11 H12 H13.
  destruct (fast_end_to_end_exact fm junk mn mx rt lv lw one u lists blank hc sched queries H1 H2 H3 H4 H5 H6 H7 H8 H9 H10 H11 H12 H13)
    as (file & rs & E & Q & F).
  exists file, rs. split; auto. split; auto. split; [clear - F; induction F; cbn [length]; auto|].
  intros i j q q' r r' I J Sub R R'.
  apply (answer_laws (2 * 2 ^ N.of_nat lw) u hc (kept_lists mn mx lists) q q' r r'); auto;
    [ | |exact (forall2_nth _ _ _ _ _ F _ _ _ I R)|exact (forall2_nth _ _ _ _ _ F _ _ _ J R')].
  - intros Z. apply N.mul_eq_0 in Z. destruct Z as [Z|Z]; [discriminate|]. revert Z. apply N.pow_nonzero. discriminate.
  - rewrite Forall_forall in H13. destruct (H13 q (nth_error_In _ _ I)) as (NE & _). exact NE.
Qed.

(** * What does not hold *)

Theorem larger_lose : exists (x x' y : bitem) r r',
  Forall (bitem_ok 64) [x; x'; y] /\ fst x = fst x' /\ incl (snd x) (snd x') /\
  (let* Ts := each_ok (make_bitem 64) [x; y] in
   Intersect Bin in_order in_order 4 (map bin_ops Ts) true true) = Ok r /\
  (let* Ts := each_ok (make_bitem 64) [x'; y] in
   Intersect Bin in_order in_order 4 (map bin_ops Ts) true true) = Ok r' /\
  In 9%N r /\ ~ In 9%N r'.
Proof.
  exists (VLevel false, true, map N.of_nat (seq 0 15) ++ [50%N]), (VLevel false, true, map N.of_nat (seq 0 16) ++ [50%N]),
    (VLevel true, true, [1; 9; 50]%N), [1; 9; 50]%N, [50%N].
  split; [constructor; [|constructor; [|constructor; [|constructor]]]; sets_ok|]. split; [reflexivity|].
  split; [intros v V; cbn in V |- *; tauto|]. split; [vm_compute; reflexivity|]. split; [vm_compute; reflexivity|].
  split; [right; left; reflexivity|]. intros [E|[]]; discriminate.
Qed.
