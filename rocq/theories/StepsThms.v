(** Threads that run access by access. *)

From Verif Require Import Base FlatTrie LevelTrie FastTrie ParallelFor Intersection Steps Facts SpecSteps
  ParFacts ParForThms InterTop Tries Spec SpecTries InterLaws InterRefute InterTiny.

(** * Threads that own what they write *)

Section Owners.
  Variable m0 : memory.
  (** [shared c]: nobody writes [c].  [own i c]: only thread [i] accesses [c]. *)
  Variable shared : cell -> Prop.
  Variable own : nat -> cell -> Prop.
  Hypothesis own_one : forall i j c, own i c -> own j c -> i = j.
  Hypothesis own_shared : forall i c, own i c -> ~ shared c.

  Fixpoint safe (i : nat) (p : prog) : Prop :=
    match p with
    | Stop | Fail => True
    | Get c k => (shared c /\ safe i (k (m0 c))) \/ (own i c /\ forall v, safe i (k v))
    | Put c _ p' => own i c /\ safe i p'
    end.

  (** A thread running alone. *)
  Fixpoint solo (p : prog) (m : memory) : option memory :=
    match p with
    | Stop => Some m
    | Fail => None
    | Get c k => solo (k (m c)) m
    | Put c v p' => solo p' (upd m c v)
    end.

  Lemma upd_same : forall m c v, upd m c v c = v.
  Proof. intros. unfold upd. destruct (cell_eq_dec c c); congruence. Qed.

  Lemma upd_other : forall m c v c', c' <> c -> upd m c v c' = m c'.
  Proof. intros. unfold upd. destruct (cell_eq_dec c' c); congruence. Qed.

  (** Thread [i], started as [p0], is now [p] in memory [m]. *)
  Definition tracks (i : nat) (p0 p : prog) (m : memory) : Prop :=
    safe i p /\ exists mi, solo p mi = solo p0 m0 /\
      (forall c, own i c -> m c = mi c) /\ (forall c, ~ own i c -> mi c = m0 c).

  Definition inv (ts0 : list prog) (s : state) : Prop :=
    length (snd s) = length ts0 /\ (forall c, shared c -> fst s c = m0 c) /\
    forall i p0 p, nth_error ts0 i = Some p0 -> nth_error (snd s) i = Some p -> tracks i p0 p (fst s).

  Lemma tracks_step : forall i p0 p m, (forall c, shared c -> m c = m0 c) -> tracks i p0 p m ->
    tracks i p0 (snd (step1 m p)) (fst (step1 m p)) /\
    (forall c, ~ own i c -> fst (step1 m p) c = m c).
  Proof.
    intros i p0 p m Hs (S & mi & E & A & B). destruct p as [| |c k|c v p']; cbn [step1 fst snd].
    - split; auto. split; auto. exists mi. auto.
    - split; auto. split; auto. exists mi. auto.
    - split; auto. cbn [safe] in S. cbn [solo] in E.
      destruct S as [(Sc & S)|(Oc & S)].
      + rewrite (Hs c Sc). split; auto. exists mi. split; [|auto].
        rewrite <- (B c); auto. intros O. exact (own_shared _ _ O Sc).
      + split; auto. exists mi. split; [|auto]. rewrite (A c Oc). auto.
    - cbn [safe] in S. destruct S as (Oc & S). cbn [solo] in E. split.
      + split; auto. exists (upd mi c v). split; auto. split.
        * intros c' O'. unfold upd. destruct (cell_eq_dec c' c); auto.
        * intros c' O'. rewrite upd_other; auto. intros ->. auto.
      + intros c' O'. apply upd_other. intros ->. auto.
  Qed.

  Lemma nth_error_set : forall (ts : list prog) i j p', i < length ts ->
    nth_error (firstn i ts ++ p' :: skipn (S i) ts) j = if j =? i then Some p' else nth_error ts j.
  Proof.
    intros ts i j p' H. assert (L : length (firstn i ts) = i) by (rewrite firstn_length; lia).
    destruct (Nat.eqb_spec j i) as [->|N].
    - rewrite nth_error_app2 by lia. rewrite L, Nat.sub_diag. reflexivity.
    - rewrite <- (firstn_skipn i ts) at 3.
      destruct (Nat.lt_ge_cases j i) as [K|K].
      + rewrite !nth_error_app1 by lia. reflexivity.
      + rewrite !nth_error_app2 by lia. rewrite L.
        destruct (skipn i ts) as [|x r] eqn:X.
        { apply (f_equal (@length prog)) in X. rewrite skipn_length in X. cbn [length] in X. lia. }
        assert (E : skipn (S i) ts = r).
        { clear - X. revert ts X. induction i; intros ts X.
          - cbn [skipn] in X. subst ts. reflexivity.
          - destruct ts; [discriminate|]. cbn [skipn] in X. apply IHi in X. exact X. }
        rewrite E. destruct (j - i) as [|d] eqn:D; [lia|]. reflexivity.
  Qed.

  Lemma inv_step : forall ts0 i s, inv ts0 s -> inv ts0 (step i s).
  Proof.
    intros ts0 i (m & ts) (L & Hs & H). cbn [fst snd] in *. unfold step. cbn [fst snd].
    destruct (nth_error ts i) as [p|] eqn:Ei; [|split; auto].
    assert (Li : i < length ts) by (apply nth_error_Some; congruence).
    destruct (nth_error ts0 i) as [p0|] eqn:E0; [|exfalso; apply nth_error_None in E0; lia].
    destruct (tracks_step i p0 p m Hs (H _ _ _ E0 Ei)) as (T & K).
    destruct (step1 m p) as (m' & p') eqn:Es. cbn [fst snd] in *. split; [|split].
    - cbn [snd]. rewrite app_length. cbn [length]. rewrite firstn_length, skipn_length. lia.
    - cbn [fst]. intros c Sc. rewrite K; auto. intros O. exact (own_shared _ _ O Sc).
    - cbn [fst snd]. intros j q0 q J0 J. rewrite nth_error_set in J by auto.
      destruct (Nat.eqb_spec j i) as [->|N].
      + injection J as <-. rewrite E0 in J0. injection J0 as <-. exact T.
      + destruct (H _ _ _ J0 J) as (S & mi & X & A & B). split; auto. exists mi. split; auto. split; auto.
        intros c O. rewrite K; auto. intros O'. apply N. eauto.
  Qed.

  Lemma inv_exec : forall ts0 sched s, inv ts0 s -> inv ts0 (exec sched s).
  Proof. intros ts0. induction sched; intros s H; cbn [exec]; auto. apply IHsched, inv_step, H. Qed.

  Lemma inv_start : forall ts0, (forall i p, nth_error ts0 i = Some p -> safe i p) -> inv ts0 (m0, ts0).
  Proof.
    intros ts0 H. split; auto. split; auto. cbn [fst snd]. intros i p0 p E0 E. rewrite E0 in E.
    injection E as <-. split; eauto.
  Qed.

  Theorem safe_race_free : forall ts0, (forall i p, nth_error ts0 i = Some p -> safe i p) -> race_free m0 ts0.
  Proof.
    intros ts0 H sched R. assert (I := inv_exec ts0 sched _ (inv_start ts0 H)).
    destruct (exec sched (m0, ts0)) as (m & ts). cbn [snd] in R.
    destruct R as (i & j & p & q & c & w & w' & N & Ei & Ej & Ai & Aj & W).
    assert (A : forall i p, nth_error ts i = Some p -> safe i p).
    { intros i' p' E. destruct I as (L & _ & I). cbn [fst snd] in *.
      destruct (nth_error ts0 i') as [q0|] eqn:E0; [destruct (I _ _ _ E0 E); auto|].
      exfalso. apply nth_error_None in E0. assert (i' < length ts) by (apply nth_error_Some; congruence). lia. }
    assert (Q : forall i p c w, safe i p -> next_access p = Some (c, w) -> own i c \/ (shared c /\ w = false)).
    { intros i' p' c' w0 S E. destruct p'; try discriminate; injection E as <- <-; cbn [safe] in S.
      - destruct S as [(Sc & _)|(Oc & _)]; auto.
      - left. tauto. }
    destruct (Q _ _ _ _ (A _ _ Ei) Ai) as [Oi|(Si & ->)]; destruct (Q _ _ _ _ (A _ _ Ej) Aj) as [Oj|(Sj & ->)].
    - apply N. eauto.
    - exact (own_shared _ _ Oi Sj).
    - exact (own_shared _ _ Oj Si).
    - discriminate.
  Qed.

  (** When all threads have ended, each has left its cells as if it had run alone. *)
  Theorem safe_joined : forall ts0 sched m, (forall i p, nth_error ts0 i = Some p -> safe i p) ->
    joined (exec sched (m0, ts0)) = Ok m ->
    forall i p0, nth_error ts0 i = Some p0 -> exists mi, solo p0 m0 = Some mi /\
      forall c, own i c -> m c = mi c.
  Proof.
    intros ts0 sched m H J i p0 E0. destruct (inv_exec ts0 sched _ (inv_start ts0 H)) as (L & Hs & I).
    destruct (exec sched (m0, ts0)) as (m' & ts). cbn [fst snd] in *. unfold joined in J. cbn [fst snd] in J.
    destruct (forallb _ ts) eqn:F; [|destruct (existsb _ ts); discriminate]. injection J as ->.
    destruct (nth_error ts i) as [p|] eqn:E.
    - destruct (I _ _ _ E0 E) as (_ & mi & X & A & _). rewrite forallb_forall in F.
      specialize (F p (nth_error_In _ _ E)). destruct p; try discriminate. cbn [solo] in X. eauto.
    - apply nth_error_None in E. assert (i < length ts0) by (apply nth_error_Some; congruence). lia.
  Qed.

  (** Cells that nobody may write are as before. *)
  Lemma joined_shared : forall ts0 sched m, (forall i p, nth_error ts0 i = Some p -> safe i p) ->
    joined (exec sched (m0, ts0)) = Ok m -> forall c, shared c -> m c = m0 c.
  Proof.
    intros ts0 sched m H J c Sc. destruct (inv_exec ts0 sched _ (inv_start ts0 H)) as (_ & Hs & _).
    unfold joined in J. destruct (forallb _ _); [|destruct (existsb _ _); discriminate].
    injection J as <-. auto.
  Qed.

  (** A thread never fails if it does not alone. *)
  Theorem safe_no_fail : forall ts0 sched, (forall i p, nth_error ts0 i = Some p -> safe i p) ->
    (forall i p, nth_error ts0 i = Some p -> exists m, solo p m0 = Some m) ->
    (exists m, joined (exec sched (m0, ts0)) = Ok m) \/ joined (exec sched (m0, ts0)) = OutOfFuel.
  Proof.
    intros ts0 sched H S. destruct (inv_exec ts0 sched _ (inv_start ts0 H)) as (L & Hs & I).
    destruct (exec sched (m0, ts0)) as (m' & ts). cbn [fst snd] in *. unfold joined. cbn [fst snd].
    destruct (forallb _ ts); [eauto|]. destruct (existsb _ ts) eqn:F; auto. exfalso.
    apply existsb_exists in F. destruct F as (p & P & F). destruct p; try discriminate.
    apply In_nth_error in P. destruct P as (i & E).
    destruct (nth_error ts0 i) as [p0|] eqn:E0.
    - destruct (I _ _ _ E0 E) as (_ & mi & X & _). destruct (S _ _ E0) as (m & Y). rewrite Y in X. discriminate.
    - apply nth_error_None in E0. assert (i < length ts) by (apply nth_error_Some; congruence). lia.
  Qed.

  (** Running alone from a memory that other threads have changed. *)
  Lemma solo_agree : forall i p m m1 m1', safe i p -> (forall c, shared c -> m c = m0 c) ->
    (forall c, shared c -> m1 c = m0 c) -> (forall c, own i c -> m c = m1 c) -> solo p m1 = Some m1' ->
    exists m', solo p m = Some m' /\ forall c, ~ own i c -> m' c = m c.
  Proof.
    intros i. induction p as [| |c k IH|c v p IH]; intros m m1 m1' S A B O H; cbn [solo] in *.
    - eauto.
    - discriminate.
    - cbn [safe] in S. destruct S as [(Sc & S)|(Oc & S)].
      + rewrite (A c Sc). rewrite (B c Sc) in H. eapply IH; eauto.
      + rewrite (O c Oc). eapply IH; eauto.
    - cbn [safe] in S. destruct S as (Oc & S).
      destruct (IH (upd m c v) (upd m1 c v) m1' S) as (m' & E & F); auto.
      + intros c' Sc. rewrite upd_other; auto. intros ->. exact (own_shared _ _ Oc Sc).
      + intros c' Sc. rewrite upd_other; auto. intros ->. exact (own_shared _ _ Oc Sc).
      + intros c' O'. unfold upd. destruct (cell_eq_dec c' c); auto.
      + exists m'. split; auto. intros c' O'. rewrite F by auto. apply upd_other. intros ->. auto.
  Qed.
End Owners.

(** * Some schedule finishes *)

Fixpoint alone (p : prog) (m : memory) : nat :=
  match p with
  | Stop | Fail => 0
  | Get c k => S (alone (k (m c)) m)
  | Put c v p' => S (alone p' (upd m c v))
  end.

Lemma exec_app : forall a b s, exec (a ++ b) s = exec b (exec a s).
Proof. induction a; intros b s; cbn [app exec]; auto. Qed.

Lemma exec_alone : forall p m a b m', solo p m = Some m' ->
  exec (repeat (length a) (alone p m)) (m, a ++ p :: b) = (m', a ++ Stop :: b).
Proof.
  induction p as [| |c k IH|c v p IH]; intros m a b m' H; cbn [solo] in H; cbn [alone repeat exec].
  - injection H as <-. reflexivity.
  - discriminate.
  - unfold step at 1. cbn [fst snd]. rewrite nth_error_app2, Nat.sub_diag by lia. cbn [nth_error step1].
    rewrite firstn_app, firstn_all, Nat.sub_diag. cbn [firstn]. rewrite app_nil_r.
    replace (skipn (S (length a)) (a ++ Get c k :: b)) with b.
    + apply IH. exact H.
    + clear. induction a; cbn [length app skipn] in *; auto.
  - unfold step at 1. cbn [fst snd]. rewrite nth_error_app2, Nat.sub_diag by lia. cbn [nth_error step1].
    rewrite firstn_app, firstn_all, Nat.sub_diag. cbn [firstn]. rewrite app_nil_r.
    replace (skipn (S (length a)) (a ++ Put c v p :: b)) with b.
    + apply IH. exact H.
    + clear. induction a; cbn [length app skipn] in *; auto.
Qed.

Fixpoint solo_all (ts : list prog) (m : memory) : option memory :=
  match ts with
  | [] => Some m
  | p :: ts' => match solo p m with Some m' => solo_all ts' m' | None => None end
  end.

Lemma exec_all : forall ts m m' a, solo_all ts m = Some m' ->
  exists sched, exec sched (m, a ++ ts) = (m', a ++ map (fun _ => Stop) ts).
Proof.
  induction ts as [|p ts IH]; intros m m' a H; cbn [solo_all] in H.
  - injection H as <-. exists []. reflexivity.
  - destruct (solo p m) as [m1|] eqn:E; [|discriminate].
    destruct (IH m1 m' (a ++ [Stop]) H) as (s & Es). exists (repeat (length a) (alone p m) ++ s).
    rewrite exec_app, (exec_alone _ _ _ _ _ E). rewrite <- !app_assoc in Es. cbn [app] in Es. exact Es.
Qed.

Lemma joined_all : forall (ts : list prog) m, joined (m, map (fun _ => Stop) ts) = Ok m.
Proof.
  intros ts m. unfold joined. cbn [fst snd].
  replace (forallb _ _) with true; auto. symmetry. apply forallb_forall. intros p H.
  apply in_map_iff in H. destruct H as (x & <- & _). reflexivity.
Qed.

(** Threads that own what they write and end alone have a schedule that ends. *)
Theorem safe_completes : forall m0 (shared : cell -> Prop) (own : nat -> cell -> Prop) ts,
  (forall i j c, own i c -> own j c -> i = j) -> (forall i c, own i c -> ~ shared c) ->
  (forall i p, nth_error ts i = Some p -> safe m0 shared own i p) ->
  (forall i p, nth_error ts i = Some p -> exists m, solo p m0 = Some m) ->
  exists sched m, joined (exec sched (m0, ts)) = Ok m.
Proof.
  intros m0 shared own ts O1 O2 Hs Ha.
  assert (G : forall rest a m, ts = a ++ rest -> (forall c, shared c -> m c = m0 c) ->
    (forall i c, length a <= i -> own i c -> m c = m0 c) -> exists m', solo_all rest m = Some m').
  { induction rest as [|p rest IH]; intros a m E A B; cbn [solo_all]; [eauto|].
    assert (Ep : nth_error ts (length a) = Some p).
    { rewrite E, nth_error_app2, Nat.sub_diag by lia. reflexivity. }
    destruct (Ha _ _ Ep) as (m1' & S1).
    destruct (solo_agree m0 shared own O2 (length a) p m m0 m1' (Hs _ _ Ep)) as (m' & -> & F); auto.
    { intros c Oc. eapply B; eauto. }
    apply (IH (a ++ [p])).
    - rewrite <- app_assoc. exact E.
    - intros c Sc. rewrite F; auto. intros O. exact (O2 _ _ O Sc).
    - intros i c Hi O. rewrite app_length in Hi. cbn [length] in Hi. rewrite F; [apply (B i); auto; lia|].
      intros O'. assert (i = length a) by eauto. lia. }
  destruct (G ts [] m0 eq_refl) as (m' & E); auto.
  destruct (exec_all ts m0 m' [] E) as (s & Es). exists s, m'. cbn [app] in Es. rewrite Es. apply joined_all.
Qed.

(** * Sequences of programs *)

Lemma solo_then : forall p q m, solo (then_ p q) m = match solo p m with Some m' => solo q m' | None => None end.
Proof. induction p; intros q m; cbn [then_ solo]; auto. Qed.

Lemma solo_seqs : forall l m, solo (seqs l) m = solo_all l m.
Proof.
  induction l as [|p l IH]; intros m; cbn [seqs fold_right solo_all]; auto.
  rewrite solo_then. destruct (solo p m); auto.
Qed.

Lemma safe_then : forall m0 sh own i p q, safe m0 sh own i p -> safe m0 sh own i q ->
  safe m0 sh own i (then_ p q).
Proof.
  intros m0 sh own i. induction p as [| |c k IH|c v p IH]; intros q Hp Hq; cbn [then_ safe] in *; auto.
  - destruct Hp as [(A & B)|(A & B)]; [left|right]; auto.
  - destruct Hp; auto.
Qed.

Lemma safe_seqs : forall m0 sh own i l, Forall (safe m0 sh own i) l -> safe m0 sh own i (seqs l).
Proof.
  intros m0 sh own i l H. induction H; cbn [seqs fold_right]; [exact I|]. apply safe_then; auto.
Qed.

Lemma pf_threads_diag : forall n body, 1 <= n ->
  pf_threads n n body = Ok (map (fun i => seqs [body i]) (seq 0 n) ++ [Stop]).
Proof.
  intros n body Hn. unfold pf_threads, pf_ranges.
  replace (n =? 0) with false by (symmetry; apply Nat.eqb_neq; lia). cbn [bind].
  rewrite Nat.div_same, Nat.mod_same by lia. do 2 f_equal. rewrite map_app, map_map. cbn [map]. f_equal.
  - apply map_ext. intros i. rewrite indices_range. cbn [seq map]. rewrite Nat.mul_1_r. auto.
  - rewrite indices_range. auto.
Qed.

Lemma pf_thread_nth : forall n body i p, 
  nth_error (map (fun i => seqs [body i]) (seq 0 n) ++ [Stop]) i = Some p ->
  (i < n /\ p = seqs [body i]) \/ (i = n /\ p = Stop).
Proof.
  intros n body i p H. assert (L : length (map (fun i => seqs [body i]) (seq 0 n)) = n)
    by (rewrite map_length, seq_length; auto).
  destruct (Nat.lt_ge_cases i n) as [K|K].
  - rewrite nth_error_app1 in H by lia. left. split; auto.
    assert (X : nth_error (map (fun i => seqs [body i]) (seq 0 n)) i = Some (seqs [body i])).
    { apply map_nth_error with (f := fun i => seqs [body i]). rewrite (nth_error_nth' _ 0) by (rewrite seq_length; auto).
      rewrite seq_nth; auto. }
    congruence.
  - rewrite nth_error_app2 in H by lia. rewrite L in H. destruct (i - n) as [|[|d]] eqn:D; try discriminate.
    right. injection H as <-. split; auto. lia.
Qed.

Lemma Ok_inj : forall {X} (x y : X), Ok x = Ok y -> x = y.
Proof. congruence. Qed.

Lemma pf_threads_zero : forall n body, pf_threads n 0 body = UB DivZero.
Proof. reflexivity. Qed.

(** * The first parallel_for *)

Definition own1 (i : nat) (c : cell) : Prop := c = CResult i.
Definition shared1 (c : cell) : Prop := forall i, c <> CResult i.

Lemma own1_one : forall i j c, own1 i c -> own1 j c -> i = j.
Proof. unfold own1. intros. congruence. Qed.
Lemma own1_shared : forall i c, own1 i c -> ~ shared1 c.
Proof. unfold own1, shared1. intros i c -> H. exact (H i eq_refl). Qed.

Ltac sh1 := unfold shared1; intros; discriminate.

Lemma push_all_safe : forall m0 t xs, safe m0 shared1 own1 t (push_all t xs).
Proof.
  intros m0 t. induction xs as [|x xs IH]; cbn [push_all safe]; [exact I|].
  left. split; [sh1|]. right. split; [reflexivity|]. intros v. destruct v; cbn [safe]; auto.
  split; [reflexivity|exact IH].
Qed.

Section First.
  Variable k : kind.
  Variable Ts : list trie_ops.
  Variable nTries maxLevel : nat.
  Variable runs : bool.

  Lemma task_safe : forall m0 t, safe m0 shared1 own1 t (task_prog k Ts nTries maxLevel runs t).
  Proof.
    intros m0 t. unfold task_prog. cbn [safe].
    left. split; [sh1|]. left. split; [sh1|]. left. split; [sh1|].
    destruct (m0 (CLevel t)); try exact I. destruct (m0 (CRoots t)); try exact I.
    destruct (m0 (CPrefix t)); try exact I. destruct runs; cbn [safe].
    - left. split; [sh1|]. destruct (m0 (CActive t)); try exact I. cbn [safe]. left. split; [sh1|].
      destruct (run_task _ _ _ _ _ _); try exact I. apply push_all_safe.
    - left. split; [sh1|]. destruct (run_task _ _ _ _ _ _); try exact I. apply push_all_safe.
  Qed.

  Lemma threads1_safe : forall m0 used i p,
    nth_error (map (fun i => seqs [task_prog k Ts nTries maxLevel runs i]) (seq 0 used) ++ [Stop]) i = Some p ->
    safe m0 shared1 own1 i p.
  Proof.
    intros m0 used i p H. apply pf_thread_nth in H. destruct H as [(_ & ->)|(_ & ->)]; [|exact I].
    apply safe_seqs. constructor; [apply task_safe|constructor].
  Qed.

  Theorem tasks_race_free : forall used m, pf_race_free used used (task_prog k Ts nTries maxLevel runs) m.
  Proof.
    intros used m ts H. destruct used as [|u]; [discriminate|]. rewrite pf_threads_diag in H by lia.
    apply Ok_inj in H. subst ts. apply (safe_race_free m shared1 own1 own1_one own1_shared).
    intros i p. apply threads1_safe.
  Qed.

  Lemma solo_push : forall t xs m l, m (CResult t) = VList l ->
    exists m', solo (push_all t xs) m = Some m' /\ m' (CResult t) = VList (l ++ xs).
  Proof.
    intros t. induction xs as [|x xs IH]; intros m l H; cbn [push_all solo].
    - exists m. rewrite app_nil_r. auto.
    - rewrite H. cbn [solo]. destruct (IH (upd m (CResult t) (VList (l ++ [x]))) (l ++ [x])) as (m' & E & F).
      { apply upd_same. }
      exists m'. split; auto. rewrite F, <- app_assoc. reflexivity.
  Qed.

  Lemma vget_inv : forall {X} (l : list X) i x, vget l i = Ok x -> nth_error l i = Some x.
  Proof. intros X l i x H. unfold vget in H. destruct (nth_error l i); congruence. Qed.

  Lemma solo_task : forall levels st t tk xs, get_task runs levels st t = Ok tk ->
    run_task k Ts nTries maxLevel runs tk = Ok xs ->
    exists m', solo (task_prog k Ts nTries maxLevel runs t) (mem1 levels st) = Some m' /\
      m' (CResult t) = VList xs.
  Proof.
    intros levels st t tk xs G R. unfold get_task in G.
    apply bind_inv in G. destruct G as (lv & G1 & G). apply bind_inv in G. destruct G as (rt & G2 & G).
    apply bind_inv in G. destruct G as (act & G3 & G). apply bind_inv in G. destruct G as (p & G4 & G).
    injection G as <-. apply vget_inv in G1, G2, G4. unfold task_prog. cbn [solo mem1].
    rewrite G1, G2, G4. destruct runs.
    - apply bind_inv in G3. destruct G3 as (a & G3 & E). injection E as <-. apply vget_inv in G3.
      cbn [solo mem1]. rewrite G3. cbn [solo]. rewrite R.
      destruct (solo_push t xs (mem1 levels st) []) as (m' & E & F); eauto.
    - injection G3 as <-. cbn [solo]. rewrite R.
      destruct (solo_push t xs (mem1 levels st) []) as (m' & E & F); eauto.
  Qed.

  (** What the threads compute, one after the other. *)
  Lemma outs_inv : forall levels st n s acc outs,
    for_loop n s (fun t outs =>
      let* tk := get_task runs levels st t in
      let* r := run_task k Ts nTries maxLevel runs tk in Ok (outs ++ [r])) acc = Ok outs ->
    exists new, outs = acc ++ new /\ length new = n /\
      forall t, t < n -> exists tk, get_task runs levels st (s + t) = Ok tk /\
        run_task k Ts nTries maxLevel runs tk = Ok (nth t new []).
  Proof.
    intros levels st. induction n as [|n IH]; intros s acc outs H; cbn [for_loop] in H.
    - injection H as <-. exists []. rewrite app_nil_r. repeat split; auto. intros; lia.
    - apply bind_inv in H. destruct H as (a & H1 & H2).
      apply bind_inv in H1. destruct H1 as (tk & A & H1). apply bind_inv in H1. destruct H1 as (r & B & H1).
      injection H1 as <-. apply IH in H2. destruct H2 as (new & -> & L & F). exists (r :: new).
      rewrite <- app_assoc. split; auto. split; [cbn [length]; lia|]. intros [|t] Ht.
      + rewrite Nat.add_0_r. exists tk. auto.
      + replace (s + S t) with (S s + t) by lia. apply F. lia.
  Qed.

  Lemma par_results_inv : forall s used levels st results, valid_scheduler s ->
    par_results k Ts nTries maxLevel runs s used levels st = Ok results ->
    1 <= used /\ length results = used /\
    forall t, t < used -> exists tk, get_task runs levels st t = Ok tk /\
      run_task k Ts nTries maxLevel runs tk = Ok (nth t results []).
  Proof.
    intros s used levels st results V H. unfold par_results in H. apply bind_inv in H.
    destruct H as (outs & E & H). apply outs_inv in E. destruct E as (new & E & L & F).
    cbn [app] in E. subst new.
    destruct used as [|u]; [discriminate|]. rewrite pf_traces_diag in H by lia. cbn [bind] in H.
    rewrite <- L in H. rewrite exec_push_own in H by apply V. injection H as <-.
    split; [lia|]. split; auto.
  Qed.

  Lemma read_results : forall (m : memory) results n s, (forall t, t < n -> m (CResult (s + t)) = VList (nth (s + t) results [])) ->
    forall acc, for_loop n s (fun t rs => let* r := list_of (m (CResult t)) in Ok (rs ++ [r])) acc
      = Ok (acc ++ map (fun t => nth t results []) (seq s n)).
  Proof.
    intros m results. induction n as [|n IH]; intros s H acc; cbn [for_loop seq map].
    - rewrite app_nil_r. reflexivity.
    - assert (H0 := H 0). rewrite Nat.add_0_r in H0. rewrite H0 by lia. cbn [list_of bind].
      rewrite IH.
      + rewrite <- app_assoc. reflexivity.
      + intros t Ht. replace (S s + t) with (s + S t) by lia. apply H. lia.
  Qed.

  Lemma par_results_steps_spec : forall used levels st results, 1 <= used -> length results = used ->
    (forall t, t < used -> exists tk, get_task runs levels st t = Ok tk /\
      run_task k Ts nTries maxLevel runs tk = Ok (nth t results [])) ->
    (forall sched, par_results_steps k Ts nTries maxLevel runs sched used levels st = Ok results \/
       par_results_steps k Ts nTries maxLevel runs sched used levels st = OutOfFuel) /\
    (exists sched, par_results_steps k Ts nTries maxLevel runs sched used levels st = Ok results).
  Proof.
    intros used levels st results H1 L F.
    set (ts := map (fun i => seqs [task_prog k Ts nTries maxLevel runs i]) (seq 0 used) ++ [Stop]).
    assert (S : forall i p, nth_error ts i = Some p -> safe (mem1 levels st) shared1 own1 i p)
      by (intros i p; apply threads1_safe).
    assert (A : forall i p, nth_error ts i = Some p -> exists m, solo p (mem1 levels st) = Some m).
    { intros i p E. apply pf_thread_nth in E. destruct E as [(Hi & ->)|(_ & ->)]; [|cbn [solo]; eauto].
      destruct (F i Hi) as (tk & G & R). destruct (solo_task levels st i tk _ G R) as (m & E & _).
      rewrite solo_seqs. cbn [solo_all]. rewrite E. eauto. }
    assert (P : forall sched m, joined (exec sched (mem1 levels st, ts)) = Ok m ->
      for_loop used 0 (fun t rs => let* r := list_of (m (CResult t)) in Ok (rs ++ [r])) [] = Ok results).
    { intros sched m J. rewrite (read_results m results).
      - cbn [app]. f_equal. rewrite <- L. apply map_seq_nth.
      - intros t Ht. cbn [Nat.add].
        assert (En : nth_error ts t = Some (seqs [task_prog k Ts nTries maxLevel runs t])).
        { unfold ts. rewrite nth_error_app1 by (rewrite map_length, seq_length; auto).
          apply map_nth_error with (f := fun i => seqs [task_prog k Ts nTries maxLevel runs i]).
          rewrite (nth_error_nth' _ 0) by (rewrite seq_length; auto). rewrite seq_nth; auto. }
        destruct (safe_joined _ _ _ own1_one own1_shared ts sched m S J t _ En) as (mi & E & O).
        rewrite (O (CResult t) eq_refl).
        destruct (F t Ht) as (tk & G & R). destruct (solo_task levels st t tk _ G R) as (m' & E' & X).
        rewrite solo_seqs in E. cbn [solo_all] in E. rewrite E' in E. injection E as <-. exact X. }
    unfold par_results_steps, pf_run. rewrite pf_threads_diag by auto. cbn [bind]. fold ts. split.
    - intros sched. destruct (safe_no_fail _ _ _ own1_one own1_shared ts sched S A) as [(m & J)|J].
      + left. rewrite J. cbn [bind]. eapply P; eauto.
      + right. rewrite J. reflexivity.
    - destruct (safe_completes _ _ _ ts own1_one own1_shared S A) as (sched & m & J).
      exists sched. rewrite J. cbn [bind]. eapply P; eauto.
  Qed.
End First.

(** * The second parallel_for *)

Lemma firstn_S_nth_error : forall {X} (l : list X) i x, nth_error l i = Some x ->
  firstn (S i) l = firstn i l ++ [x].
Proof.
  intros X l. induction l as [|y l IH]; intros [|i] x H; try discriminate.
  - injection H as <-. reflexivity.
  - cbn [nth_error] in H. cbn [firstn app]. rewrite <- (IH _ _ H). reflexivity.
Qed.

Lemma offsets_spec : forall used inter results, length results = used ->
  offsets used inter results = Ok (length inter + length (concat results), shifts_from (length inter) results,
                                   length inter + length (concat results)).
Proof.
  intros used inter results L. unfold offsets.
  assert (G : forall n s, s + n = used ->
    for_loop n s (fun t '(output_size, shifts, shift) =>
      let* v := vget results t in Ok (output_size + length v, shifts ++ [shift], shift + length v))
      (length inter + length (concat (firstn s results)),
       map (fun t => length inter + length (concat (firstn t results))) (seq 0 s),
       length inter + length (concat (firstn s results)))
    = Ok (length inter + length (concat results), shifts_from (length inter) results,
          length inter + length (concat results))).
  { induction n as [|n IH]; intros s E; cbn [for_loop].
    - replace s with (length results) by lia. rewrite firstn_all. reflexivity.
    - destruct (nth_error results s) as [v|] eqn:Ev; [|apply nth_error_None in Ev; lia].
      rewrite (vget_nth _ _ _ v Ev). cbn [bind].
      assert (X : length inter + length (concat (firstn s results)) + length v
                  = length inter + length (concat (firstn (S s) results))).
      { rewrite (firstn_S_nth_error _ _ _ Ev), concat_app, app_length. cbn [concat]. rewrite app_nil_r. lia. }
      rewrite X.
      replace (map (fun t => length inter + length (concat (firstn t results))) (seq 0 s)
               ++ [length inter + length (concat (firstn s results))])
        with (map (fun t => length inter + length (concat (firstn t results))) (seq 0 (S s))).
      + apply IH. lia.
      + rewrite seq_S, map_app. reflexivity. }
  specialize (G used 0 eq_refl). cbn [firstn concat length seq map] in G. rewrite Nat.add_0_r in G. exact G.
Qed.

Lemma shifts_from_nth : forall b vs t s, nth_error (shifts_from b vs) t = Some s ->
  s = b + length (concat (firstn t vs)).
Proof.
  intros b vs t s H. assert (K : t < length vs).
  { assert (t < length (shifts_from b vs)) by (apply nth_error_Some; congruence).
    unfold shifts_from in *. rewrite map_length, seq_length in *. auto. }
  apply nth_error_nth with (d := 0) in H. unfold shifts_from in H. rewrite nth_map_seq in H by auto. auto.
Qed.

Lemma shifts_from_some : forall b vs t, t < length vs ->
  nth_error (shifts_from b vs) t = Some (b + length (concat (firstn t vs))).
Proof.
  intros b vs t H. unfold shifts_from.
  apply map_nth_error with (f := fun t => b + length (concat (firstn t vs))).
  rewrite (nth_error_nth' _ 0) by (rewrite seq_length; auto). rewrite seq_nth; auto.
Qed.

Lemma concat_firstn_mono : forall (vs : list (list N)) i j v, i < j -> nth_error vs i = Some v ->
  length (concat (firstn i vs)) + length v <= length (concat (firstn j vs)).
Proof.
  intros vs i j v H E. assert (X := firstn_S_nth_error _ _ _ E).
  assert (Y : firstn (S i) (firstn j vs) = firstn (S i) vs).
  { rewrite firstn_firstn. f_equal. lia. }
  rewrite <- (firstn_skipn (S i) (firstn j vs)), Y, X, !concat_app, !app_length.
  cbn [concat]. rewrite app_nil_r. lia.
Qed.

Section Second.
  Variable inter : list N.
  Variable results : list (list N).
  Let b := length inter.
  Let shifts := shifts_from b results.

  Definition own2 (i : nat) (c : cell) : Prop :=
    exists l j, nth_error results i = Some l /\ j < length l /\
      c = COut (j + (b + length (concat (firstn i results)))).
  Definition shared2 (c : cell) : Prop := forall i, ~ own2 i c.

  Lemma own2_one : forall i j c, own2 i c -> own2 j c -> i = j.
  Proof.
    intros i j c (l & x & E & L & Ec) (l' & x' & E' & L' & Ec'). rewrite Ec in Ec'. injection Ec' as X.
    destruct (Nat.lt_trichotomy i j) as [K|[K|K]]; auto.
    - assert (M := concat_firstn_mono _ _ _ _ K E). lia.
    - assert (M := concat_firstn_mono _ _ _ _ K E'). lia.
  Qed.
  Lemma own2_shared : forall i c, own2 i c -> ~ shared2 c.
  Proof. intros i c H S. exact (S i H). Qed.

  Ltac sh2 := let H := fresh in intros ? H; destruct H as (? & ? & ? & ? & H); discriminate.

  Lemma copy_one_safe : forall out n t j, safe (mem2 results shifts out) shared2 own2 t (copy_one t n j).
  Proof.
    intros out n t j. unfold copy_one. cbn [safe]. left. split; [sh2|]. left. split; [sh2|]. cbn [mem2].
    destruct (nth_error results t) as [l|] eqn:El; [|exact I].
    destruct (nth_error shifts t) as [s|] eqn:Es; [|exact I].
    destruct (nth_error l j) as [x|] eqn:Ex; [|exact I].
    destruct (j + s <? n); [|exact I]. cbn [safe]. split; [|exact I].
    apply shifts_from_nth in Es. subst s. exists l, j. split; auto. split; auto.
    apply nth_error_Some. congruence.
  Qed.

  Lemma copy_safe : forall out n t, safe (mem2 results shifts out) shared2 own2 t (copy_prog n t).
  Proof.
    intros out n t. unfold copy_prog. cbn [safe]. left. split; [sh2|]. cbn [mem2].
    destruct (nth_error results t) as [l|]; [|exact I]. apply safe_seqs. apply Forall_forall.
    intros p H. apply in_map_iff in H. destruct H as (j & <- & _). apply copy_one_safe.
  Qed.

  Lemma threads2_safe : forall out n used i p,
    nth_error (map (fun i => seqs [copy_prog n i]) (seq 0 used) ++ [Stop]) i = Some p ->
    safe (mem2 results shifts out) shared2 own2 i p.
  Proof.
    intros out n used i p H. apply pf_thread_nth in H. destruct H as [(_ & ->)|(_ & ->)]; [|exact I].
    apply safe_seqs. constructor; [apply copy_safe|constructor].
  Qed.

  Lemma solo_copies : forall t l n cnt a m, m (CResult t) = VList l ->
    m (CShift t) = VNat (b + length (concat (firstn t results))) -> a + cnt <= length l ->
    length l + (b + length (concat (firstn t results))) <= n ->
    exists m', solo_all (map (copy_one t n) (seq a cnt)) m = Some m' /\
      (forall j, a <= j < a + cnt -> m' (COut (j + (b + length (concat (firstn t results))))) = VNum (nth j l 0%N)) /\
      (forall c, (forall j, a <= j < a + cnt -> c <> COut (j + (b + length (concat (firstn t results))))) -> m' c = m c).
  Proof.
    intros t l n. set (s := b + length (concat (firstn t results))).
    induction cnt as [|cnt IH]; intros a m Hr Hs Ha Hn; cbn [seq map solo_all].
    - exists m. repeat split; auto. intros; lia.
    - unfold copy_one at 1. cbn [solo]. rewrite Hr, Hs.
      rewrite (nth_error_nth' l 0%N) by lia. replace (a + s <? n) with true by (symmetry; apply Nat.ltb_lt; lia).
      cbn [solo]. set (m1 := upd m (COut (a + s)) (VNum (nth a l 0%N))).
      destruct (IH (S a) m1) as (m' & E & P & Q).
      + unfold m1. rewrite upd_other by discriminate. auto.
      + unfold m1. rewrite upd_other by discriminate. auto.
      + lia.
      + lia.
      + exists m'. split; auto. split.
        * intros j Hj. destruct (Nat.eq_dec j a) as [->|N].
          -- rewrite Q; [apply upd_same|]. intros j' Hj' X. injection X as X. lia.
          -- apply P. lia.
        * intros c Hc. rewrite Q by (intros; apply Hc; lia). apply upd_other. apply Hc. lia.
  Qed.

  Lemma solo_copy : forall t l n out, nth_error results t = Some l ->
    b + length (concat results) <= n ->
    exists m', solo (copy_prog n t) (mem2 results shifts out) = Some m' /\
      forall j, j < length l -> m' (COut (j + (b + length (concat (firstn t results))))) = VNum (nth j l 0%N).
  Proof.
    intros t l n out E Hn. unfold copy_prog. cbn [solo mem2]. rewrite E. rewrite solo_seqs.
    assert (K : t < length results) by (apply nth_error_Some; congruence).
    destruct (solo_copies t l n (length l) 0 (mem2 results shifts out)) as (m' & S & P & _).
    - cbn [mem2]. rewrite E. auto.
    - cbn [mem2]. unfold shifts. rewrite shifts_from_some by auto. auto.
    - lia.
    - assert (M := concat_firstn_mono _ _ _ _ K E). rewrite firstn_all in M. lia.
    - exists m'. split; auto. intros j Hj. apply P. lia.
  Qed.
End Second.

Theorem copies_race_free : forall used inter results n shifts e out,
  offsets used inter results = Ok (n, shifts, e) -> length results = used ->
  pf_race_free used used (copy_prog n) (mem2 results shifts out).
Proof.
  intros used inter results n shifts e out O L ts H. destruct used as [|u]; [discriminate|].
  rewrite (offsets_spec _ _ _ L) in O. assert (Es : shifts = shifts_from (length inter) results) by congruence.
  subst shifts. rewrite pf_threads_diag in H by lia.
  apply Ok_inj in H. subst ts. apply (safe_race_free _ (shared2 inter results) (own2 inter results) (own2_one inter results)
    (own2_shared inter results)).
  intros i p. apply threads2_safe.
Qed.

Lemma concat_pos : forall (vs : list (list N)) k, k < length (concat vs) ->
  exists t l j, nth_error vs t = Some l /\ j < length l /\ k = j + length (concat (firstn t vs)) /\
    nth k (concat vs) 0%N = nth j l 0%N.
Proof.
  induction vs as [|v vs IH]; intros k H; cbn [concat length] in H; [lia|].
  destruct (Nat.lt_ge_cases k (length v)) as [K|K].
  - exists 0, v, k. cbn [nth_error firstn concat length]. repeat split; auto. apply app_nth1. auto.
  - rewrite app_length in H. destruct (IH (k - length v)) as (t & l & j & E & L & X & Y); [lia|].
    exists (S t), l, j. cbn [nth_error firstn concat]. rewrite app_length. repeat split; auto; [lia|].
    rewrite app_nth2 by auto. auto.
Qed.

Lemma read_out : forall (m : memory) r n s, (forall j, j < n -> m (COut (s + j)) = VNum (nth (s + j) r 0%N)) ->
  forall acc, for_loop n s (fun j out => match m (COut j) with VNum x => Ok (out ++ [x]) | _ => UB Unmodelled end) acc
    = Ok (acc ++ map (fun j => nth j r 0%N) (seq s n)).
Proof.
  intros m r. induction n as [|n IH]; intros s H acc; cbn [for_loop seq map].
  - rewrite app_nil_r. reflexivity.
  - assert (H0 := H 0). rewrite Nat.add_0_r in H0. rewrite H0 by lia. cbn [bind]. rewrite IH.
    + rewrite <- app_assoc. reflexivity.
    + intros t Ht. replace (S s + t) with (s + S t) by lia. apply H. lia.
Qed.

Lemma par_concat_steps_spec : forall used inter results, 1 <= used -> length results = used ->
  (forall sched, par_concat_steps sched used inter results = Ok (inter ++ concat results) \/
     par_concat_steps sched used inter results = OutOfFuel) /\
  (exists sched, par_concat_steps sched used inter results = Ok (inter ++ concat results)).
Proof.
  intros used inter results H1 L. unfold par_concat_steps. rewrite (offsets_spec _ _ _ L). cbn [bind].
  destruct (N.ltb _ _).
  2:{ assert (E : for_loop used 0 (fun t inter => let* v := vget results t in Ok (inter ++ v)) inter
                  = Ok (inter ++ concat results)).
      { assert (G : forall n s acc, s + n = used ->
          for_loop n s (fun t inter => let* v := vget results t in Ok (inter ++ v)) acc
          = Ok (acc ++ concat (skipn s results))).
        { induction n as [|n IH]; intros s acc E; cbn [for_loop].
          - rewrite skipn_all2 by lia. cbn [concat]. rewrite app_nil_r. reflexivity.
          - destruct (nth_error results s) as [v|] eqn:Ev; [|apply nth_error_None in Ev; lia].
            rewrite (vget_nth _ _ _ v Ev). cbn [bind]. rewrite IH by lia.
            assert (X : skipn s results = v :: skipn (S s) results).
            { clear - Ev. revert s Ev. induction results as [|y l IH]; intros [|s] Ev; try discriminate.
              - injection Ev as ->. reflexivity.
              - cbn [nth_error] in Ev. cbn [skipn]. rewrite (IH _ Ev). reflexivity. }
            rewrite X. cbn [concat]. rewrite app_assoc. reflexivity. }
        apply (G used 0 inter). lia. }
      split; [left; auto|exists []; auto]. }
  set (b := length inter). set (n := b + length (concat results)).
  set (m0 := mem2 results (shifts_from b results) (inter ++ repeat 0%N (n - b))).
  set (ts := map (fun i => seqs [copy_prog n i]) (seq 0 used) ++ [Stop]).
  assert (O1 := own2_one inter results). assert (O2 := own2_shared inter results).
  assert (S : forall i p, nth_error ts i = Some p -> safe m0 (shared2 inter results) (own2 inter results) i p)
    by (intros i p; apply threads2_safe).
  assert (A : forall i p, nth_error ts i = Some p -> exists m, solo p m0 = Some m).
  { intros i p E. apply pf_thread_nth in E. destruct E as [(Hi & ->)|(_ & ->)]; [|cbn [solo]; eauto].
    destruct (nth_error results i) as [l|] eqn:El; [|apply nth_error_None in El; lia].
    destruct (solo_copy inter results i l n (inter ++ repeat 0%N (n - b)) El) as (m & E & _); [apply Nat.le_refl|].
    rewrite solo_seqs. cbn [solo_all]. fold b in E. fold m0 in E. rewrite E. eauto. }
  assert (P : forall sched m, joined (exec sched (m0, ts)) = Ok m ->
    for_loop n 0 (fun j out => match m (COut j) with VNum x => Ok (out ++ [x]) | _ => UB Unmodelled end) []
    = Ok (inter ++ concat results)).
  { intros sched m J. rewrite (read_out m (inter ++ concat results)).
    - cbn [app]. f_equal. replace n with (length (inter ++ concat results)) by (rewrite app_length; auto).
      apply map_seq_nth.
    - intros j Hj. cbn [Nat.add]. destruct (Nat.lt_ge_cases j b) as [K|K].
      + rewrite (joined_shared _ _ _ O1 O2 ts sched m S J).
        * cbn [m0 mem2]. unfold m0. cbn [mem2]. rewrite nth_error_app1 by auto.
          rewrite (nth_error_nth' _ 0%N) by auto. rewrite app_nth1 by auto. reflexivity.
        * intros i (l & j' & _ & _ & X). injection X as X. unfold b in *. lia.
      + destruct (concat_pos results (j - b)) as (t & l & j' & E & Lj & X & Y); [unfold n in Hj; lia|].
        assert (Ht : t < used) by (rewrite <- L; apply nth_error_Some; congruence).
        assert (En : nth_error ts t = Some (seqs [copy_prog n t])).
        { unfold ts. rewrite nth_error_app1 by (rewrite map_length, seq_length; auto).
          apply map_nth_error with (f := fun i => seqs [copy_prog n i]).
          rewrite (nth_error_nth' _ 0) by (rewrite seq_length; auto). rewrite seq_nth; auto. }
        destruct (safe_joined _ _ _ O1 O2 ts sched m S J t _ En) as (mi & Ei & O).
        assert (Ej : j = j' + (b + length (concat (firstn t results)))) by lia.
        rewrite app_nth2 by auto. fold b. rewrite Y.
        destruct (solo_copy inter results t l n (inter ++ repeat 0%N (n - b)) E) as (m' & E' & Z); [apply Nat.le_refl|].
        rewrite solo_seqs in Ei. cbn [solo_all] in Ei. fold b in E'. fold m0 in E'. rewrite E' in Ei.
        injection Ei as <-. rewrite O.
        * rewrite Ej. apply Z. auto.
        * exists l, j'. split; auto. }
  unfold pf_run. rewrite pf_threads_diag by auto. cbn [bind]. fold ts. split.
  - intros sched. destruct (safe_no_fail _ _ _ O1 O2 ts sched S A) as [(m & J)|J].
    + left. rewrite J. cbn [bind]. eapply P; eauto.
    + right. rewrite J. reflexivity.
  - destruct (safe_completes _ _ _ ts O1 O2 S A) as (sched & m & J).
    exists sched. rewrite J. cbn [bind]. eapply P; eauto.
Qed.

(** * Intersect *)

Theorem steps_same : forall k s1 s2 hc Ts runs parallel r, valid_scheduler s1 -> valid_scheduler s2 ->
  Intersect k s1 s2 hc Ts runs parallel = Ok r ->
  (forall sched1 sched2, Intersect_steps k sched1 sched2 hc Ts runs parallel = Ok r \/
     Intersect_steps k sched1 sched2 hc Ts runs parallel = OutOfFuel) /\
  (exists sched1 sched2, Intersect_steps k sched1 sched2 hc Ts runs parallel = Ok r).
Proof.
  intros k s1 s2 hc Ts runs parallel r V1 V2 H. unfold Intersect in H. apply bind_inv in H.
  destruct H as ((r' & mm) & H & E). injection E as <-. unfold Intersect_mem in H. unfold Intersect_steps.
  apply bind_inv in H. destruct H as (T0 & E0 & H). rewrite E0. cbn [bind].
  destruct (negb _).
  { injection H as E1 E2; subst. split; [auto|]. exists [], []. auto. }
  destruct (N.eqb hc 0); [discriminate|]. destruct (parallel && _)%bool.
  - apply bind_inv in H. destruct H as (p & Ep & H). rewrite Ep. cbn [bind].
    destruct p as [r m|used levels st].
    { injection H as E1 E2; subst. split; [auto|]. exists [], []. auto. }
    apply bind_inv in H. destruct H as (results & Er & H). apply bind_inv in H. destruct H as (r2 & Ec & H).
    apply bind_inv in H. destruct H as (m & Em & H). injection H as E1 E2; subst.
    apply par_results_inv in Er; auto. destruct Er as (U & L & F).
    rewrite par_concat_spec in Ec by auto. injection Ec as <-.
    destruct (par_results_steps_spec k Ts (length Ts) (t_height T0) runs used levels st results U L F) as (A & sa & Ea).
    destruct (par_concat_steps_spec used (pa_r st) results U L) as (B & sb & Eb). split.
    + intros a b. destruct (A a) as [-> | ->]; cbn [bind]; [|auto].
      destruct (B b) as [-> | ->]; cbn [bind]; [|auto]. rewrite Em. auto.
    + exists sa, sb. rewrite Ea. cbn [bind]. rewrite Eb. cbn [bind]. rewrite Em. reflexivity.
  - destruct runs.
    + apply bind_inv in H. destruct H as (x & Ex & H). injection H as E1 E2; subst. rewrite Ex.
      split; [auto|]. exists [], []. auto.
    + apply bind_inv in H. destruct H as ((x & fl) & Ex & H). injection H as E1 E2; subst. rewrite Ex. cbn [bind].
      split; [auto|]. exists [], []. auto.
Qed.

(** * A schedule that ends shows what the tasks do *)

Lemma solo_task_inv : forall k Ts nTries maxLevel runs levels st t m',
  solo (task_prog k Ts nTries maxLevel runs t) (mem1 levels st) = Some m' ->
  exists tk xs, get_task runs levels st t = Ok tk /\ run_task k Ts nTries maxLevel runs tk = Ok xs.
Proof.
  intros k Ts nTries maxLevel runs levels st t m' H. unfold task_prog in H. cbn [solo mem1] in H.
  unfold get_task, vget.
  destruct (nth_error levels t) as [lv|]; [|discriminate].
  destruct (nth_error (pa_roots st) t) as [rt|]; [|discriminate].
  destruct (nth_error (pa_ints st) t) as [p|]; [|discriminate]. cbn [bind].
  destruct runs; cbn [solo mem1] in H.
  - destruct (nth_error (pa_active st) t) as [a|]; [|discriminate]. cbn [bind solo] in *.
    destruct (run_task _ _ _ _ _ _) as [xs| |] eqn:E; try discriminate. eauto.
  - cbn [bind]. destruct (run_task _ _ _ _ _ _) as [xs| |] eqn:E; try discriminate. eauto.
Qed.

Lemma par_results_steps_inv : forall k Ts nTries maxLevel runs sched used levels st results,
  par_results_steps k Ts nTries maxLevel runs sched used levels st = Ok results ->
  1 <= used /\ length results = used /\
  forall t, t < used -> exists tk, get_task runs levels st t = Ok tk /\
    run_task k Ts nTries maxLevel runs tk = Ok (nth t results []).
Proof.
  intros k Ts nTries maxLevel runs sched used levels st results H.
  destruct used as [|u]; [discriminate|]. set (used := S u) in *. assert (H1 : 1 <= used) by lia.
  assert (H0 := H). unfold par_results_steps, pf_run in H. rewrite pf_threads_diag in H by auto.
  cbn [bind] in H. apply bind_inv in H. destruct H as (m & J & _).
  set (ts := map (fun i => seqs [task_prog k Ts nTries maxLevel runs i]) (seq 0 used) ++ [Stop]) in *.
  assert (S : forall i p, nth_error ts i = Some p -> safe (mem1 levels st) shared1 own1 i p)
    by (intros i p; apply threads1_safe).
  assert (G : forall t, t < used -> exists tk xs, get_task runs levels st t = Ok tk /\
    run_task k Ts nTries maxLevel runs tk = Ok xs).
  { intros t Ht.
    assert (En : nth_error ts t = Some (seqs [task_prog k Ts nTries maxLevel runs t])).
    { unfold ts. rewrite nth_error_app1 by (rewrite map_length, seq_length; auto).
      apply map_nth_error with (f := fun i => seqs [task_prog k Ts nTries maxLevel runs i]).
      rewrite (nth_error_nth' _ 0) by (rewrite seq_length; auto). rewrite seq_nth; auto. }
    destruct (safe_joined _ _ _ own1_one own1_shared ts sched m S J t _ En) as (mi & E & _).
    rewrite solo_seqs in E. cbn [solo_all] in E.
    destruct (solo _ _) as [m'|] eqn:X in E; [|discriminate]. eapply solo_task_inv; eauto. }
  assert (L : forall n s, (forall t, s <= t < s + n -> exists tk xs, get_task runs levels st t = Ok tk /\
      run_task k Ts nTries maxLevel runs tk = Ok xs) ->
    exists rs, length rs = n /\ forall t, t < n -> exists tk, get_task runs levels st (s + t) = Ok tk /\
      run_task k Ts nTries maxLevel runs tk = Ok (nth t rs [])).
  { induction n as [|n IH]; intros s Hs.
    - exists []. split; auto. intros; lia.
    - destruct (Hs s) as (tk & xs & A & B); [lia|]. destruct (IH (Datatypes.S s)) as (rs & Lr & F).
      { intros t Ht. apply Hs. lia. }
      exists (xs :: rs). split; [cbn [length]; lia|]. intros [|t] Ht.
      + rewrite Nat.add_0_r. exists tk. auto.
      + replace (s + Datatypes.S t) with (Datatypes.S s + t) by lia. apply F. lia. }
  destruct (L used 0) as (rs & Lr & F). { intros t Ht. apply G. lia. }
  destruct (par_results_steps_spec k Ts nTries maxLevel runs used levels st rs H1 Lr F) as (A & _).
  destruct (A sched) as [X|X]; rewrite H0 in X; [|discriminate]. injection X as ->. auto.
Qed.

Theorem steps_sound : forall k s1 s2 hc Ts runs parallel sched1 sched2 r, valid_scheduler s1 -> valid_scheduler s2 ->
  Intersect_steps k sched1 sched2 hc Ts runs parallel = Ok r ->
  Intersect k s1 s2 hc Ts runs parallel = Ok r.
Proof.
  intros k s1 s2 hc Ts runs parallel sched1 sched2 r V1 V2 H. unfold Intersect_steps in H.
  unfold Intersect, Intersect_mem.
  apply bind_inv in H. destruct H as (T0 & E0 & H). rewrite E0. cbn [bind].
  destruct (negb _); [exact H|].
  destruct (N.eqb hc 0); [discriminate|]. destruct (parallel && _)%bool.
  - apply bind_inv in H. destruct H as (p & Ep & H). rewrite Ep. cbn [bind].
    destruct p as [r' m|used levels st]; [exact H|].
    apply bind_inv in H. destruct H as (results & Er & H). apply bind_inv in H. destruct H as (r2 & Ec & H).
    apply bind_inv in H. destruct H as (m & Em & H). injection H as ->.
    apply par_results_steps_inv in Er. destruct Er as (U & L & F).
    assert (G : par_results k Ts (length Ts) (t_height T0) runs s1 used levels st = Ok results).
    { unfold par_results.
      assert (X : for_loop used 0 (fun t outs =>
        let* tk := get_task runs levels st t in
        let* r := run_task k Ts (length Ts) (t_height T0) runs tk in Ok (outs ++ [r])) [] = Ok results).
      { assert (Y : forall n s acc, s + n <= used -> for_loop n s (fun t outs =>
          let* tk := get_task runs levels st t in
          let* r := run_task k Ts (length Ts) (t_height T0) runs tk in Ok (outs ++ [r])) acc
          = Ok (acc ++ map (fun t => nth t results []) (seq s n))).
        { induction n as [|n IH]; intros s acc Hs; cbn [for_loop seq map].
          - rewrite app_nil_r. reflexivity.
          - destruct (F s) as (tk & A & B); [lia|]. rewrite A. cbn [bind]. rewrite B. cbn [bind].
            rewrite IH by lia. rewrite <- app_assoc. reflexivity. }
        rewrite Y by lia. cbn [app]. rewrite <- L. f_equal. apply map_seq_nth. }
      rewrite X. cbn [bind]. rewrite pf_traces_diag by auto. cbn [bind]. rewrite <- L. apply exec_push_own. apply V1. }
    rewrite G. cbn [bind]. rewrite par_concat_spec by auto. cbn [bind].
    destruct (par_concat_steps_spec used (pa_r st) results U L) as (B & _).
    destruct (B sched2) as [X|X]; rewrite Ec in X; [|discriminate]. injection X as ->.
    rewrite Em. reflexivity.
  - destruct runs.
    + rewrite H. reflexivity.
    + apply bind_inv in H. destruct H as ((x & fl) & Ex & H). injection H as ->. rewrite Ex. reflexivity.
Qed.

Theorem steps_independent : forall k hc Ts runs parallel sched1 sched2 r,
  Intersect_steps k sched1 sched2 hc Ts runs parallel = Ok r ->
  forall sched1' sched2', Intersect_steps k sched1' sched2' hc Ts runs parallel = Ok r \/
    Intersect_steps k sched1' sched2' hc Ts runs parallel = OutOfFuel.
Proof.
  intros k hc Ts runs parallel sched1 sched2 r H.
  apply (steps_sound k in_order in_order) in H; auto using in_order_valid.
  apply steps_same in H; auto using in_order_valid. destruct H as (H & _). exact H.
Qed.

Theorem steps_exact : forall k s1 s2 hc Ts runs parallel r, valid_scheduler s1 -> valid_scheduler s2 ->
  Intersect k s1 s2 hc Ts runs parallel = Ok r <->
  exists sched1 sched2, Intersect_steps k sched1 sched2 hc Ts runs parallel = Ok r.
Proof.
  intros k s1 s2 hc Ts runs parallel r V1 V2. split.
  - intros H. destruct (steps_same _ _ _ _ _ _ _ _ V1 V2 H) as (_ & A). exact A.
  - intros (a & b & H). eapply steps_sound; eauto.
Qed.

Theorem bin_steps : forall (u : N) (l : list pitem),
  (2 <= u <= 2 ^ 48)%N -> 1 <= length l <= 16 -> Forall (pitem_ok u) l ->
  exists Ts r, each_ok (make_pitem u) l = Ok Ts /\ is_intersection (map snd l) r /\
    forall hc, (1 <= hc < 2 ^ 16)%N -> (3 <= u \/ hc <= 3)%N ->
      (forall sched1 sched2, Intersect_steps Bin sched1 sched2 hc (map bin_ops Ts) false true = Ok r \/
         Intersect_steps Bin sched1 sched2 hc (map bin_ops Ts) false true = OutOfFuel) /\
      (exists sched1 sched2, Intersect_steps Bin sched1 sched2 hc (map bin_ops Ts) false true = Ok r).
Proof.
  intros u l H1 H2 H3. destruct (bin_parallel u l H1 H2 H3) as (Ts & r & A & B & C). exists Ts, r.
  split; auto. split; auto. intros hc Hh Hu.
  apply (steps_same Bin in_order in_order); auto using in_order_valid. apply C; auto using in_order_valid.
Qed.

Theorem fast_steps : forall (u : N) (lw : nat) (l : list fitem),
  fast_universe u lw -> 1 <= length l <= 16 -> Forall (fitem_ok u) l -> Forall (fun x => f_enc x = false) l ->
  exists Ts r, each_ok (make_fitem u lw) l = Ok Ts /\ is_intersection (map snd l) r /\
    forall hc, (1 <= hc < 2 ^ 16)%N -> (2 ^ N.of_nat lw < u \/ hc = 1)%N ->
      (forall sched1 sched2, Intersect_steps (Fast lw) sched1 sched2 hc (map fast_ops Ts) false true = Ok r \/
         Intersect_steps (Fast lw) sched1 sched2 hc (map fast_ops Ts) false true = OutOfFuel) /\
      (exists sched1 sched2, Intersect_steps (Fast lw) sched1 sched2 hc (map fast_ops Ts) false true = Ok r).
Proof.
  intros u lw l H1 H2 H3 H4. destruct (fast_parallel u lw l H1 H2 H3 H4) as (Ts & r & A & B & C). exists Ts, r.
  split; auto. split; auto. intros hc Hh Hu.
  apply (steps_same (Fast lw) in_order in_order); auto using in_order_valid. apply C; auto using in_order_valid.
Qed.
