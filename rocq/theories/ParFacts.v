(** Facts about parallel_for and about interleavings of threads that work on
    separate slots. *)

From Coq Require Import Permutation.
From Verif Require Import Base ParallelFor Facts.

Lemma indices_range : forall a b, indices (a, a + b) = seq a b.
Proof. intros. unfold indices. cbn [fst snd]. f_equal. lia. Qed.

Lemma concat_batches : forall b t s,
  concat (map indices (map (fun i => (i * b, i * b + b)) (seq s t))) = seq (s * b) (t * b).
Proof.
  intros b t; induction t; intros s; cbn [seq map concat]; auto.
  rewrite indices_range, IHt. cbn [Nat.mul]. replace (b + s * b) with (s * b + b) by lia.
  symmetry. apply seq_app.
Qed.

(** The ranges cover each index once, in order. *)
Theorem pf_ranges_cover : forall n t, 1 <= t ->
  exists rs, pf_ranges n t = Ok rs /\ length rs = S t /\ concat (map indices rs) = seq 0 n.
Proof.
  intros n t Ht. unfold pf_ranges.
  replace (t =? 0) with false by (symmetry; apply Nat.eqb_neq; lia).
  eexists; split; [reflexivity|]. split.
  - rewrite app_length, map_length, seq_length. cbn. lia.
  - rewrite map_app, concat_app, concat_batches. cbn [map concat]. rewrite indices_range, app_nil_r.
    cbn [Nat.mul]. change 0 with (0 * (n / t)) at 1.
    rewrite <- seq_app. f_equal. symmetry. apply Nat.div_mod. lia.
Qed.

(** One index per worker when there are as many workers as indices. *)
Lemma pf_traces_diag : forall n acts, 1 <= n ->
  pf_traces n n acts = Ok (map acts (seq 0 n) ++ [[]]).
Proof.
  intros n acts Hn. unfold pf_traces, pf_ranges.
  replace (n =? 0) with false by (symmetry; apply Nat.eqb_neq; lia). cbn [bind].
  rewrite Nat.div_same, Nat.mod_same by lia. do 2 f_equal. rewrite map_app, map_map. cbn [map]. f_equal.
  - apply map_ext. intros i. rewrite indices_range. cbn [seq flat_map]. rewrite Nat.mul_1_r, app_nil_r. auto.
  - rewrite indices_range. auto.
Qed.

Section Interleave.
  Context {A : Type}.

  Lemma interleave_filter : forall (P : A -> bool) ts tr,
    interleave ts tr -> interleave (map (filter P) ts) (filter P tr).
  Proof.
    intros P ts tr H. induction H.
    - apply il_done. apply Forall_map. eapply Forall_impl; [|eauto]. cbn. intros; subst; auto.
    - rewrite map_app in *. cbn [map filter] in *. destruct (P a); auto.
      apply il_step. auto.
  Qed.

  Lemma interleave_perm : forall (ts : list (list A)) tr,
    interleave ts tr -> Permutation (concat ts) tr.
  Proof.
    intros ts tr H. induction H.
    - induction H; cbn; auto. subst. auto.
    - rewrite concat_app in *. cbn [concat] in *. cbn [app].
      apply Permutation_sym. apply Permutation_cons_app. apply Permutation_sym. auto.
  Qed.

  Lemma interleave_single : forall (ts : list (list A)) tr, interleave ts tr ->
    forall j, (forall i, i <> j -> nth i ts [] = []) -> tr = nth j ts [].
  Proof.
    intros ts tr H. induction H; intros j Hj.
    - destruct (Nat.lt_ge_cases j (length ts)).
      + rewrite Forall_forall in H. symmetry. apply H. apply nth_In. auto.
      + rewrite nth_overflow; auto.
    - destruct (Nat.eq_dec (length ts1) j) as [<-|N].
      + rewrite nth_middle. f_equal. rewrite <- (nth_middle ts1 ts2 t []) at 1. apply IHinterleave.
        intros i Hi. specialize (Hj i Hi).
        destruct (Nat.lt_ge_cases i (length ts1)).
        * rewrite app_nth1 in * by auto. auto.
        * rewrite app_nth2 in * by auto. destruct (i - length ts1) eqn:E; [lia|]. cbn in *. auto.
      + specialize (Hj (length ts1) N). rewrite nth_middle in Hj. discriminate.
  Qed.
End Interleave.

(** * Pushes to slots *)

Definition slot_is (s : nat) (a : nat * N) : bool := fst a =? s.

Lemma exec_push_spec : forall tr slots,
  Forall (fun a => fst a < length slots) tr ->
  exists slots', exec_push slots tr = Ok slots' /\ length slots' = length slots /\
    forall s, s < length slots ->
      nth s slots' [] = nth s slots [] ++ map snd (filter (slot_is s) tr).
Proof.
  induction tr as [|[s x] tr IH]; intros slots H; cbn [exec_push].
  - exists slots. repeat split; auto. intros. cbn. rewrite app_nil_r. auto.
  - inversion H as [|a l Hs Htr]; subst. cbn [fst] in Hs.
    rewrite (vget_nth _ _ s (nth s slots [])) by (apply nth_error_nth'; auto). cbn [bind].
    destruct (vset_spec _ slots s (nth s slots [] ++ [x]) Hs) as (slots' & -> & L & G). cbn [bind].
    destruct (IH slots') as (slots'' & E & L' & G').
    { rewrite L. auto. }
    exists slots''. split; auto. split; [congruence|]. intros s' Hs'.
    rewrite G' by congruence. cbn [filter]. unfold slot_is at 2. cbn [fst].
    assert (E' : nth s' slots' [] = if s' =? s then nth s slots [] ++ [x] else nth s' slots []).
    { specialize (G s'). destruct (s' =? s) eqn:Ess.
      - apply nth_error_nth. auto.
      - rewrite (nth_error_nth' slots []) in G by auto. apply nth_error_nth. auto. }
    rewrite E'. rewrite Nat.eqb_sym. destruct (Nat.eqb_spec s s').
    + subst. cbn [map snd]. rewrite <- app_assoc. auto.
    + auto.
Qed.

Lemma nth_map_seq : forall X (f : nat -> X) n i d, i < n -> nth i (map f (seq 0 n)) d = f i.
Proof.
  intros. apply nth_error_nth. rewrite nth_error_map.
  rewrite (nth_error_nth' _ 0) by (rewrite seq_length; auto). cbn. rewrite seq_nth by auto. auto.
Qed.

Lemma filter_own : forall s t (l : list N),
  filter (slot_is s) (map (fun x => (t, x)) l) = if t =? s then map (fun x => (t, x)) l else [].
Proof.
  intros s t l. destruct (t =? s) eqn:E.
  - apply filter_all. intros a Ha. apply in_map_iff in Ha. destruct Ha as (x & <- & _). auto.
  - apply filter_none. intros a Ha. apply in_map_iff in Ha. destruct Ha as (x & <- & _). auto.
Qed.

(** Threads that push only to their own slot: the result does not depend on the
    schedule. *)
Lemma exec_push_own : forall (outs : list (list N)) tr,
  interleave (map (fun t => map (fun x => (t, x)) (nth t outs [])) (seq 0 (length outs)) ++ [[]]) tr ->
  exec_push (repeat [] (length outs)) tr = Ok outs.
Proof.
  intros outs tr H.
  assert (F : Forall (fun a => fst a < length outs) tr).
  { eapply Permutation_Forall; [apply interleave_perm; eauto|].
    apply Forall_forall. intros a Ha. apply in_concat in Ha. destruct Ha as (l & Hl & Ha).
    apply in_app_or in Hl. destruct Hl as [Hl|[<-|[]]]; [|destruct Ha].
    apply in_map_iff in Hl. destruct Hl as (t & <- & Ht). apply in_map_iff in Ha.
    destruct Ha as (x & <- & _). apply in_seq in Ht. cbn. lia. }
  destruct (exec_push_spec tr (repeat [] (length outs))) as (r & -> & L & G).
  { rewrite repeat_length. auto. }
  rewrite repeat_length in *. f_equal. apply nth_ext with (d := []) (d' := []); auto.
  intros s Hs. rewrite L in Hs. rewrite G by auto. rewrite nth_repeat. cbn [app].
  apply interleave_filter with (P := slot_is s) in H. rewrite map_app, map_map in H. cbn [map filter] in H.
  rewrite (interleave_single _ _ H s).
  - rewrite app_nth1 by (rewrite map_length, seq_length; auto).
    rewrite nth_map_seq by auto. rewrite filter_own, Nat.eqb_refl, map_map. apply map_id.
  - intros i Hi. destruct (Nat.lt_ge_cases i (length outs)) as [Hl|Hl].
    + rewrite app_nth1 by (rewrite map_length, seq_length; auto).
      rewrite nth_map_seq by auto. rewrite filter_own.
      replace (i =? s) with false by (symmetry; apply Nat.eqb_neq; auto). auto.
    + rewrite app_nth2 by (rewrite map_length, seq_length; auto).
      rewrite map_length, seq_length. destruct (i - length outs) as [|[|]]; auto.
Qed.

(** * Writes to distinct cells *)

Lemma exec_write_spec : forall tr v,
  Forall (fun a => fst a < length v) tr -> NoDup (map fst tr) ->
  exists v', exec_write v tr = Ok v' /\ length v' = length v /\
    (forall i x, In (i, x) tr -> nth_error v' i = Some x) /\
    (forall i, ~ In i (map fst tr) -> nth_error v' i = nth_error v i).
Proof.
  induction tr as [|[i x] tr IH]; intros v H Hd; cbn [exec_write].
  - exists v. repeat split; auto. intros i x [].
  - inversion H as [|a l Hs Htr]; subst. inversion Hd; subst. cbn [fst] in *.
    destruct (vset_spec _ v i x Hs) as (v1 & -> & L & G). cbn [bind].
    destruct (IH v1) as (v' & E & L' & G1 & G2); auto.
    { rewrite L. auto. }
    exists v'. split; auto. split; [congruence|]. split.
    + intros j y [Ej|Hj]; auto. inversion Ej; subst. rewrite G2 by auto. rewrite G, Nat.eqb_refl. auto.
    + intros j Hj. cbn [map In fst] in Hj. rewrite G2 by tauto. rewrite G.
      replace (j =? i) with false by (symmetry; apply Nat.eqb_neq; intuition). auto.
Qed.

(** Results written at precomputed offsets, by any schedule, form the
    concatenation. *)
Definition shifts_from (b : nat) (vs : list (list N)) : list nat :=
  map (fun t => b + length (concat (firstn t vs))) (seq 0 (length vs)).

Definition writes (shifts : list nat) (vs : list (list N)) (t : nat) : list (nat * N) :=
  map (fun j => (j + nth t shifts 0, nth j (nth t vs []) 0%N)) (seq 0 (length (nth t vs []))).

Lemma nth_error_ext : forall X (a b : list X), (forall i, nth_error a i = nth_error b i) -> a = b.
Proof.
  induction a as [|x a IH]; intros [|y b] H; auto.
  - specialize (H 0). discriminate.
  - specialize (H 0). discriminate.
  - f_equal.
    + specialize (H 0). cbn in H. congruence.
    + apply IH. intros i. apply (H (S i)).
Qed.

Lemma map_seq_nth : forall X (l : list X) d, map (fun j => nth j l d) (seq 0 (length l)) = l.
Proof.
  intros. apply nth_ext with (d := d) (d' := d); rewrite map_length, seq_length; auto.
  intros i Hi. rewrite nth_map_seq; auto.
Qed.

(** The cells written by all the threads, in sequential order. *)
Lemma writes_concat : forall vs b,
  concat (map (writes (shifts_from b vs) vs) (seq 0 (length vs)))
  = combine (seq b (length (concat vs))) (concat vs).
Proof.
  intros vs b.
  assert (H : forall m, m <= length vs ->
    concat (map (writes (shifts_from b vs) vs) (seq 0 m))
    = combine (seq b (length (concat (firstn m vs)))) (concat (firstn m vs))).
  { induction m; intros Hm; [reflexivity|].
    rewrite seq_S, map_app, concat_app, IHm by lia. cbn [map concat Nat.add]. rewrite app_nil_r.
    assert (E : firstn (S m) vs = firstn m vs ++ [nth m vs []]).
    { rewrite <- (firstn_skipn m vs) at 1. rewrite firstn_app, firstn_firstn, firstn_length.
      replace (Init.Nat.min (S m) m) with m by lia. f_equal.
      replace (S m - Init.Nat.min m (length vs)) with 1 by lia.
      rewrite <- (firstn_skipn m vs) at 2.
      rewrite app_nth2 by (rewrite firstn_length; lia). rewrite firstn_length.
      replace (m - Init.Nat.min m (length vs)) with 0 by lia.
      destruct (skipn m vs) eqn:Es; auto. exfalso.
      assert (length (skipn m vs) = 0) by (rewrite Es; auto). rewrite skipn_length in H. lia. }
    rewrite E, concat_app. cbn [concat]. rewrite app_nil_r, app_length, seq_app.
    assert (C : forall (a c : list nat) (x y : list N), length a = length x ->
      combine (a ++ c) (x ++ y) = combine a x ++ combine c y).
    { induction a; intros c [|? x] y Hl; cbn in *; try discriminate; auto. rewrite IHa; auto. }
    rewrite C by (rewrite seq_length; auto). f_equal.
    unfold writes, shifts_from. rewrite nth_map_seq by lia.
    generalize (b + length (concat (firstn m vs))). intros o. generalize (nth m vs []). intros l.
    transitivity (combine (seq o (length l)) (map (fun j => nth j l 0%N) (seq 0 (length l))));
      [|rewrite map_seq_nth; auto].
    generalize (length l). clear. intros n. pose (g := fun j => nth j l 0%N).
    assert (H : forall s, map (fun j => (j + o, g j)) (seq s n) = combine (seq (s + o) n) (map g (seq s n))).
    { induction n; intros s; cbn; auto. rewrite IHn. auto. }
    apply (H 0). }
  rewrite H by auto. rewrite firstn_all. auto.
Qed.

Lemma combine_fst : forall X Y (a : list X) (b : list Y), length a = length b ->
  map fst (combine a b) = a.
Proof. induction a; intros [|? b] H; cbn in *; try discriminate; auto. rewrite IHa; auto. Qed.

Lemma exec_write_own : forall (vs : list (list N)) (pre : list N) tr,
  interleave (map (writes (shifts_from (length pre) vs) vs) (seq 0 (length vs)) ++ [[]]) tr ->
  exec_write (pre ++ repeat 0%N (length (concat vs))) tr = Ok (pre ++ concat vs).
Proof.
  intros vs pre tr H. apply interleave_perm in H.
  rewrite concat_app, writes_concat in H. cbn [concat app] in H. rewrite app_nil_r in H.
  set (c := concat vs) in *.
  assert (Hf : map fst (combine (seq (length pre) (length c)) c) = seq (length pre) (length c)).
  { apply combine_fst. apply seq_length. }
  assert (Hk : Permutation (seq (length pre) (length c)) (map fst tr)).
  { rewrite <- Hf at 1. apply Permutation_map. auto. }
  destruct (exec_write_spec tr (pre ++ repeat 0%N (length c))) as (v' & -> & L & G1 & G2).
  - apply Forall_forall. intros a Ha. assert (Hi : In (fst a) (seq (length pre) (length c))).
    { eapply Permutation_in; [apply Permutation_sym; eauto|]. apply in_map; auto. }
    apply in_seq in Hi. rewrite app_length, repeat_length. lia.
  - eapply Permutation_NoDup; [eauto|]. apply seq_NoDup.
  - f_equal. apply nth_error_ext. intros i.
    destruct (Nat.lt_ge_cases i (length pre)) as [Hi|Hi].
    + rewrite G2.
      * rewrite !nth_error_app1 by auto. auto.
      * intros Hin. apply Permutation_sym in Hk. eapply Permutation_in in Hin; [|eauto].
        apply in_seq in Hin. lia.
    + destruct (Nat.lt_ge_cases i (length pre + length c)) as [Hi'|Hi'].
      * rewrite nth_error_app2 by auto.
        rewrite (nth_error_nth' c 0%N) by lia. apply G1. eapply Permutation_in; [eauto|].
        assert (Hx : nth (i - length pre) (combine (seq (length pre) (length c)) c) (0, 0%N)
                     = (i, nth (i - length pre) c 0%N)).
        { rewrite combine_nth by apply seq_length. rewrite seq_nth by lia. f_equal. lia. }
        rewrite <- Hx. apply nth_In. rewrite combine_length, seq_length. lia.
      * rewrite (proj2 (nth_error_None v' i)).
        { symmetry. apply nth_error_None. rewrite app_length. lia. }
        rewrite L, app_length, repeat_length. lia.
Qed.
