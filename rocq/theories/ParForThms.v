(** parallel_for: every index once, and results that do not depend on the
    schedule. *)

From Coq Require Import Permutation.
From Verif Require Import Base ParallelFor Facts ParFacts.

(** ** Some schedules *)

(** The threads run one after the other, in order or in reverse order. *)
Definition in_order : scheduler := fun ts => concat ts.
Definition backwards : scheduler := fun ts => concat (rev ts).

Lemma interleave_nil_l : forall A (ts1 ts2 : list (list A)) tr,
  interleave (ts1 ++ ts2) tr -> interleave (ts1 ++ [] :: ts2) tr.
Proof.
  intros A ts1 ts2 tr H. remember (ts1 ++ ts2) as ts eqn:E. revert ts1 ts2 E.
  induction H; intros x1 x2 E.
  - apply il_done. subst. apply Forall_app in H. destruct H. apply Forall_app; auto.
  - destruct (Nat.le_gt_cases (length x1) (length ts1)) as [Hl|Hl].
    + assert (exists m, ts1 = x1 ++ m) as (m & ->).
      { exists (skipn (length x1) ts1). rewrite <- (firstn_skipn (length x1) ts1) at 1. f_equal.
        apply (f_equal (firstn (length x1))) in E. rewrite !firstn_app in E.
        rewrite firstn_all, Nat.sub_diag in E. replace (length x1 - length ts1) with 0 in E by lia.
        rewrite !firstn_O, !app_nil_r in E. auto. }
      rewrite <- app_assoc in E. apply app_inv_head in E. subst x2.
      replace (x1 ++ [] :: m ++ (a :: t) :: ts2) with ((x1 ++ [] :: m) ++ (a :: t) :: ts2)
        by (rewrite <- app_assoc; auto).
      apply il_step. rewrite <- app_assoc. cbn [app]. apply IHinterleave. rewrite <- app_assoc. auto.
    + assert (exists m, x1 = ts1 ++ (a :: t) :: m) as (m & ->).
      { exists (skipn (S (length ts1)) x1). rewrite <- (firstn_skipn (S (length ts1)) x1) at 1.
        apply (f_equal (firstn (S (length ts1)))) in E.
        rewrite !firstn_app in E. replace (S (length ts1) - length x1) with 0 in E by lia.
        rewrite firstn_O, app_nil_r in E. rewrite <- E. rewrite firstn_all2 by lia.
        replace (S (length ts1) - length ts1) with 1 by lia. cbn. rewrite <- app_assoc. auto. }
      rewrite <- app_assoc in E. apply app_inv_head in E. inversion E; subst.
      rewrite <- app_assoc. cbn [app]. apply il_step.
      rewrite app_comm_cons. rewrite app_assoc. apply IHinterleave. rewrite <- app_assoc. auto.
Qed.

Lemma interleave_first : forall A (t : list A) ts1 ts2 tr,
  interleave (ts1 ++ ts2) tr -> interleave (ts1 ++ t :: ts2) (t ++ tr).
Proof.
  induction t as [|a t IH]; intros ts1 ts2 tr H; cbn [app].
  - apply interleave_nil_l. auto.
  - apply il_step. auto.
Qed.

Lemma in_order_valid : valid_scheduler in_order.
Proof.
  intros ts. unfold in_order. induction ts as [|t ts IH]; cbn [concat].
  - apply il_done. auto.
  - apply (interleave_first _ t [] ts). auto.
Qed.

Lemma backwards_valid : valid_scheduler backwards.
Proof.
  intros ts. unfold backwards. induction ts as [|t ts IH] using rev_ind.
  - apply il_done. auto.
  - rewrite rev_app_distr. cbn [rev app concat].
    apply (interleave_first _ t ts []). rewrite app_nil_r. auto.
Qed.

(** ** Results *)

Lemma nodup_pick : forall (L : list (list nat)) s, NoDup (concat L) -> In s (concat L) ->
  exists j, In s (nth j L []) /\ j < length L /\ forall i, i <> j -> ~ In s (nth i L []).
Proof.
  induction L as [|l L IH]; intros s Hd Hs; cbn [concat] in *; [destruct Hs|].
  assert (Hx : In s l -> ~ In s (concat L)).
  { clear - Hd. intros Hl Hc. induction l as [|a l IH]; [destruct Hl|]. cbn in Hd. inversion Hd; subst.
    destruct Hl as [->|Hl]; auto. apply H1. apply in_or_app. auto. }
  apply in_app_or in Hs. destruct Hs as [Hs|Hs].
  - exists 0. split; auto. split; [cbn; lia|]. intros [|i] Hi; [lia|]. cbn. intros Hin. apply (Hx Hs).
    apply in_concat. exists (nth i L []). split; auto.
    destruct (Nat.lt_ge_cases i (length L)); [apply nth_In; auto|].
    rewrite nth_overflow in Hin by auto. destruct Hin.
  - destruct (IH s) as (j & Hj & Hl & Ho); auto.
    { clear - Hd. induction l; auto. cbn in Hd. inversion Hd; auto. }
    exists (S j). split; auto. split; [cbn; lia|]. intros [|i] Hi; cbn; [|apply Ho; lia].
    intros Hin. apply (Hx Hin). auto.
Qed.

Lemma filter_acts : forall (outs : nat -> list N) s l, NoDup l ->
  filter (slot_is s) (flat_map (fun i => map (fun x => (i, x)) (outs i)) l) =
  if in_dec Nat.eq_dec s l then map (fun x => (s, x)) (outs s) else [].
Proof.
  induction l as [|a l IH]; intros Hd; cbn [flat_map].
  - destruct (in_dec Nat.eq_dec s []) as [[]|]; auto.
  - inversion Hd; subst. rewrite filter_app, filter_own, IH by auto.
    destruct (Nat.eqb_spec a s) as [->|Ne].
    + destruct (in_dec Nat.eq_dec s l); [tauto|]. destruct (in_dec Nat.eq_dec s (s :: l)) as [|n0].
      * apply app_nil_r.
      * exfalso. apply n0. left; auto.
    + destruct (in_dec Nat.eq_dec s l), (in_dec Nat.eq_dec s (a :: l)) as [i'|n']; auto.
      * exfalso. apply n'. right; auto.
      * destruct i'; [congruence|tauto].
Qed.

(** The functor pushes, for each index, a sequence of values to the slot of that
    index. *)
Theorem parallel_for_pushes : forall n t (outs : nat -> list N), 1 <= t ->
  exists ts, pf_traces n t (fun i => map (fun x => (i, x)) (outs i)) = Ok ts /\ length ts = S t /\
    forall tr, interleave ts tr -> exec_push (repeat [] n) tr = Ok (map outs (seq 0 n)).
Proof.
  intros n t outs Ht. destruct (pf_ranges_cover n t Ht) as (rs & Er & Lr & Ec).
  unfold pf_traces. rewrite Er. cbn [bind]. eexists; split; [reflexivity|]. split; [rewrite map_length; auto|].
  intros tr H. set (acts := fun i => map (fun x => (i, x)) (outs i)) in *.
  assert (Ect : concat (map (fun rg => flat_map acts (indices rg)) rs) = flat_map acts (seq 0 n)).
  { rewrite <- Ec. clear. induction rs as [|r rs IH]; cbn [map concat]; auto.
    rewrite flat_map_app, <- IH. auto. }
  assert (F : Forall (fun a => fst a < n) tr).
  { eapply Permutation_Forall; [apply interleave_perm; eauto|]. rewrite Ect.
    apply Forall_forall. intros a Ha. apply in_flat_map in Ha. destruct Ha as (i & Hi & Ha).
    apply in_map_iff in Ha. destruct Ha as (x & <- & _). apply in_seq in Hi. cbn. lia. }
  destruct (exec_push_spec tr (repeat [] n)) as (r & -> & L & G). { rewrite repeat_length. auto. }
  rewrite repeat_length in *. f_equal. apply nth_ext with (d := []) (d' := []).
  { rewrite map_length, seq_length. auto. }
  intros s Hs. rewrite L in Hs. rewrite G, nth_repeat by auto. cbn [app].
  rewrite nth_map_seq by auto.
  apply interleave_filter with (P := slot_is s) in H. rewrite map_map in H.
  assert (Hd : NoDup (concat (map indices rs))) by (rewrite Ec; apply seq_NoDup).
  destruct (nodup_pick (map indices rs) s Hd) as (j & Hj & Hl & Ho).
  { rewrite Ec. apply in_seq. lia. }
  rewrite map_length in Hl.
  assert (Hn : forall i, i < length rs -> nth i (map (fun x => filter (slot_is s) (flat_map acts (indices x))) rs) []
                = if in_dec Nat.eq_dec s (nth i (map indices rs) []) then map (fun x => (s, x)) (outs s) else []).
  { intros i Hi. rewrite (nth_indep _ [] (filter (slot_is s) (flat_map acts (indices (0, 0)))))
      by (rewrite map_length; auto).
    rewrite (map_nth (fun x => filter (slot_is s) (flat_map acts (indices x)))).
    unfold acts. rewrite filter_acts by apply seq_NoDup.
    rewrite (nth_indep (map indices rs) [] (indices (0, 0))) by (rewrite map_length; auto).
    rewrite (map_nth indices). auto. }
  rewrite (interleave_single _ _ H j).
  - rewrite Hn by auto. destruct (in_dec _ _ _); [|tauto]. rewrite map_map. apply map_id.
  - intros i Hi. destruct (Nat.lt_ge_cases i (length rs)).
    + rewrite Hn by auto. destruct (in_dec _ _ _) as [Hin|]; auto. exfalso. apply (Ho i); auto.
    + apply nth_overflow. rewrite map_length. auto.
Qed.

(** The functor writes one value per index. *)
Theorem parallel_for_writes : forall n t (f : nat -> N) (v : list N), 1 <= t -> length v = n ->
  exists ts, pf_traces n t (fun i => [(i, f i)]) = Ok ts /\
    forall tr, interleave ts tr ->
      Permutation (map fst tr) (seq 0 n) /\ exec_write v tr = Ok (map f (seq 0 n)).
Proof.
  intros n t f v Ht Hv. destruct (pf_ranges_cover n t Ht) as (rs & Er & Lr & Ec).
  unfold pf_traces. rewrite Er. cbn [bind]. eexists; split; [reflexivity|]. intros tr H.
  assert (P := interleave_perm _ _ H).
  assert (Ect : concat (map (fun rg => flat_map (fun i => [(i, f i)]) (indices rg)) rs)
                = map (fun i => (i, f i)) (seq 0 n)).
  { rewrite <- Ec. clear. induction rs as [|r rs IH]; cbn [map concat]; auto.
    rewrite map_app, <- IH. f_equal. }
  rewrite Ect in P.
  assert (P1 : Permutation (map fst tr) (seq 0 n)).
  { symmetry. apply (Permutation_map fst) in P. rewrite map_map, map_id in P. auto. }
  split; auto.
  destruct (exec_write_spec tr v) as (v' & -> & L & G & _).
  - apply Forall_forall. intros a Ha. apply (in_map fst) in Ha. apply (Permutation_in _ P1) in Ha.
    apply in_seq in Ha. lia.
  - apply (Permutation_NoDup (l := seq 0 n)); [symmetry; auto|apply seq_NoDup].
  - f_equal. apply nth_error_ext. intros i. destruct (Nat.lt_ge_cases i n) as [Hi|Hi].
    + rewrite (G i (f i)).
      * rewrite nth_error_map, (nth_error_nth' _ 0) by (rewrite seq_length; auto).
        rewrite seq_nth by auto. auto.
      * apply (Permutation_in _ P). apply in_map_iff. exists i. split; auto. apply in_seq. lia.
    + transitivity (@None N); [|symmetry]; apply nth_error_None; [lia|].
      rewrite map_length, seq_length. lia.
Qed.
