(** Which processor each worker is bound to. *)

From Verif Require Import Base FlatTrie LevelTrie FastTrie ParallelFor Intersection Tries Facts Affinity InterMain ThreadBound.

Definition mac_tag (i : nat) : result nat :=
  let* cs := mac_CPU_SET (i / 1) 0 in mac_setaffinity cs.

Lemma mac_tag_ok : forall i, i < 32 -> mac_tag i = Ok i.
Proof.
  intros i Hi. assert (H : forallb (fun i => match mac_tag i with Ok j => j =? i | _ => false end) (seq 0 32) = true)
    by (vm_compute; reflexivity).
  rewrite forallb_forall in H. specialize (H i ltac:(apply in_seq; lia)).
  destruct (mac_tag i) as [j| |]; try discriminate. apply Nat.eqb_eq in H. congruence.
Qed.

Lemma mac_loop : forall n i l, i + n <= 32 ->
  for_loop n i (fun i tags =>
    let* cs := mac_CPU_SET (i / 1) 0 in
    let* core := mac_setaffinity cs in
    Ok (tags ++ [core])) l = Ok (l ++ seq i n).
Proof.
  induction n; intros i l Hi; cbn [for_loop seq].
  - rewrite app_nil_r. reflexivity.
  - assert (E := mac_tag_ok i ltac:(lia)). unfold mac_tag in E.
    destruct (mac_CPU_SET (i / 1) 0) as [cs| |]; try discriminate. cbn [bind] in *.
    rewrite E. cbn [bind]. rewrite IHn by lia. rewrite <- app_assoc. reflexivity.
Qed.

Theorem mac_bindings_ok : forall n, n <= 32 -> mac_bindings n = Ok (seq 0 n).
Proof. intros n Hn. unfold mac_bindings. rewrite mac_loop by lia. reflexivity. Qed.

Theorem mac_bindings_ub : forall n, 32 < n -> mac_bindings n = UB BadShift.
Proof.
  intros n Hn. unfold mac_bindings. replace n with (32 + (n - 32)) by lia. rewrite for_loop_app, mac_loop by lia.
  cbn [bind]. destruct (n - 32) as [|m] eqn:E; [lia|]. cbn [for_loop]. reflexivity.
Qed.

Theorem mac_traces_ok : forall n t acts, t <= 32 -> mac_traces n t acts = pf_traces n t acts.
Proof.
  intros n t acts Ht. unfold mac_traces. rewrite mac_bindings_ok by auto.
  destruct (pf_traces n t acts); reflexivity.
Qed.

Theorem mac_traces_ub : forall n t acts, 32 < t -> mac_traces n t acts = UB BadShift.
Proof.
  intros n t acts Ht. unfold mac_traces, pf_traces, pf_ranges.
  replace (t =? 0) with false by (symmetry; apply Nat.eqb_neq; lia). cbn [bind].
  rewrite mac_bindings_ub by auto. reflexivity.
Qed.

Lemma one_more : forall i, N.lor (N.ones (N.of_nat i)) (N.shiftl 1 (N.of_nat i)) = N.ones (N.of_nat (S i)).
Proof.
  intros i. apply N.bits_inj. intros b. rewrite N.lor_spec.
  replace (N.shiftl 1 (N.of_nat i)) with (2 ^ N.of_nat i)%N by (rewrite N.shiftl_1_l; auto).
  destruct (N.lt_trichotomy b (N.of_nat i)) as [H|[->|H]].
  - rewrite !N.ones_spec_low by lia. auto.
  - rewrite N.pow2_bits_true, orb_true_r, N.ones_spec_low by lia. auto.
  - rewrite !N.ones_spec_high by lia. rewrite N.pow2_bits_false by lia. auto.
Qed.

Theorem mac_getaffinity : forall n, mac_sched_getaffinity (Some n) =
  if n <=? 32 then Ok (Some (2 ^ N.of_nat n - 1)%N) else UB BadShift.
Proof.
  assert (L : forall n i, i + n <= 32 ->
    for_loop n i (fun i cs => mac_CPU_SET i cs) (N.ones (N.of_nat i)) = Ok (N.ones (N.of_nat (i + n)))).
  { induction n; intros i H; cbn [for_loop].
    - rewrite Nat.add_0_r. auto.
    - unfold mac_CPU_SET at 1. unfold shl_int. replace (i <? 32) with true by (symmetry; apply Nat.ltb_lt; lia).
      cbn [bind]. rewrite one_more. rewrite IHn by lia. do 2 f_equal. lia. }
  intros n. unfold mac_sched_getaffinity. change 0%N with (N.ones (N.of_nat 0)). destruct (Nat.leb_spec n 32) as [H|H].
  - rewrite L by lia. cbn [bind Nat.add]. rewrite N.ones_equiv. do 2 f_equal. lia.
  - replace n with (32 + (n - 32)) by lia. rewrite for_loop_app, L by lia.
    cbn [bind]. destruct (n - 32) as [|m] eqn:E; [lia|]. cbn [for_loop]. reflexivity.
Qed.

(** * Linux *)

Theorem linux_bindings_spec : forall n, exists sets, linux_bindings n = Ok sets /\ length sets = n /\
  forall i cs, nth_error sets i = Some cs -> forall c,
    N.testbit cs c = true <-> c = N.of_nat i /\ i < 1024.
Proof.
  assert (L : forall n i l, for_loop n i (fun i sets => Ok (sets ++ [linux_CPU_SET (i / 1) 0])) l =
    Ok (l ++ map (fun i => linux_CPU_SET i 0) (seq i n))).
  { induction n; intros i l; cbn [for_loop seq map].
    - rewrite app_nil_r. auto.
    - cbn [bind]. rewrite IHn, Nat.div_1_r, <- app_assoc. auto. }
  intros n. unfold linux_bindings. rewrite L. eexists. split; [reflexivity|]. cbn [app].
  split; [rewrite map_length, seq_length; auto|]. intros i cs E c. rewrite nth_error_map in E.
  assert (Hi : i < n).
  { destruct (nth_error (seq 0 n) i) eqn:E'; [|discriminate].
    assert (nth_error (seq 0 n) i <> None) by congruence. apply nth_error_Some in H. rewrite seq_length in H. auto. }
  rewrite (nth_error_nth' _ 0) in E by (rewrite seq_length; auto). rewrite seq_nth in E by auto.
  cbn [option_map Nat.add] in E. injection E as <-. unfold linux_CPU_SET.
  assert (Hd : (i / 8 <? 128) = (i <? 1024)).
  { destruct (Nat.ltb_spec i 1024) as [H|H]; [apply Nat.ltb_lt|apply Nat.ltb_ge].
    - apply Nat.div_lt_upper_bound; lia.
    - apply Nat.div_le_lower_bound; lia. }
  rewrite Hd. destruct (Nat.ltb_spec i 1024) as [H|H].
  - rewrite N.lor_0_l, N.shiftl_1_l, N.pow2_bits_eqb, N.eqb_eq. split; intros; intuition.
  - rewrite N.bits_0. split; [discriminate|]. intros (_ & H'). lia.
Qed.

(** * Intersections *)

Theorem mac_intersection : forall k Ts nTries maxLevel runs hc used levels st, (hc < 64)%N ->
  par_plan k Ts nTries maxLevel runs (N.to_nat (N.log2 hc)) (2 ^ N.log2 hc)%N = Ok (Work used levels st) ->
  mac_bindings used = Ok (seq 0 used).
Proof.
  intros k Ts nTries maxLevel runs hc used levels st Hhc E.
  destruct (tasks_bounded _ _ _ _ _ _ _ _ _ ltac:(eapply N.lt_trans; [exact Hhc|reflexivity]) E) as (H & _).
  apply mac_bindings_ok. assert (N.log2 hc <= N.log2 63)%N by (apply N.log2_le_mono; lia).
  change (N.log2 63) with 5%N in *. assert (2 ^ N.log2 hc <= 2 ^ 5)%N by (apply N.pow_le_mono_r; lia).
  change (2 ^ 5)%N with 32%N in *. lia.
Qed.
