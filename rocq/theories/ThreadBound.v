(** Bounds on the number of tasks of a parallel intersection, for any tries. *)

From Verif Require Import Base ParallelFor Intersection Facts SpecThreads.

Lemma bind_inv : forall A B (m : result A) (f : A -> result B) b, bind m f = Ok b ->
  exists a, m = Ok a /\ f a = Ok b.
Proof. intros A B [a| |] f b H; cbn in H; try discriminate. eauto. Qed.

Ltac inv_bind H := let a := fresh "a" in let E := fresh "E" in
  apply bind_inv in H; destruct H as (a & E & H).

Section Bound.
  Variable k : kind.
  Variable Ts : list trie_ops.
  Variable nTries maxLevel : nat.
  Variable runs : bool.
  Notation pAND := (partialAND k Ts nTries maxLevel runs).

  Lemma pa_emit_length : forall roots act p st st', pa_emit nTries runs roots act p st = Ok st' ->
    length (pa_roots st') = S (length (pa_roots st)).
  Proof.
    intros roots act p st st' H. unfold pa_emit in H. inv_bind H. destruct runs.
    - inv_bind H. inversion H; subst. cbn [pa_roots]. rewrite app_length. cbn. lia.
    - inversion H; subst. cbn [pa_roots]. rewrite app_length. cbn. lia.
  Qed.

  Lemma pAND_length : forall cut fuel cur roots act p st st', cur <= cut ->
    pAND fuel cur cut roots act p st = Ok st' ->
    length (pa_roots st) <= length (pa_roots st') <= length (pa_roots st) + 2 ^ (cut - cur).
  Proof.
    intros cut. induction fuel as [|fuel IH]; intros cur roots act p st st' Hc H; cbn [partialAND] in H;
      destruct (Nat.eqb_spec cur cut) as [->|Hne].
    1,3: apply pa_emit_length in H; rewrite Nat.sub_diag; cbn; lia.
    - discriminate.
    - assert (Hp : 2 ^ (cut - cur) = 2 * 2 ^ (cut - S cur)).
      { replace (cut - cur) with (S (cut - S cur)) by lia. reflexivity. }
      assert (1 <= 2 ^ (cut - S cur)) by (apply Nat.neq_0_lt_0; apply Nat.pow_nonzero; lia).
      inv_bind H. destruct a as [[temp res] node00].
      destruct (negb runs && N.eqb res 0)%bool; [inversion H; subst; lia|].
      destruct (runs && N.eqb node00 0)%bool.
      { inv_bind H. inversion H; subst. cbn [pa_roots]. lia. }
      destruct (N.eqb res 2). { inv_bind H. apply IH in H; lia. }
      destruct (N.eqb res 1). { inv_bind H. inv_bind H. apply IH in H; lia. }
      destruct (N.eqb res 3); [|inversion H; subst; lia].
      inv_bind H. inv_bind H. destruct a0 as [ln rn]. inv_bind H.
      apply IH in H; [|lia]. apply IH in E2; lia.
  Qed.

  Variable cut : nat.
  Hypothesis Hcut : cut <= 15.

  Lemma pow_cut : 2 ^ cut <= 2 ^ 15.
  Proof. apply Nat.pow_le_mono_r; lia. Qed.

  Lemma pow15 : (N.of_nat (2 ^ 15) < 2 ^ 16)%N.
  Proof. rewrite Nat2N.inj_pow. reflexivity. Qed.

  (** Counters stay exact, and the number of tasks never exceeds [nThreads]. *)
  Lemma fill_exact : forall ints troots tactive total fuel i used st,
    total <= 2 ^ cut -> i <= total -> used = total + length (pa_roots st) - i -> used <= 2 ^ cut ->
    fill_loop k Ts nTries maxLevel runs fuel cut (N.of_nat (2 ^ cut)) total ints troots tactive i
      (N.of_nat used) st
    = (let* (i', used', st') := fill_loop_exact k Ts nTries maxLevel runs fuel cut (2 ^ cut) total
         ints troots tactive i used st in Ok (i', N.of_nat used', st')) /\
    (forall i' used' st', fill_loop_exact k Ts nTries maxLevel runs fuel cut (2 ^ cut) total
         ints troots tactive i used st = Ok (i', used', st') ->
       i' <= total /\ used' <= 2 ^ cut /\ used' = total + length (pa_roots st') - i').
  Proof.
    intros ints troots tactive total.
    assert (H15 := pow_cut). assert (H16 := pow15).
    induction fuel as [|fuel IH]; intros i used st Ht Hi Hu Hb;
      cbn [fill_loop fill_loop_exact].
    all: assert (Eg : N.ltb 1 (wrap32 (N.of_nat (2 ^ cut) + 2 ^ 32 - N.of_nat used)) = (1 <? 2 ^ cut - used)).
    1,3: set (nT := 2 ^ cut) in *;
      replace (N.of_nat nT + 2 ^ 32 - N.of_nat used)%N with (N.of_nat (nT - used) + 1 * 2 ^ 32)%N by lia;
      unfold wrap32; rewrite N.mod_add by discriminate; rewrite N.mod_small by lia;
      destruct (Nat.ltb_spec 1 (nT - used)); [apply N.ltb_lt|apply N.ltb_ge]; lia.
    all: rewrite Eg; destruct ((1 <? 2 ^ cut - used) && (i <? total))%bool eqn:G.
    - split; [reflexivity|]. discriminate.
    - split; [reflexivity|]. intros i' used' st' H. inversion H; subst. lia.
    - apply andb_prop in G. destruct G as (G1 & G2). apply Nat.ltb_lt in G1, G2.
      destruct (vget troots i) as [rt| |]; cbn [bind]; try (split; [reflexivity|discriminate]).
      destruct (if runs then _ else _) as [act| |]; cbn [bind]; try (split; [reflexivity|discriminate]).
      destruct (vget ints i) as [p| |]; cbn [bind]; try (split; [reflexivity|discriminate]).
      destruct (pAND (S (S cut)) cut (S cut) (snd rt) act p st) as [st1| |] eqn:E; cbn [bind];
        try (split; [reflexivity|discriminate]).
      apply pAND_length in E; [|lia]. replace (S cut - cut) with 1 in E by lia. cbn [Nat.pow Nat.mul Nat.add] in E.
      assert (Ew : wrap16 (N.of_nat total + N.of_nat (length (pa_roots st1)) + 2 ^ 64 - N.of_nat (S i))
                   = N.of_nat (total + length (pa_roots st1) - S i)).
      { set (nT := 2 ^ cut) in *.
        replace (N.of_nat total + N.of_nat (length (pa_roots st1)) + 2 ^ 64 - N.of_nat (S i))%N
          with (N.of_nat (total + length (pa_roots st1) - S i) + 2 ^ 48 * 2 ^ 16)%N.
        - unfold wrap16. rewrite N.mod_add by discriminate. apply N.mod_small. lia.
        - replace (2 ^ 64)%N with (2 ^ 48 * 2 ^ 16)%N by reflexivity. lia. }
      rewrite Ew. apply IH; lia.
    - split; [reflexivity|]. intros i' used' st' H. inversion H; subst. lia.
  Qed.

  Theorem par_plan_counters :
    par_plan k Ts nTries maxLevel runs cut (N.of_nat (2 ^ cut)) =
    par_plan_exact k Ts nTries maxLevel runs cut (2 ^ cut) /\
    forall used levels st, par_plan k Ts nTries maxLevel runs cut (N.of_nat (2 ^ cut)) = Ok (Work used levels st) ->
      used <= 2 ^ cut /\ used = length (pa_roots st) /\ used = length levels.
  Proof.
    assert (H15 := pow_cut). assert (H16 := pow15).
    unfold par_plan, par_plan_exact.
    destruct (pAND (S cut) 0 cut init_roots init_active 0 (mkPA [] [] [] [] (mkMem 0 [])))
      as [st| |] eqn:E; cbn [bind]; try (split; [reflexivity|discriminate]).
    apply pAND_length in E; [|lia]. cbn [pa_roots length] in E. rewrite Nat.sub_0_r in E. cbn [Nat.add] in E.
    destruct (Nat.eqb_spec (length (pa_roots st)) 0); [split; [reflexivity|discriminate]|].
    assert (Ew : wrap16 (N.of_nat (length (pa_roots st))) = N.of_nat (length (pa_roots st))).
    { unfold wrap16. apply N.mod_small. lia. }
    rewrite Ew, Nat2N.id.
    destruct (fill_exact (pa_ints st) (pa_roots st) (pa_active st) (length (pa_roots st))
                (S (length (pa_roots st))) 0 (length (pa_roots st))
                (mkPA (pa_r st) [] [] [] (pa_mem st))) as (F1 & F2); cbn [pa_roots length]; try lia.
    rewrite F1. clear F1.
    destruct (fill_loop_exact _ _ _ _ _ _ _ _ _ _ _ _ _ _ _) as [[[i used] st']| |] eqn:Ef; cbn [bind];
      try (split; [reflexivity|discriminate]).
    destruct (F2 _ _ _ eq_refl) as (F3 & F4 & F5). rewrite Nat2N.id. split; [reflexivity|].
    intros used' levels st'' H. inv_bind H. destruct a as [lv st2].
    assert (Hl : forall n i lv0 s0 lv1 s1, for_loop n i (fun j '(levels, st') =>
          let* rt := vget (pa_roots st) j in
          let* act := (if runs then let* a := vget (pa_active st) j in Ok [a] else Ok []) in
          let* p := vget (pa_ints st) j in
          Ok (levels ++ [cut],
              mkPA (pa_r st') (pa_ints st' ++ [p]) (pa_roots st' ++ [rt])
                   (pa_active st' ++ act) (pa_mem st'))) (lv0, s0) = Ok (lv1, s1) ->
        length lv1 = length lv0 + n /\ length (pa_roots s1) = length (pa_roots s0) + n).
    { clear. induction n as [|n IH]; intros i lv0 s0 lv1 s1 H; cbn [for_loop] in H.
      - inversion H; subst. lia.
      - inv_bind H. inv_bind E. inv_bind E. inv_bind E. inversion E; subst. clear E. apply IH in H.
        cbn [pa_roots] in H. rewrite !app_length in H. cbn in H. lia. }
    apply Hl in E0. rewrite repeat_length in E0.
    destruct (length (pa_roots st2) =? 0); [discriminate|]. inversion H; subst. lia.
  Qed.
End Bound.

(** ** Intersect *)

Lemma pow_nat : forall n, N.of_nat (2 ^ N.to_nat n) = (2 ^ n)%N.
Proof.
  intros n. rewrite Nat2N.inj_pow, N2Nat.id. reflexivity.
Qed.

Lemma hc_cut : forall hc, (hc < 2 ^ 16)%N -> N.to_nat (N.log2 hc) <= 15.
Proof.
  intros hc H. destruct (N.eq_dec hc 0) as [->|]; [cbn; lia|].
  assert (N.log2 hc < 16)%N by (apply N.log2_lt_pow2; lia). lia.
Qed.

Theorem counters_exact : forall k Ts nTries maxLevel runs hc, (hc < 2 ^ 16)%N ->
  par_plan k Ts nTries maxLevel runs (N.to_nat (N.log2 hc)) (2 ^ N.log2 hc)%N =
  par_plan_exact k Ts nTries maxLevel runs (N.to_nat (N.log2 hc)) (2 ^ N.to_nat (N.log2 hc)).
Proof.
  intros. rewrite <- pow_nat. apply par_plan_counters. apply hc_cut. auto.
Qed.

Theorem tasks_bounded : forall k Ts nTries maxLevel runs hc used levels st, (hc < 2 ^ 16)%N ->
  par_plan k Ts nTries maxLevel runs (N.to_nat (N.log2 hc)) (2 ^ N.log2 hc)%N = Ok (Work used levels st) ->
  (N.of_nat used <= 2 ^ N.log2 hc)%N /\ used = length (pa_roots st) /\ used = length levels.
Proof.
  intros k Ts nTries maxLevel runs hc used levels st H E. rewrite <- pow_nat in *.
  apply par_plan_counters in E; [|apply hc_cut; auto]. lia.
Qed.

Lemma pf_traces_length : forall n t acts ts, pf_traces n t acts = Ok ts -> length ts = S t.
Proof.
  intros n t acts ts H. unfold pf_traces, pf_ranges in H. destruct (t =? 0); [discriminate|].
  cbn [bind] in H. inversion H. rewrite map_length, app_length, map_length, seq_length. cbn. lia.
Qed.

Theorem workers_bounded : forall k Ts runs parallel hc s1 s2 s1' s2', (hc < 2 ^ 16)%N ->
  alike_up_to (2 ^ N.log2 hc) s1 s1' -> alike_up_to (2 ^ N.log2 hc) s2 s2' ->
  Intersect_mem k s1 s2 hc Ts runs parallel = Intersect_mem k s1' s2' hc Ts runs parallel.
Proof.
  intros k Ts runs parallel hc s1 s2 s1' s2' Hhc A1 A2. unfold Intersect_mem.
  destruct (vget Ts 0) as [T0| |]; auto. cbn [bind].
  destruct (negb _); auto. destruct (N.eqb hc 0); auto. destruct (parallel && _)%bool; auto.
  destruct (par_plan _ _ _ _ _ _ _) as [[r m|used levels st]| |] eqn:E; auto. cbn [bind].
  apply tasks_bounded in E; auto. destruct E as (E & _).
  assert (E1 : par_results k Ts (length Ts) (t_height T0) runs s1 used levels st =
               par_results k Ts (length Ts) (t_height T0) runs s1' used levels st).
  { unfold par_results. destruct (for_loop _ _ _ _) as [outs| |]; auto. cbn [bind].
    destruct (pf_traces _ _ _) as [ts| |] eqn:Et; auto. cbn [bind].
    apply pf_traces_length in Et. rewrite A1; auto. lia. }
  rewrite E1. clear E1. destruct (par_results _ _ _ _ _ _ _ _ _) as [results| |]; auto. cbn [bind].
  assert (E2 : par_concat s2 used (pa_r st) results = par_concat s2' used (pa_r st) results).
  { unfold par_concat. destruct (for_loop _ _ _ _) as [[[os sh] x]| |]; auto. cbn [bind].
    destruct (N.ltb _ _); auto.
    destruct (pf_traces _ _ _) as [ts| |] eqn:Et; auto. cbn [bind].
    apply pf_traces_length in Et. rewrite A2; auto. lia. }
  rewrite E2. auto.
Qed.
