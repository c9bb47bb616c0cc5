(** When exactly a parallel call without runs reads a flag that is not set. *)

From Verif Require Import Base FlatTrie LevelTrie FastTrie ParallelFor Intersection Tries Calls Strict Facts Tree
  Groups Reps Layout BuildFlat BuildLevel BuildFast WordBits Spec RoundTrip RoundTripFacts Compress
  WriteOnes CompressFast RunsFacts RunsThms SpecTries SpecLost SpecMeasures SpecCalls SpecStrict NodeCount
  InterSpec InterSeq ParFacts InterPar InterPlan InterTop InterInst InterTight InterMain InterThms InterLost
  LayoutThms CallsThms CallsMain InterExact InterLeak InterFlag StrictThms StrictPar.

Lemma high_bit : forall q k i, k <= i -> N.testbit (q * pow2 k) (N.of_nat i) = N.testbit q (N.of_nat (i - k)).
Proof.
  intros q k i H. unfold pow2. rewrite <- N.shiftl_mul_pow2, N.shiftl_spec_high by lia. f_equal. lia.
Qed.

(** * One task *)

Section Down.
  Context {A : Type}.
  Variable lg n : nat.
  Notation down := (down lg (A := A)).

  (** What is below the forest [down] leads to. *)
  Lemma down_good : forall c d X v, c <= d -> wfs n d X -> wfs n (d - c) (down c d X v).
  Proof.
    induction c as [|c IH]; intros d X v Hc W.
    - replace (down 0 d X v) with X by (destruct d; auto). rewrite Nat.sub_0_r. auto.
    - destruct d as [|d]; [lia|]. cbn [InterExact.down Nat.sub].
      destruct (N.testbit _ _); apply IH; try lia; auto using wfs_lefts, wfs_rights.
  Qed.

  Lemma reach_down : forall c d X v x j, c <= d -> wfs n d X -> all_reachx lg n c d X v ->
    agree lg d (d - c + lg) v x ->
    (all_reachx lg n (c + j) d X x <-> all_reachx lg n j (d - c) (down c d X v) x).
  Proof.
    induction c as [|c IH]; intros d X v x j Hc W R G.
    - replace (down 0 d X v) with X by (destruct d; auto). rewrite Nat.sub_0_r. reflexivity.
    - destruct d as [|d]; [lia|]. cbn [InterExact.down Nat.sub Nat.add] in *.
      assert (WL := wfs_lefts n d X W). assert (WR := wfs_rights n d X W).
      assert (B := G (d + lg) ltac:(lia)).
      destruct (N.testbit v (N.of_nat (d + lg))) eqn:Bv; symmetry in B.
      + apply step_right in R; auto. destruct R as (ER & R). rewrite step_right by auto.
        rewrite (IH d (rights X) v x j); auto; [tauto|lia|]. intros i Hi. apply G. lia.
      + apply step_left in R; auto. destruct R as (ER & R). rewrite step_left by auto.
        rewrite (IH d (lefts X) v x j); auto; [tauto|lia|]. intros i Hi. apply G. lia.
  Qed.

  (** The flags read at the root of a forest. *)
  Definition top_flags (d : nat) (Y : forest (A := A)) : Prop :=
    (all_right n Y = true -> all_left n Y = true) /\
    (all_left n Y = true -> all_right n Y = true \/ flagt n d (lefts Y) = true).

  Lemma sok_split : forall d Y, wfs n (S d) Y ->
    (sok n (S d) Y = true <-> all_from lg n 1 (S d) Y /\ top_flags d Y).
  Proof.
    intros d Y W. rewrite all_from_S by auto. rewrite !all_from_0.
    rewrite <- !sok_iff by (auto using wfs_lefts, wfs_rights).
    unfold top_flags. cbn [sok]. rewrite !andb_true_iff.
    destruct (all_left n Y), (all_right n Y); cbn [negb orb]; intuition.
  Qed.
End Down.

Section OneTask.
  Context {A : Type}.
  Variable lg D cut n : nat.
  Variable X : forest (A := A).
  Variable P : nat -> N -> Prop.
  Hypothesis W : wfs n D X.
  Hypothesis HB : forall b q, P b q -> (q * pow2 b < pow2 (D + lg))%N.
  Hypothesis HP : forall j q b, j <= D -> b = D + lg - j -> (q * pow2 b < pow2 (D + lg))%N ->
    (all_reachx lg n j D X (q * pow2 b) <-> P b q).
  Hypothesis Hcut : S cut <= D.
  Notation b := (pow2 (D - cut + lg)).
  Notation Y q := (down lg cut D X (q * b)).

  Theorem task_flag : forall q, P (D - cut + lg) q ->
    (top_flags n (D - S cut) (Y q) <-> flag_set P lg (D + lg - S cut) q).
  Proof.
    intros q Hq.
    assert (Hb := HB _ _ Hq).
    assert (R : all_reachx lg n cut D X (q * b)) by (apply (HP cut); auto; lia).
    assert (WY := down_good lg n cut D X (q * b) ltac:(lia) W).
    remember (D - S cut) as d eqn:Ed. assert (Ed' : D - cut = S d) by lia. rewrite Ed' in *.
    replace (D + lg - S cut) with (d + lg) by lia.
    assert (Eb : forall z, (z * pow2 (S d + lg) = 2 * z * pow2 (d + lg))%N).
    { intros z. cbn [Nat.add]. rewrite pow2_S. lia. }
    assert (HL : all_left n (down lg cut D X (q * pow2 (S d + lg))) = true <-> P (d + lg) (2 * q)).
    { assert (B : N.testbit (q * pow2 (S d + lg)) (N.of_nat (d + lg)) = false).
      { rewrite Eb, high_bit, Nat.sub_diag by lia. apply double_bit0. }
      rewrite <- (HP (S cut)) by (try lia; rewrite <- Eb; auto).
      rewrite <- Eb. replace (S cut) with (cut + 1) by lia.
      rewrite (reach_down lg n cut D X (q * pow2 (S d + lg)) _ 1) by (auto; try lia; intros i Hi; auto).
      rewrite Ed', step_left by auto. split; [|tauto]. intros H. split; auto. intros i t _ _. reflexivity. }
    assert (HR : all_right n (down lg cut D X (q * pow2 (S d + lg))) = true <-> P (d + lg) (2 * q + 1)).
    { assert (Hx : forall i, S d + lg <= i -> N.testbit (q * pow2 (S d + lg)) (N.of_nat i) =
                      N.testbit ((2 * q + 1) * pow2 (d + lg)) (N.of_nat i)).
      { intros i Hi. rewrite !high_bit by lia. replace (i - (d + lg)) with (S (i - (S d + lg))) by lia.
        symmetry. apply double1_bitS. }
      assert (B : N.testbit ((2 * q + 1) * pow2 (d + lg)) (N.of_nat (d + lg)) = true).
      { rewrite high_bit, Nat.sub_diag by lia. apply double1_bit0. }
      assert (Hs : ((2 * q + 1) * pow2 (d + lg) < pow2 (D + lg))%N).
      { assert (G := pow2_pos (d + lg)).
        assert (pow2 (D + lg) = 2 ^ N.of_nat cut * pow2 (S d + lg))%N as E.
        { unfold pow2. rewrite <- N.pow_add_r. f_equal. lia. }
        rewrite E in *. assert (q < 2 ^ N.of_nat cut)%N by (apply N.mul_lt_mono_pos_r in Hb; auto; apply pow2_pos).
        cbn [Nat.add]. rewrite pow2_S. nia. }
      rewrite <- (HP (S cut)) by (auto; lia).
      replace (S cut) with (cut + 1) by lia.
      rewrite (reach_down lg n cut D X (q * pow2 (S d + lg)) _ 1) by (auto; try lia; intros i Hi; apply Hx; lia).
      rewrite Ed', step_right by auto. split; [|tauto]. intros H. split; auto. intros i t _ _. reflexivity. }
    assert (WL := wfs_lefts n d _ WY).
    assert (HZ : all_left n (down lg cut D X (q * pow2 (S d + lg))) = true ->
      (flagt n d (lefts (down lg cut D X (q * pow2 (S d + lg)))) = true <-> exists z, P lg z /\ (z / 2 ^ N.of_nat (d + lg - lg) = 2 * q)%N)).
    { intros EL. rewrite (flagt_iff lg n d _ WL). replace (d + lg - lg) with d by lia. split.
      - intros (y & Hy). set (z := (y mod pow2 (d + lg) / pow2 lg)%N).
        assert (Gl := pow2_nz lg). assert (Gd := pow2_nz d).
        assert (Edl : pow2 (d + lg) = (pow2 d * pow2 lg)%N) by (unfold pow2; rewrite <- N.pow_add_r; f_equal; lia).
        assert (Hz : (z < pow2 d)%N).
        { unfold z. apply N.div_lt_upper_bound; auto. rewrite N.mul_comm, <- Edl. apply N.mod_lt. apply pow2_nz. }
        set (w := (2 * q * pow2 d + z)%N).
        assert (Ew : (w / pow2 d = 2 * q)%N).
        { symmetry. apply (N.div_unique w (pow2 d) (2 * q) z); auto. unfold w. lia. }
        assert (Bw : forall i, d <= i -> N.testbit w (N.of_nat i) = N.testbit (2 * q) (N.of_nat (i - d))).
        { intros i Hi. rewrite <- Ew. unfold pow2. rewrite N.div_pow2_bits. f_equal. lia. }
        exists w. split; [|exact Ew].
        assert (Hlow : forall i, lg <= i < d + lg -> N.testbit y (N.of_nat i) = N.testbit (w * pow2 lg) (N.of_nat i)).
        { intros i Hi. rewrite high_bit by lia.
          assert (Em : (w mod pow2 d = z)%N).
          { symmetry. apply (N.mod_unique w (pow2 d) (2 * q) z); auto. unfold w. lia. }
          rewrite <- (N.mod_pow2_bits_low w (N.of_nat d)) by lia. fold (pow2 d). rewrite Em. unfold z.
          unfold pow2 at 2. rewrite N.div_pow2_bits. unfold pow2. rewrite N.mod_pow2_bits_low by lia. f_equal. lia. }
        assert (Hws : (w * pow2 lg < pow2 (D + lg))%N).
        { assert (pow2 (D + lg) = 2 ^ N.of_nat cut * pow2 (S d + lg))%N as E.
          { unfold pow2. rewrite <- N.pow_add_r. f_equal. lia. }
          rewrite E in *. assert (q < 2 ^ N.of_nat cut)%N by (apply N.mul_lt_mono_pos_r in Hb; auto; apply pow2_pos).
          cbn [Nat.add]. rewrite pow2_S, Edl. assert (Pl := pow2_pos lg).
          assert (w < 2 ^ N.of_nat cut * (2 * pow2 d))%N by (unfold w; nia). nia. }
        rewrite <- (HP D) by (auto; lia).
        replace D with (cut + S d) at 1 by lia.
        rewrite (reach_down lg n cut D X (q * pow2 (S d + lg)) _ (S d)).
        + rewrite Ed', step_left; auto.
          * split; auto. eapply all_reach_ext; [exact WL| |exact Hy]. intros i Hi. apply Hlow. lia.
          * rewrite high_bit by lia. rewrite Bw by lia. replace (d + lg - lg - d) with 0 by lia. apply double_bit0.
        + lia.
        + auto.
        + auto.
        + intros i Hi. rewrite !high_bit by lia. rewrite Bw by lia.
          replace (i - lg - d) with (S (i - (S d + lg))) by lia. symmetry. apply double_bitS.
      - intros (z & Hz & Ez). assert (Hzb := HB _ _ Hz).
        assert (Bz : forall i, d <= i -> N.testbit z (N.of_nat i) = N.testbit (2 * q) (N.of_nat (i - d))).
        { intros i Hi. rewrite <- Ez. rewrite N.div_pow2_bits. f_equal. lia. }
        exists (z * pow2 lg)%N.
        apply (HP D) in Hz; auto; [|lia].
        replace D with (cut + S d) in Hz at 1 by lia.
        rewrite (reach_down lg n cut D X (q * pow2 (S d + lg)) _ (S d)) in Hz.
        + rewrite Ed' in Hz. apply step_left in Hz; auto; [tauto|].
          rewrite high_bit by lia. rewrite Bz by lia. replace (d + lg - lg - d) with 0 by lia. apply double_bit0.
        + lia.
        + auto.
        + auto.
        + intros i Hi. rewrite !high_bit by lia. rewrite Bz by lia.
          replace (i - lg - d) with (S (i - (S d + lg))) by lia. symmetry. apply double_bitS. }
    unfold top_flags, flag_set. rewrite HR, <- HL. split; intros (H1 & H2); split; auto; intros H; specialize (H2 H).
    - destruct H2 as [H2|H2]; auto. right. apply HZ; auto.
    - destruct H2 as [H2|H2]; auto. right. apply HZ; auto.
  Qed.
End OneTask.

(** * All tasks *)

Section AllTasks.
  Context {A I : Type}.
  Variable lfull : A -> bool.
  Variable lmem : A -> N -> bool.
  Variable lg D c cut : nat.
  Hypothesis Hc : c <= D.
  Variable nThreads : N.
  Variable Ts : list trie_ops.
  Variable ts : list (tree A).
  Variable set : I -> list N.
  Variable run : I -> nat -> N -> Prop.
  Variable items : list I.
  Variable xs : list (bool * list N).
  Notation n := (length Ts).
  Notation X := (forest_of ts).
  Hypothesis Hn : 1 <= n.
  Hypothesis Hlen : n = length ts.
  Hypothesis HI : Forall2 (holds lmem lg D set run) ts items.
  Hypothesis HF : Forall2 (stands lfull lmem lg D c) ts xs.
  Hypothesis Hcut : S cut <= c.
  Notation P := (has_prefix set run items).
  Notation soks l := (Forall (fun g : ghost A => sok n (D - l) (fst g) = true)).
  Notation expand := (expand Ts lg D false cut nThreads (A := A)).

  (** The tasks made of divided ones read no unset flag exactly when the divided ones read none
      below their root. *)
  Lemma expand_halves : forall tl made, Forall (good Ts (D - cut)) tl ->
    Forall (fun g => all_from lg n 1 (D - cut) (fst g)) tl -> soks (S cut) (snd (fst (expand tl made))).
  Proof.
    induction tl as [|[Y p] tl IH]; intros made G H; cbn [InterPlan.expand].
    - cbn. constructor.
    - destruct (N.ltb _ _); cbn [fst snd]; [|constructor].
      inversion G as [|? ? G1 G2]; subst. inversion H as [|? ? H1 H2]; subst. cbn [fst] in H1.
      apply Forall_app. split; [|apply IH; auto].
      destruct (walk_from Ts lg 1 0 (D - cut) Y p ltac:(lia) G1) as (W1 & W2).
      apply W2 in H1. replace (D - cut - 1) with (D - S cut) in * by lia.
      apply Forall_forall. intros g Hg. rewrite Forall_forall in H1, W1. apply (good_sok Ts lg); auto.
  Qed.

  (** Looking for runs makes no difference to the tasks. *)
  Lemma walk_runs : forall m d (Y : forest (A := A)) p, snd (walk Ts lg false m d Y p) = snd (walk Ts lg true m d Y p).
  Proof.
    induction m as [|m IH]; intros d Y p; [destruct d; reflexivity|].
    destruct d as [|d]; [reflexivity|]. cbn [walk andb]. destruct (all_full Ts Y) eqn:E.
    - destruct (all_full_closed Ts Hn Y E) as (-> & ->). reflexivity.
    - cbn [snd]. destruct (all_left n Y), (all_right n Y); cbn [snd]; rewrite ?IH; reflexivity.
  Qed.

  Lemma expand_runs : forall tl made,
    snd (fst (expand tl made)) = snd (fst (InterPlan.expand Ts lg D true cut nThreads tl made)) /\
    snd (expand tl made) = snd (InterPlan.expand Ts lg D true cut nThreads tl made).
  Proof.
    induction tl as [|g tl IH]; intros made; [auto|]. cbn [InterPlan.expand].
    destruct (N.ltb 1 _); [|auto]. cbn [fst snd]. rewrite walk_runs.
    destruct (IH (made + length (snd (walk Ts lg true 1 (D - cut) (fst g) (snd g))))) as (E1 & E2).
    rewrite E1, E2. auto.
  Qed.

  Lemma open_reach : forall m d (Y : forest (A := A)) v, m <= d -> wfs n d Y ->
    (openb Ts lg m d Y v = true <-> all_reachx lg n m d Y v).
  Proof.
    induction m as [|m IH]; intros d Y v Hm W.
    - cbn [openb]. split; auto. intros _ i t _ _. reflexivity.
    - destruct d as [|d]; [lia|]. cbn [openb]. destruct (N.testbit v (N.of_nat (d + lg))) eqn:B.
      + rewrite step_right, andb_true_iff, IH by (auto using wfs_rights; lia). reflexivity.
      + rewrite step_left, andb_true_iff, IH by (auto using wfs_lefts; lia). reflexivity.
  Qed.

  Lemma share_prefix : forall q, share (pow2 (D - cut + lg)) xs q <-> P (D + lg - cut) q.
  Proof.
    assert (Hne : ts <> []) by (intros ->; cbn in Hlen; lia).
    assert (W := items_wfs lmem lg D ts set run items HI).
    assert (HIn : Forall (inhabited lg lmem) ts).
    { apply Forall_forall. intros t Ht. apply In_nth_error in Ht. destruct Ht as (i & Ei).
      destruct (Forall2_nth _ _ _ _ _ _ _ HI Ei) as (s & _ & _ & _ & G & _). auto. }
    assert (Both : forall q, (q * pow2 (D - cut + lg) < pow2 (D + lg))%N -> (share (pow2 (D - cut + lg)) xs q <-> P (D + lg - cut) q)).
    { intros q Hq. rewrite <- (share_open lfull lmem lg D c Hc Ts ts xs Hn Hlen HF HIn cut Hcut q Hq).
      rewrite open_reach by (try lia; rewrite Hlen; auto). rewrite Hlen.
      replace (D - cut + lg) with (D + lg - cut) in * by lia. apply (items_reach lmem lg D ts set run items HI); auto. lia. }
    intros q. split; intros H; apply Both; auto.
    - apply (met_small lfull lmem lg D c Hc Ts ts xs Hn Hlen HF HIn cut Hcut). apply H.
    - replace (D - cut + lg) with (D + lg - cut) by lia. apply (items_bound lmem lg D ts set run items Hne HI); auto.
  Qed.

  Theorem tasks_exact :
    forallb (sokt Ts D) (plan_tasks Ts lg D false cut nThreads X) = true <->
    thread_flags_set P xs lg (D + lg) cut (N.to_nat nThreads).
  Proof.
    assert (Hne : ts <> []) by (intros ->; cbn in Hlen; lia).
    assert (W0 := items_wfs lmem lg D ts set run items HI).
    assert (B0 := items_bound lmem lg D ts set run items Hne HI).
    assert (R0 := items_reach lmem lg D ts set run items HI).
    assert (W : wfs n D X) by (rewrite Hlen; auto).
    assert (HcD : S cut <= D) by lia.
    assert (HIn : Forall (inhabited lg lmem) ts).
    { apply Forall_forall. intros t Ht. apply In_nth_error in Ht. destruct Ht as (i & Ei).
      destruct (Forall2_nth _ _ _ _ _ _ _ HI Ei) as (s & _ & _ & _ & G & _). auto. }
    destruct (plan_sets lfull lmem lg D c Hc Ts ts xs Hn Hlen HF HIn cut Hcut nThreads)
      as (qs & es & rest & gs & a & Iq & Mq & Ew & Ee & Di & Eq & _).
    assert (E1 := walk_runs cut D X 0%N).
    destruct (walk_from Ts lg cut 1 D X 0%N ltac:(lia) W) as (G & W1).
    replace (cut + 1) with (S cut) in W1 by lia.
    rewrite E1, Ew in G, W1.
    destruct (expand_runs (map (task lg D ts cut) qs) 0) as (E2 & E3). rewrite Ee in E2, E3. cbn [fst snd] in E2, E3.
    set (tl := map (task lg D ts cut) qs) in *.
    assert (Ea : all_from lg n (S cut) D X <-> flags_set P lg (D + lg - S cut)).
    { rewrite Hlen. apply (from_prefixes lg D (length ts) X P W0 B0 R0). lia. }
    assert (Hr : forall q, In q rest -> In q qs) by (intros q Hq; rewrite Eq; apply in_or_app; auto).
    assert (Es : all_from lg n (S cut) D X ->
      (soks cut (map (task lg D ts cut) rest) <-> Forall (flag_set P lg (D + lg - S cut)) rest)).
    { intros Ha. rewrite Forall_map, !Forall_forall. apply W1 in Ha. rewrite Forall_forall in Ha, G.
      assert (One : forall q, In q rest ->
        (sok n (D - cut) (fst (task lg D ts cut q)) = true <-> flag_set P lg (D + lg - S cut) q)).
      { intros q Hq. assert (Ht : In (task lg D ts cut q) tl) by (apply in_map; auto).
        specialize (Ha _ Ht). assert (WY := G _ Ht). unfold good in WY.
        assert (Hq' : P (D - cut + lg) q).
        { replace (D - cut + lg) with (D + lg - cut) by lia. apply share_prefix, Mq; auto. }
        rewrite <- (task_flag lg D cut (length ts) X P W0 B0 R0 HcD q Hq'). rewrite <- Hlen.
        change (fst (task lg D ts cut q)) with (down lg cut D X (q * pow2 (D - cut + lg))) in *.
        remember (D - S cut) as d eqn:Ed. assert (Ed' : D - cut = S d) by lia. rewrite Ed' in *.
        rewrite (sok_split lg n d) by auto. tauto. }
      split; intros H q Hq; apply One; auto. }
    assert (E : forallb (sokt Ts D) (plan_tasks Ts lg D false cut nThreads X) = true <->
      soks (S cut) gs /\ soks cut (map (task lg D ts cut) rest)).
    { unfold plan_tasks. cbv zeta. rewrite E1, Ew. fold tl. rewrite E2, E3.
      rewrite forallb_app, andb_true_iff, !forallb_forall, !Forall_forall.
      split; intros (H1 & H2); split; intros g Hg.
      - apply (H1 (S cut, g)). apply in_map; auto.
      - apply (H2 (cut, g)). apply in_map; auto.
      - apply in_map_iff in Hg. destruct Hg as (g' & <- & Hg). apply (H1 _ Hg).
      - apply in_map_iff in Hg. destruct Hg as (g' & <- & Hg). apply (H2 _ Hg). }
    rewrite E.
    destruct (expand_sok Ts lg D cut nThreads HcD tl 0 G) as (_ & X2).
    assert (X3 := expand_halves tl 0 G).
    rewrite E2, E3 in X2. rewrite E2 in X3.
    assert (Bp : (2 ^ N.of_nat (D + lg - cut))%N = pow2 (D - cut + lg)) by (unfold pow2; f_equal; lia).
    assert (Mq' : forall q, In q qs <-> P (D + lg - cut) q).
    { intros q. rewrite Mq. apply share_prefix. }
    split.
    - intros (H1 & H2). assert (Ha : all_from lg n (S cut) D X) by (apply W1, X2; auto).
      exists qs, es, rest. rewrite Bp. split; auto. split; auto. split; auto. split; [apply Ea; auto|]. apply Es; auto.
    - intros (qs' & es' & rest' & Iq' & Mq'' & Di' & Hf & Hrest). rewrite Bp in Di'.
      assert (qs' = qs) as ->.
      { apply increasing_unique; auto. intros v. rewrite Mq'', Mq'. reflexivity. }
      destruct (divided_unique _ _ _ _ _ _ _ Di' _ _ Di) as (-> & ->).
      apply Ea in Hf. split; [apply X3, W1; auto|apply Es; auto].
  Qed.
End AllTasks.

(** * Tries built from sets *)

Lemma thread_flags_ext : forall (P Q : nat -> N -> Prop) xs g d c nT, (forall b q, P b q <-> Q b q) ->
  thread_flags_set P xs g d c nT <-> thread_flags_set Q xs g d c nT.
Proof.
  assert (One : forall (P Q : nat -> N -> Prop) xs g d c nT, (forall b q, P b q <-> Q b q) ->
    thread_flags_set P xs g d c nT -> thread_flags_set Q xs g d c nT).
  { intros P Q xs g d c nT H (qs & es & rest & H1 & H2 & H3 & H4 & H5). exists qs, es, rest.
    split; auto. split; [intros q; rewrite H2; apply H|]. split; auto.
    split; [apply (flags_set_ext P Q); auto|]. eapply Forall_impl; [|exact H5]. intros q. apply (flag_set_ext P Q); auto. }
  intros P Q xs g d c nT H. split; apply One; auto. intros b q. symmetry. apply H.
Qed.

Theorem bin_par_flags_any : forall u (l : list bitem) hc s1 s2,
  (2 <= u <= 2 ^ 48)%N -> 1 <= length l <= 16 -> Forall (bitem_ok u) l ->
  (1 <= hc < 2 ^ 16)%N ->
  N.to_nat (N.log2 hc) + 2 <= digits u -> valid_scheduler s1 -> valid_scheduler s2 ->
  exists Ts, each_ok (make_bitem u) l = Ok Ts /\
    (thread_flags_set (bin_prefixes l) (map b_part l) 0 (digits u) (N.to_nat (N.log2 hc)) (N.to_nat (2 ^ N.log2 hc)) ->
       exists r, Intersect_strict_par Bin s1 s2 hc (map bin_ops Ts) false = Ok r /\
         common_where (map b_part l) (fun v => ~ Exists (run_around 4 v) (map b_part l)) r) /\
    (~ thread_flags_set (bin_prefixes l) (map b_part l) 0 (digits u) (N.to_nat (N.log2 hc)) (N.to_nat (2 ^ N.log2 hc)) ->
       Intersect_strict_par Bin s1 s2 hc (map bin_ops Ts) false = UB Indeterminate).
Proof.
  intros u l hc s1 s2 Hu Hn Hl Hhc Hdiv V1 V2.
  destruct (bin_wrong_flag u l Hu Hn Hl) as (Ts0 & r & E0 & Hint & _ & Er).
  assert (U3 : (3 <= u)%N).
  { destruct (N.eq_dec u 2) as [->|]; [change (digits 2) with 1 in Hdiv; lia|lia]. }
  destruct (height_of_spec u Hu) as (h & Hh & H1 & Hp & H2 & _).
  destruct (each_ok_spec _ _ (make_bitem u) (fun x t => exists T, T = bin_tree h (snd (fst x)) (snd x) /\
    repr lok_bin h h (bin_ops t) T /\ sel umem (h + 0) T 0 = snd x) l) as (Ts & E & HT).
  { eapply Forall_impl; [|exact Hl]. intros [[v e] s] Hx.
    destruct (bin_make_tree u h v e s Hh Hu H1 Hp H2 Hx) as (t & ? & ? & ?). exists t. split; eauto. }
  assert (Ts0 = Ts) by congruence. subst Ts0.
  apply Forall2_split in HT. destruct HT as (ts & HA & HB).
  assert (HR : Forall2 (repr lok_bin h h) (map bin_ops Ts) ts).
  { apply Forall2_map_l. eapply Forall2_impl; [|exact HA]. cbn. intros t T (x & _ & _ & ? & _). auto. }
  assert (HI : Forall2 (holds umem 0 h snd bin_run) ts l).
  { eapply Forall2_impl; [|exact HB]. cbn. intros T x (t & -> & (_ & W & _) & Es). apply bin_holds; try lia; try exact W; exact Es. }
  assert (HF : Forall2 (stands ufull umem 0 h (pred h)) ts (map b_part l)).
  { apply Forall2_map_both. eapply Forall2_impl; [|exact HB]. cbn. intros T x (t & -> & (_ & W & _) & Es).
    split; auto. split; auto. unfold b_part. cbn [fst]. unfold bin_tree in *. split; intros He; rewrite He in *.
    - apply tree_of_plain.
    - split; [|apply unit_gaps]. apply (compress_tight ufull true _ h); auto; try lia. apply tree_of_wf. }
  assert (Ln : length (map bin_ops Ts) = length l).
  { rewrite (Forall2_length HR), (Forall2_length HI). auto. }
  assert (Ed := height_digits u h ltac:(lia) Hh). rewrite <- Ed in Hdiv.
  assert (EC := strict_par_cases lok_bin umem 0 h h Bin (map bin_ops Ts) ts true HR ltac:(lia)
    (bin_end h) (bin_tot h) ltac:(lia) ltac:(lia) (bin_last h) (bin_leaf h (map bin_ops Ts)) hc Hhc
    ltac:(lia) ltac:(lia) s1 s2 V1 V2).
  assert (ET := tasks_exact ufull umem 0 h (pred h) (N.to_nat (N.log2 hc)) ltac:(lia) (2 ^ N.log2 hc)%N (map bin_ops Ts) ts snd bin_run l
    (map b_part l) ltac:(lia) (Forall2_length HR) HI HF ltac:(lia)).
  rewrite Nat.add_0_r in *. rewrite <- Ed.
  change (has_prefix snd bin_run l) with (bin_prefixes l) in ET.
  exists Ts. split; auto. destruct EC as [(EC & EB)|(EC & EB)]; rewrite EB in ET; split; try tauto.
  { intros F. apply ET in F. discriminate. }
  intros _. destruct EC as (r' & Er'). exists r'. split; auto.
  apply strict_par_agrees in Er'.
  rewrite Er in Er' by auto. injection Er' as <-. auto.
Qed.

Theorem fast_par_flags_any : forall u lw (l : list fitem) hc s1 s2,
  fast_universe u lw -> 1 <= length l <= 16 -> Forall (fitem_ok u) l ->
  (1 <= hc < 2 ^ 16)%N ->
  N.to_nat (N.log2 hc) + 1 + lw <= digits u -> valid_scheduler s1 -> valid_scheduler s2 ->
  exists Ts, each_ok (make_fitem u lw) l = Ok Ts /\
    (thread_flags_set (fast_prefixes l) (map f_part l) lw (digits u) (N.to_nat (N.log2 hc)) (N.to_nat (2 ^ N.log2 hc)) ->
       exists r, Intersect_strict_par (Fast lw) s1 s2 hc (map fast_ops Ts) false = Ok r /\
         common_where (map f_part l) (fun v => ~ Exists (run_around (2 * 2 ^ N.of_nat lw) v) (map f_part l)) r) /\
    (~ thread_flags_set (fast_prefixes l) (map f_part l) lw (digits u) (N.to_nat (N.log2 hc)) (N.to_nat (2 ^ N.log2 hc)) ->
       Intersect_strict_par (Fast lw) s1 s2 hc (map fast_ops Ts) false = UB Indeterminate).
Proof.
  intros u lw l hc s1 s2 Hul Hn Hl Hhc Hdiv V1 V2.
  destruct (fast_wrong_flag u lw l Hul Hn Hl) as (Ts0 & r & E0 & Hint & _ & Er).
  assert (U3 : (2 ^ N.of_nat lw < u)%N).
  { apply N.log2_up_lt_cancel. rewrite N.log2_up_pow2 by lia. unfold digits in Hdiv. lia. }
  destruct Hul as (Hlw & Hu).
  assert (H8 : (2 ^ N.of_nat 3 <= 2 ^ N.of_nat lw)%N).
  { apply N.pow_le_mono_r; [lia|]. cbn in Hlw. lia. }
  change (2 ^ N.of_nat 3)%N with 8%N in H8.
  destruct (height_of_spec u ltac:(lia)) as (h & Hh & H1 & Hp & H2 & Hk).
  assert (Hlh : lw <= h).
  { destruct lw as [|lw]; [lia|]. change (2 ^ N.of_nat (S lw))%N with (pow2 (S lw)) in Hu.
    rewrite pow2_S in Hu. assert (lw < h) by (apply Hk; lia). lia. }
  assert (H6 : lw <= 6) by (cbn in Hlw; lia).
  assert (Eh : h - lw + lw = h) by lia. set (d := h - lw) in *.
  destruct (each_ok_spec _ _ (make_fitem u lw) (fun x t => exists T, T = fast_tree lw d (f_enc x) (snd x) /\
    repr lok_fast d (S d) (fast_ops t) T /\ sel (wmem lw) (d + lw) T 0 = snd x /\ snd x <> []) l) as (Ts & E & HT).
  { eapply Forall_impl; [|exact Hl]. intros [[[jh je] e] s] Hx.
    destruct (fast_make_tree u h lw jh je e s Hh H6 Hlh ltac:(lia) Hp Hx) as (t & ? & ? & ?). exists t. split; auto.
    destruct Hx as (Hne & _). eauto 6. }
  assert (Ts0 = Ts) by congruence. subst Ts0.
  apply Forall2_split in HT. destruct HT as (ts & HA & HB).
  assert (HR : Forall2 (repr lok_fast d (S d)) (map fast_ops Ts) ts).
  { apply Forall2_map_l. eapply Forall2_impl; [|exact HA]. cbn. intros t T (x & _ & _ & ? & _). auto. }
  assert (HI : Forall2 (holds (wmem lw) lw d snd fast_run) ts l).
  { eapply Forall2_impl; [|exact HB]. cbn. intros T x (t & -> & (_ & W & _) & Es & Hne). apply fast_holds; [exact Hne|exact W|exact Es]. }
  assert (HF : Forall2 (stands (xfull lw) (wmem lw) lw d d) ts (map f_part l)).
  { apply Forall2_map_both. eapply Forall2_impl; [|exact HB]. cbn. intros T x (t & -> & (_ & W & _) & Es & Hne).
    split; auto. split; auto. unfold f_part. cbn [fst]. unfold fast_tree in *. split; intros He; rewrite He in *.
    - apply tree_of_plain.
    - split; [|apply words_gaps]. apply (compress_tight (xfull lw) false _ d); auto; [|discriminate]. apply tree_of_wf. }
  assert (Ln : length (map fast_ops Ts) = length l).
  { rewrite (Forall2_length HR), (Forall2_length HI). auto. }
  assert (Ed := height_digits u h ltac:(lia) Hh). rewrite <- Ed in Hdiv.
  assert (EC := strict_par_cases lok_fast (wmem lw) lw d (S d) (Fast lw) (map fast_ops Ts) ts false HR ltac:(lia)
    (fast_end lw d) (fast_tot lw d) ltac:(lia) ltac:(lia) (fast_last d) (fast_leaf lw d H6 (map fast_ops Ts)) hc Hhc
    ltac:(lia) ltac:(lia) s1 s2 V1 V2).
  assert (ET := tasks_exact (xfull lw) (wmem lw) lw d d (N.to_nat (N.log2 hc)) ltac:(lia) (2 ^ N.log2 hc)%N (map fast_ops Ts) ts snd fast_run l
    (map f_part l) ltac:(lia) (Forall2_length HR) HI HF ltac:(lia)).
  rewrite Eh in ET. rewrite <- Ed.
  change (has_prefix snd fast_run l) with (fast_prefixes l) in ET.
  exists Ts. split; auto. destruct EC as [(EC & EB)|(EC & EB)]; rewrite EB in ET; split; try tauto.
  { intros F. apply ET in F. discriminate. }
  intros _. destruct EC as (r' & Er'). exists r'. split; auto.
  apply strict_par_agrees in Er'.
  rewrite Er in Er' by auto. injection Er' as <-. auto.
Qed.

Theorem bin_par_flags : forall u (l : list bitem) hc s1 s2,
  (2 <= u <= 2 ^ 48)%N -> 1 <= length l <= 16 -> Forall (bitem_ok u) l ->
  Forall (fun x : bitem => snd (fst x) = false) l -> (1 <= hc < 2 ^ 16)%N ->
  N.to_nat (N.log2 hc) + 2 <= digits u -> valid_scheduler s1 -> valid_scheduler s2 ->
  exists Ts, each_ok (make_bitem u) l = Ok Ts /\
    (thread_flags_set (common_prefix (map snd l)) (map b_part l) 0 (digits u) (N.to_nat (N.log2 hc)) (N.to_nat (2 ^ N.log2 hc)) ->
       exists r, Intersect_strict_par Bin s1 s2 hc (map bin_ops Ts) false = Ok r /\ is_intersection (map snd l) r) /\
    (~ thread_flags_set (common_prefix (map snd l)) (map b_part l) 0 (digits u) (N.to_nat (N.log2 hc)) (N.to_nat (2 ^ N.log2 hc)) ->
       Intersect_strict_par Bin s1 s2 hc (map bin_ops Ts) false = UB Indeterminate).
Proof.
  intros u l hc s1 s2 Hu Hn Hl Hr Hhc Hdiv V1 V2.
  destruct (bin_par_flags_any u l hc s1 s2 Hu Hn Hl Hhc Hdiv V1 V2) as (Ts & E & Q).
  rewrite (thread_flags_ext _ _ _ _ _ _ _ (bin_prefixes_plain l Hr)) in Q. exists Ts. split; auto. destruct Q as (Q1 & Q2). split; auto.
  intros F. destruct (Q1 F) as (r & Er & Hc). exists r. split; auto. rewrite <- map_parts_b.
  eapply common_plain; [|exact Hc]. rewrite Forall_map. exact Hr.
Qed.

Theorem fast_par_flags : forall u lw (l : list fitem) hc s1 s2,
  fast_universe u lw -> 1 <= length l <= 16 -> Forall (fitem_ok u) l ->
  Forall (fun x => f_enc x = false) l -> (1 <= hc < 2 ^ 16)%N ->
  N.to_nat (N.log2 hc) + 1 + lw <= digits u -> valid_scheduler s1 -> valid_scheduler s2 ->
  exists Ts, each_ok (make_fitem u lw) l = Ok Ts /\
    (thread_flags_set (common_prefix (map snd l)) (map f_part l) lw (digits u) (N.to_nat (N.log2 hc)) (N.to_nat (2 ^ N.log2 hc)) ->
       exists r, Intersect_strict_par (Fast lw) s1 s2 hc (map fast_ops Ts) false = Ok r /\ is_intersection (map snd l) r) /\
    (~ thread_flags_set (common_prefix (map snd l)) (map f_part l) lw (digits u) (N.to_nat (N.log2 hc)) (N.to_nat (2 ^ N.log2 hc)) ->
       Intersect_strict_par (Fast lw) s1 s2 hc (map fast_ops Ts) false = UB Indeterminate).
Proof.
  intros u lw l hc s1 s2 Hul Hn Hl Hr Hhc Hdiv V1 V2.
  destruct (fast_par_flags_any u lw l hc s1 s2 Hul Hn Hl Hhc Hdiv V1 V2) as (Ts & E & Q).
  rewrite (thread_flags_ext _ _ _ _ _ _ _ (fast_prefixes_plain l Hr)) in Q. exists Ts. split; auto. destruct Q as (Q1 & Q2). split; auto.
  intros F. destruct (Q1 F) as (r & Er & Hc). exists r. split; auto. rewrite <- map_parts_f.
  eapply common_plain; [|exact Hc]. rewrite Forall_map. exact Hr.
Qed.
