(** The work of an intersection against the size of a proof of its result. *)

From Verif Require Import Base FlatTrie LevelTrie FastTrie Tries ParallelFor Intersection Facts Spec SpecTries SpecMeasures
  SpecCalls SpecSpace SpecAdaptive Calls CallsThms CallsMain SpaceThms.

Lemma pow_nz : forall b, (2 ^ N.of_nat b <> 0)%N.
Proof. intros. apply N.pow_nonzero. discriminate. Qed.

(** * Counting calls *)

Definition level_cands (cand : nat -> list N) (D m : nat) : list (nat * N) :=
  map (fun q => (m, q * 2 ^ N.of_nat (D - m))%N)
    (nodup N.eq_dec (filter (fun q => N.ltb q (2 ^ N.of_nat m)) (cand (D - m)))).

Lemma level_cands_length : forall cand D m,
  length (level_cands cand D m) <= Nat.min (2 ^ m) (length (cand (D - m))).
Proof.
  intros cand D m. unfold level_cands. rewrite map_length. apply Nat.min_glb.
  - rewrite <- (seq_length (2 ^ m) 0), <- (map_length N.of_nat).
    apply NoDup_incl_length; [apply NoDup_nodup|]. intros q Q. apply nodup_In in Q. apply filter_In in Q.
    destruct Q as (_ & Q). apply N.ltb_lt in Q. apply in_map_iff. exists (N.to_nat q). split; [apply N2Nat.id|].
    apply in_seq. assert (E : 2 ^ m = N.to_nat (2 ^ N.of_nat m)%N) by (rewrite N2Nat.inj_pow, Nat2N.id; reflexivity). lia.
  - apply NoDup_incl_length; [apply NoDup_nodup|]. intros q Q. apply nodup_In in Q. apply filter_In in Q. apply Q.
Qed.

Lemma calls_counted : forall (c : list (nat * N)) (cand : nat -> list N) D n,
  NoDup c ->
  (forall m p, In (m, p) c -> m < n /\ exists q, p = (q * 2 ^ N.of_nat (D - m))%N /\ (q < 2 ^ N.of_nat m)%N /\ In q (cand (D - m))) ->
  length c <= list_sum (map (fun m => Nat.min (2 ^ m) (length (cand (D - m)))) (seq 0 n)).
Proof.
  intros c cand D n ND H.
  assert (I : incl c (flat_map (level_cands cand D) (seq 0 n))).
  { intros [m p] MP. destruct (H m p MP) as (Hm & q & -> & Hq & Hc). apply in_flat_map. exists m.
    split; [apply in_seq; lia|]. unfold level_cands. apply in_map_iff. exists q. split; auto.
    apply nodup_In, filter_In. split; auto. apply N.ltb_lt. auto. }
  apply NoDup_incl_length in I; auto. etransitivity; [exact I|]. rewrite flat_map_concat_map, length_concat, map_map.
  apply list_sum_le. intros m _. apply level_cands_length.
Qed.

(** * Where calls are made *)

Lemma between : forall a y x e, (a < y -> y <= x -> x <= e -> a <= y <= e)%N.
Proof. lia. Qed.

Section Certificate.
  Variable sets : list (list N).
  Variable C : list (N * N).
  Hypothesis Hne : sets <> [].

  (** The largest of some members, one of each set, in block [q]. *)
  Lemma last_member : forall b q, common_prefix sets b q ->
    exists x, Exists (fun s => In x s) sets /\ (x / 2 ^ N.of_nat b = q)%N /\
      Forall (fun s => exists y, In y s /\ (y / 2 ^ N.of_nat b = q)%N /\ (y <= x)%N) sets.
  Proof.
    intros b q H. clear C. induction sets as [|s l IH]; [congruence|]. apply Forall_cons_iff in H.
    destruct H as ((y & Hy & Ey) & H). destruct l as [|s' l].
    - exists y. split; [left; auto|]. split; [auto|]. constructor; [|constructor]. exists y. split; auto. split; auto. lia.
    - destruct (IH ltac:(discriminate) H) as (x & E1 & E2 & E3).
      destruct (N.le_gt_cases x y) as [L|L].
      + exists y. split; [left; auto|]. split; auto. constructor.
        * exists y. split; auto. split; auto. lia.
        * eapply Forall_impl; [|exact E3]. cbn. intros t (z & Z1 & Z2 & Z3). exists z. split; auto. split; auto. lia.
      + exists x. split; [right; auto|]. split; auto. constructor; auto.
        exists y. split; auto. split; auto. lia.
  Qed.

  Lemma block_bound : forall K D z x, K < D -> (z / 2 ^ N.of_nat K = x / 2 ^ N.of_nat K)%N ->
  (x < 2 ^ N.of_nat D)%N -> (z < 2 ^ N.of_nat D)%N.
Proof.
  intros K D z x H E X. assert (Z : (2 ^ N.of_nat K <> 0)%N) by (apply N.pow_nonzero; discriminate).
  assert (E2 : (2 ^ N.of_nat D = 2 ^ N.of_nat K * 2 ^ N.of_nat (D - K))%N).
  { rewrite <- N.pow_add_r, <- Nat2N.inj_add. f_equal. f_equal. lia. }
  rewrite E2 in *. apply N.nle_gt. intros G.
  apply N.div_le_lower_bound in G; auto. apply N.div_lt_upper_bound in X; auto.
  rewrite E in G. apply (N.lt_irrefl (x / 2 ^ N.of_nat K)). eapply N.lt_le_trans; eauto.
Qed.

Lemma before_block : forall a x b, (a <= x)%N -> (a / 2 ^ N.of_nat b <> x / 2 ^ N.of_nat b)%N ->
    forall y, (y / 2 ^ N.of_nat b = x / 2 ^ N.of_nat b)%N -> (a < y)%N.
  Proof.
    intros a x b L N y E. assert (Z := pow_nz b).
    assert (a / 2 ^ N.of_nat b <= x / 2 ^ N.of_nat b)%N by (apply N.div_le_mono; auto).
    apply N.lt_nge. intros G. assert (y / 2 ^ N.of_nat b <= a / 2 ^ N.of_nat b)%N by (apply N.div_le_mono; auto). lia.
  Qed.

  (** A common prefix is the prefix of the left end of an interval. *)
  Theorem prefix_left_end : forall u b q, certificate sets u C -> Forall (below u) sets -> common_prefix sets b q ->
    exists I, In I C /\ (fst I / 2 ^ N.of_nat b = q)%N.
  Proof.
    intros u b q (Cov & Cer) Hb Hq. destruct (last_member b q Hq) as (x & Ex & Eq & Ey).
    assert (Hx : (x < u)%N).
    { apply Exists_exists in Ex. destruct Ex as (s & Is & Ix). rewrite Forall_forall in Hb. specialize (Hb s Is).
      unfold below in Hb. rewrite Forall_forall in Hb. auto. }
    destruct (Cov x Hx) as (a & e & Iae & L1 & L2).
    exists (a, e). split; auto. cbn [fst].
    destruct (N.eq_dec (a / 2 ^ N.of_nat b) q) as [|NE]; auto. exfalso.
    assert (Hlt := before_block a x b L1 ltac:(congruence)).
    rewrite Forall_forall in Cer. destruct (Cer (a, e) Iae) as [Av|(Es & _)]; cbn [fst snd] in *.
    - apply Exists_exists in Av. destruct Av as (s & Is & Av). rewrite Forall_forall in Ey.
      destruct (Ey s Is) as (y & Y1 & Y2 & Y3). apply (Av y); auto. cbn [fst snd].
      apply (between a y x e); auto. apply Hlt. congruence.
    - assert (a < x)%N by (apply Hlt; auto). lia.
  Qed.

  (** With intervals contained in all sets: a common prefix in a block that is not contained in
      all sets. *)
  Theorem prefix_left_end_runs : forall D b q K, run_certificate sets (2 ^ N.of_nat D) C ->
    Forall (fun s => forall x, In x s -> (x < 2 ^ N.of_nat D)%N) sets -> common_prefix sets b q -> b <= K ->
    (D <= K \/ ~ Forall (fun s => block_full s K (q * 2 ^ N.of_nat b)) sets) ->
    exists I, In I C /\ (fst I / 2 ^ N.of_nat K = q * 2 ^ N.of_nat b / 2 ^ N.of_nat K)%N.
  Proof.
    intros D b q K (Cov & Cer) Hb Hq HK NF. destruct (last_member b q Hq) as (x & Ex & Eq & Ey).
    set (p := (q * 2 ^ N.of_nat b)%N) in *.
    assert (Up : forall y, (y / 2 ^ N.of_nat b = q -> y / 2 ^ N.of_nat K = p / 2 ^ N.of_nat K)%N).
    { intros y E. unfold p. replace K with (b + (K - b)) by lia. rewrite Nat2N.inj_add, N.pow_add_r.
      rewrite <- !N.div_div by apply pow_nz. rewrite N.div_mul by apply pow_nz. congruence. }
    assert (Hx : (x < 2 ^ N.of_nat D)%N).
    { apply Exists_exists in Ex. destruct Ex as (s & Is & Ix). rewrite Forall_forall in Hb. apply (Hb s Is); auto. }
    destruct (Cov x Hx) as (a & e & Iae & L1 & L2).
    destruct (N.eq_dec (a / 2 ^ N.of_nat K) (p / 2 ^ N.of_nat K)) as [E|NE]; [exists (a, e); auto|].
    rewrite <- (Up x Eq) in NE.
    assert (Hlt := before_block a x K L1 NE).
    rewrite Forall_forall in Cer. destruct (Cer (a, e) Iae) as [Av|Fu]; cbn [fst snd] in *.
    { exfalso. apply Exists_exists in Av. destruct Av as (s & Is & Av). rewrite Forall_forall in Ey.
      destruct (Ey s Is) as (y & Y1 & Y2 & Y3). apply (Av y); auto. cbn [fst snd].
      apply (between a y x e); auto. apply Hlt. rewrite (Up y Y2), (Up x Eq). auto. }
    destruct NF as [HD|NF].
    { exfalso. assert (Hs : forall z, (z < 2 ^ N.of_nat D -> z / 2 ^ N.of_nat K = 0)%N).
      { intros z Hz. apply N.div_small. eapply N.lt_le_trans; [exact Hz|]. apply N.pow_le_mono_r; lia. }
      apply NE. rewrite !Hs; auto. eapply N.le_lt_trans; eauto. }
    destruct (existsb (fun I => N.eqb (fst I / 2 ^ N.of_nat K) (p / 2 ^ N.of_nat K)) C) eqn:EX.
    { apply existsb_exists in EX. destruct EX as (I & I1 & I2). apply N.eqb_eq in I2. eauto. }
    exfalso. apply NF. apply Forall_forall. intros s Is z Ez.
    destruct (N.le_gt_cases z e) as [Lz|Lz].
    - rewrite Forall_forall in Fu. apply (Fu s Is). split; auto. apply N.lt_le_incl, Hlt. rewrite Ez, (Up x Eq). auto.
    - (* the next interval *)
      assert (Hz : (z < 2 ^ N.of_nat D)%N \/ D <= K).
      { destruct (Nat.le_gt_cases D K) as [|HDK]; auto. left.
        assert (Hp : (z / 2 ^ N.of_nat K = x / 2 ^ N.of_nat K)%N) by (rewrite Ez, (Up x Eq); auto).
        apply (block_bound K D z x); auto. }
      destruct Hz as [Hz|HDK].
      2:{ exfalso. apply NE. assert (Hs : forall z, (z < 2 ^ N.of_nat D -> z / 2 ^ N.of_nat K = 0)%N).
          { intros z' Hz. apply N.div_small. eapply N.lt_le_trans; [exact Hz|]. apply N.pow_le_mono_r; lia. }
          rewrite !Hs; auto. eapply N.le_lt_trans; eauto. }
      destruct (Cov z Hz) as (a1 & e1 & I1 & M1 & M2).
      assert (NE1 : (a1 / 2 ^ N.of_nat K <> z / 2 ^ N.of_nat K)%N).
      { intros E. rewrite Ez in E. assert (existsb (fun I => N.eqb (fst I / 2 ^ N.of_nat K) (p / 2 ^ N.of_nat K)) C = true).
        { apply existsb_exists. exists (a1, e1). split; auto. apply N.eqb_eq. auto. }
        congruence. }
      assert (Hlt1 := before_block a1 z K M1 NE1).
      destruct (Cer (a1, e1) I1) as [Av|Fu1]; cbn [fst snd] in *.
      + exfalso. apply Exists_exists in Av. destruct Av as (s' & Is' & Av). rewrite Forall_forall in Ey.
        destruct (Ey s' Is') as (y & Y1 & Y2 & Y3). apply (Av y); auto. cbn [fst snd].
        apply (between a1 y z e1); auto; [apply Hlt1; rewrite Ez; auto|].
        apply N.lt_le_incl. eapply N.le_lt_trans; [exact Y3|]. eapply N.le_lt_trans; eauto.
      + rewrite Forall_forall in Fu1. apply (Fu1 s Is). auto.
  Qed.
End Certificate.

Lemma prefix_small : forall sets D b q, sets <> [] ->
  Forall (fun s => forall x, In x s -> (x < 2 ^ N.of_nat D)%N) sets -> b <= D -> common_prefix sets b q ->
  (q < 2 ^ N.of_nat (D - b))%N.
Proof.
  intros sets D b q Hne H Hb Hq. destruct sets as [|s l]; [congruence|]. apply Forall_inv in H, Hq.
  destruct Hq as (y & Hy & ->). apply N.div_lt_upper_bound; [apply pow_nz|]. rewrite <- N.pow_add_r, <- Nat2N.inj_add.
  replace (b + (D - b)) with D by lia. auto.
Qed.

Definition left_cands (C : list (N * N)) (b K : nat) : list N :=
  flat_map (fun I => map (fun i => (fst I / 2 ^ N.of_nat K * 2 ^ N.of_nat (K - b) + N.of_nat i)%N) (seq 0 (2 ^ (K - b)))) C.

Lemma left_cands_length : forall C b K, length (left_cands C b K) <= 2 ^ (K - b) * length C.
Proof. intros. apply flat_map_size. intros I _. rewrite map_length, seq_length. auto. Qed.

Lemma left_cands_in : forall C b K I q, b <= K -> In I C -> (fst I / 2 ^ N.of_nat K = q * 2 ^ N.of_nat b / 2 ^ N.of_nat K)%N ->
  In q (left_cands C b K).
Proof.
  intros C b K I q BK HI E. apply in_flat_map. exists I. split; auto.
  assert (H : (fst I / 2 ^ N.of_nat K = q / 2 ^ N.of_nat (K - b))%N).
  { rewrite E. replace K with (b + (K - b)) at 1 by lia. rewrite Nat2N.inj_add, N.pow_add_r.
    rewrite <- !N.div_div by apply pow_nz. rewrite N.div_mul by apply pow_nz. reflexivity. }
  set (w := (2 ^ N.of_nat (K - b))%N) in *. assert (W : w <> 0%N) by apply pow_nz.
  apply in_map_iff. exists (N.to_nat (q mod w)). split.
  - rewrite N2Nat.id, H. rewrite (N.div_mod q w) at 3 by auto. lia.
  - apply in_seq. split; [lia|]. assert (M := N.mod_lt q w W).
    assert (Q : 2 ^ (K - b) = N.to_nat w) by (unfold w; rewrite N2Nat.inj_pow, Nat2N.id; reflexivity). lia.
Qed.

(** * Tries built from sets *)

Lemma bitems_below : forall u (l : list bitem), Forall (bitem_ok u) l -> Forall (below u) (map snd l).
Proof.
  intros u l H. rewrite Forall_map. eapply Forall_impl; [|exact H]. intros [[v e] s] (PO & _).
  exact (plain_ok_below _ _ _ PO).
Qed.

Lemma fitems_below : forall u (l : list fitem), Forall (fitem_ok u) l -> Forall (below u) (map snd l).
Proof. intros u l H. rewrite Forall_map. eapply Forall_impl; [|exact H]. intros x K. apply K. Qed.

Lemma below_small : forall u sets, (1 <= u)%N -> Forall (below u) sets ->
  Forall (fun s => forall x, In x s -> (x < 2 ^ N.of_nat (digits u))%N) sets.
Proof. intros u sets U H. eapply Forall_impl; [|exact H]. intros s B. apply digits_small_members; auto. Qed.

Theorem bin_adaptive : forall u (l : list bitem) (runs : bool) C s1 s2 hc,
  (2 <= u <= 2 ^ 48)%N -> 1 <= length l <= 16 -> Forall (bitem_ok u) l ->
  Forall (fun x : bitem => snd (fst x) = false) l -> (1 <= hc)%N -> certificate (map snd l) u C ->
  exists Ts r c, each_ok (make_bitem u) l = Ok Ts /\
    Intersect_calls Bin hc (map bin_ops Ts) runs = Ok (r, c) /\
    Intersect Bin s1 s2 hc (map bin_ops Ts) runs false = Ok r /\ is_intersection (map snd l) r /\
    length c <= capped (length C) (digits u + 1).
Proof.
  intros u l runs C s1 s2 hc U N0 OK ENC HC Cer.
  destruct (bin_calls_plain u l runs s1 s2 hc) as (Ts & r & c & E1 & E2 & E3 & E4 & ND & Hc); auto.
  exists Ts, r, c. do 4 (split; [assumption|]).
  assert (Hne : map snd l <> []) by (destruct l; [cbn in N0; lia|discriminate]).
  assert (Hb := bitems_below u l OK). assert (Hs := below_small u _ ltac:(lia) Hb).
  etransitivity; [apply (calls_counted c (fun b => map (fun I => (fst I / 2 ^ N.of_nat b)%N) C) (digits u) (digits u + 1) ND)|].
  - intros m p MP. apply Hc in MP. destruct MP as (b & q & (Hm & ->) & CP).
    split; [lia|]. replace (digits u - m) with b by lia. exists q. split; auto. split.
    + replace m with (digits u - b) by lia. apply (prefix_small (map snd l)); auto. lia.
    + destruct (prefix_left_end (map snd l) C Hne u b q Cer Hb CP) as (I & I1 & <-).
      apply (in_map (fun I => (fst I / 2 ^ N.of_nat b)%N)). auto.
  - unfold capped. apply list_sum_le. intros m _. rewrite map_length. lia.
Qed.

Theorem fast_adaptive : forall u lw (l : list fitem) (runs : bool) C s1 s2 hc,
  fast_universe u lw -> 1 <= length l <= 16 -> Forall (fitem_ok u) l ->
  Forall (fun x => f_enc x = false) l -> (1 <= hc)%N -> certificate (map snd l) u C ->
  exists Ts r c, each_ok (make_fitem u lw) l = Ok Ts /\
    Intersect_calls (Fast lw) hc (map fast_ops Ts) runs = Ok (r, c) /\
    Intersect (Fast lw) s1 s2 hc (map fast_ops Ts) runs false = Ok r /\ is_intersection (map snd l) r /\
    length c <= capped (length C) (digits u - lw + 1).
Proof.
  intros u lw l runs C s1 s2 hc U N0 OK ENC HC Cer.
  destruct (fast_calls_plain u lw l runs s1 s2 hc) as (Ts & r & c & E1 & E2 & E3 & E4 & ND & Hc); auto.
  exists Ts, r, c. do 4 (split; [assumption|]).
  assert (Hne : map snd l <> []) by (destruct l; [cbn in N0; lia|discriminate]).
  assert (Hb := fitems_below u l OK). assert (Hs := below_small u _ ltac:(destruct U; lia) Hb).
  etransitivity; [apply (calls_counted c (fun b => map (fun I => (fst I / 2 ^ N.of_nat b)%N) C) (digits u) (digits u - lw + 1) ND)|].
  - intros m p MP. apply Hc in MP. destruct MP as (b & q & (Hm & ->) & BL & CP).
    split; [lia|]. replace (digits u - m) with b by lia. exists q. split; auto. split.
    + replace m with (digits u - b) by lia. apply (prefix_small (map snd l)); auto. lia.
    + destruct (prefix_left_end (map snd l) C Hne u b q Cer Hb CP) as (I & I1 & <-).
      apply (in_map (fun I => (fst I / 2 ^ N.of_nat b)%N)). auto.
  - unfold capped. apply list_sum_le. intros m _. rewrite map_length. lia.
Qed.

Theorem bin_adaptive_runs : forall u (l : list bitem) C s1 s2 hc,
  (2 <= u <= 2 ^ 48)%N -> 1 <= length l <= 16 -> Forall (bitem_ok u) l ->
  Forall (fun x : bitem => snd (fst x) = true) l -> (1 <= hc)%N ->
  run_certificate (map snd l) (2 ^ N.of_nat (digits u)) C ->
  exists Ts r c, each_ok (make_bitem u) l = Ok Ts /\
    Intersect_calls Bin hc (map bin_ops Ts) true = Ok (r, c) /\
    Intersect Bin s1 s2 hc (map bin_ops Ts) true false = Ok r /\ is_intersection (map snd l) r /\
    length c <= capped (2 * length C) (digits u) + 4 * length C.
Proof.
  intros u l C s1 s2 hc U N0 OK ENC HC Cer.
  destruct (bin_calls u l true s1 s2 hc) as (Ts & r & c & E1 & E2 & E3 & E4 & ND & Hc & _); auto; [discriminate|].
  exists Ts, r, c. do 4 (split; [assumption|]).
  assert (Hne : map snd l <> []) by (destruct l; [cbn in N0; lia|discriminate]).
  assert (Hb := bitems_below u l OK). assert (Hs := below_small u _ ltac:(lia) Hb).
  etransitivity; [apply (calls_counted c (fun b => left_cands C b (Nat.max 2 (S b))) (digits u) (digits u + 1) ND)|].
  - intros m p MP. apply Hc in MP. destruct MP as (b & q & (Hm & ->) & CP & D).
    split; [lia|]. replace (digits u - m) with b by lia. exists q. split; auto. split.
    + replace m with (digits u - b) by lia. apply (prefix_small (map snd l)); auto. lia.
    + destruct (prefix_left_end_runs (map snd l) C Hne (digits u) b q (Nat.max 2 (S b)) Cer Hs CP ltac:(lia)) as (I & I1 & I2).
      { destruct D as [->|D]; [left; lia|right]. intros BF. apply D. rewrite Forall_map in BF. rewrite Forall_forall in *.
        intros x X. split; [apply ENC, X|apply BF, X]. }
      apply (left_cands_in C b _ I); auto. lia.
  - unfold capped. rewrite seq_app, map_app, list_sum_app. cbn [seq map Nat.add]. apply Nat.add_le_mono.
    + apply list_sum_le. intros m Hm. apply in_seq in Hm. apply Nat.min_le_compat_l.
      etransitivity; [apply left_cands_length|]. replace (Nat.max 2 (S (digits u - m)) - (digits u - m)) with 1 by lia. reflexivity.
    + unfold list_sum. cbn [fold_right]. rewrite Nat.add_0_r, Nat.sub_diag. etransitivity; [apply Nat.le_min_r|].
      etransitivity; [apply left_cands_length|]. cbn. lia.
Qed.

Theorem fast_adaptive_runs : forall u lw (l : list fitem) C s1 s2 hc,
  fast_universe u lw -> 1 <= length l <= 16 -> Forall (fitem_ok u) l ->
  Forall (fun x => f_enc x = true) l -> (1 <= hc)%N ->
  run_certificate (map snd l) (2 ^ N.of_nat (digits u)) C ->
  exists Ts r c, each_ok (make_fitem u lw) l = Ok Ts /\
    Intersect_calls (Fast lw) hc (map fast_ops Ts) true = Ok (r, c) /\
    Intersect (Fast lw) s1 s2 hc (map fast_ops Ts) true false = Ok r /\ is_intersection (map snd l) r /\
    length c <= capped (2 * length C) (digits u - lw + 1).
Proof.
  intros u lw l C s1 s2 hc U N0 OK ENC HC Cer.
  destruct (fast_calls u lw l true s1 s2 hc) as (Ts & r & c & E1 & E2 & E3 & E4 & ND & Hc & _); auto; [discriminate|].
  exists Ts, r, c. do 4 (split; [assumption|]).
  assert (Hne : map snd l <> []) by (destruct l; [cbn in N0; lia|discriminate]).
  assert (Hb := fitems_below u l OK). assert (Hs := below_small u _ ltac:(destruct U; lia) Hb).
  etransitivity; [apply (calls_counted c (fun b => left_cands C b (S b)) (digits u) (digits u - lw + 1) ND)|].
  - intros m p MP. apply Hc in MP. destruct MP as (b & q & (Hm & ->) & BL & CP & D).
    split; [lia|]. replace (digits u - m) with b by lia. exists q. split; auto. split.
    + replace m with (digits u - b) by lia. apply (prefix_small (map snd l)); auto. lia.
    + destruct (prefix_left_end_runs (map snd l) C Hne (digits u) b q (S b) Cer Hs CP ltac:(lia)) as (I & I1 & I2).
      { destruct D as [->|D]; [left; lia|right]. intros BF. apply D. rewrite Forall_map in BF. rewrite Forall_forall in *.
        intros x X. split; [apply ENC, X|apply BF, X]. }
      apply (left_cands_in C b _ I); auto.
  - unfold capped. apply list_sum_le. intros m _. apply Nat.min_le_compat_l.
    etransitivity; [apply left_cands_length|]. replace (S (digits u - m) - (digits u - m)) with 1 by lia. reflexivity.
Qed.

(** The members of the result are all in a certificate. *)
Theorem certificate_holds : forall sets u C r x, sets <> [] -> Forall (below u) sets -> certificate sets u C ->
  is_intersection sets r -> In x r -> In (x, x) C.
Proof.
  intros sets u C r x Hne Hb (Cov & Cer) (Inc & HI) X. apply HI in X. rewrite Forall_forall in *.
  assert (Hx : (x < u)%N).
  { destruct sets as [|s l]; [congruence|]. specialize (Hb s (or_introl eq_refl)). unfold below in Hb.
    rewrite Forall_forall in Hb. apply Hb, X. left. auto. }
  destruct (Cov x Hx) as (a & e & Iae & L1 & L2). destruct (Cer (a, e) Iae) as [Av|(Es & _)]; cbn [fst snd] in *.
  - exfalso. apply Exists_exists in Av. destruct Av as (s & Is & Av). apply (Av x); auto.
  - assert (a = x) by (clear - L1 L2 Es; lia). subst a. subst e. auto.
Qed.
