(** Intersect on concrete tries, over the flat, level-wise and fast variants. *)

From Coq Require Import Permutation.
From Verif Require Import Base FlatTrie LevelTrie FastTrie ParallelFor Intersection Tries Facts Tree
  Groups Reps Layout BuildFlat BuildLevel BuildFast WordBits Spec RoundTrip RoundTripFacts Compress
  WriteOnes CompressFast RunsFacts RunsThms SpecTries
  InterSpec InterSeq ParFacts InterPar InterPlan InterTop InterInst InterTight.

(** What a parallel call guarantees for sets [sets]: [full] says when nothing can
    be lost. *)
Definition par_outcome (sets : list (list N)) (full : Prop) (hc : N)
           (out : result (list N * Intersection.mem)) : Prop :=
  exists r m, out = Ok (r, m) /\ NoDup r /\ (forall x, In x r -> Forall (fun s => In x s) sets) /\
    (full -> is_intersection sets r) /\
    NoDup (m_freed m) /\ (forall a, In a (m_freed m) -> a < m_next m) /\
    ((hc <= 3)%N -> Permutation (m_freed m) (seq 0 (m_next m))).

Lemma hc_threads : forall hc, (1 <= hc)%N -> (hc < 2 ^ 16)%N ->
  N.to_nat (N.log2 hc) <= 15 /\ ((2 ^ N.log2 hc <= 2)%N <-> (hc <= 3)%N) /\ (2 ^ N.log2 hc <= hc)%N.
Proof.
  intros hc H1 H2. assert (L := N.log2_spec hc ltac:(lia)).
  assert (N.log2 hc < 16)%N by (apply N.log2_lt_pow2; lia). split; [lia|]. split; [|lia].
  split; intros H0.
  - assert (N.log2 hc <= 1)%N.
    { destruct (N.le_gt_cases (N.log2 hc) 1); auto.
      assert (2 ^ 2 <= 2 ^ N.log2 hc)%N by (apply N.pow_le_mono_r; lia). lia. }
    assert (2 ^ N.succ (N.log2 hc) <= 2 ^ 2)%N by (apply N.pow_le_mono_r; lia). lia.
  - assert (Hc : (hc = 1 \/ hc = 2 \/ hc = 3)%N) by lia. destruct Hc as [-> | [-> | ->]]; cbn; lia.
Qed.

Lemma perm_outcome : forall sets I r (Z : list N), is_intersection sets I -> Permutation (r ++ Z) I ->
  NoDup r /\ (forall x, In x r -> Forall (fun s => In x s) sets).
Proof.
  intros sets I r Z (Hs & Hi) Hp. split.
  - apply (NoDup_app_remove_r _ r Z). apply (Permutation_NoDup (l := I)); [symmetry; auto|].
    clear - Hs. unfold increasing in Hs. induction Hs as [|a l Hs IH Hf]; constructor; auto.
    intros Hin. rewrite Forall_forall in Hf. specialize (Hf a Hin). lia.
  - intros x Hx. apply Hi. apply (Permutation_in _ Hp). apply in_or_app. auto.
Qed.

(** * Tries of bits *)

Section BinMain.
  Variable h : nat.
  Hypothesis Hh : 1 <= h <= 48.
  Variable Ts : list trie_ops.
  Variable ts : list (tree unit).
  Variable sets : list (list N).
  Hypothesis Hn : 1 <= length Ts <= 16.
  Hypothesis HR : Forall2 (repr lok_bin h h) Ts ts.
  Hypothesis HS : Forall2 (fun t s => sel umem (h + 0) t 0 = s) ts sets.
  Variable runs : bool.
  Hypothesis Hpl : runs = false -> Forall plain ts.
  Variable hc : N.
  Hypothesis Hhc : (1 <= hc)%N.

  Theorem bin_seq : forall s1 s2 parallel, par_branch h hc parallel = false ->
    exists r, Intersect_mem Bin s1 s2 hc Ts runs parallel = Ok (r, mkMem 0 []) /\ is_intersection sets r.
  Proof.
    intros s1 s2 parallel Hb.
    rewrite (seq_intersect Bin Ts h umem 0 h (leafok lok_bin Ts) true ltac:(lia) ltac:(lia)
               (bin_end h) (bin_tot h) ltac:(lia) ltac:(lia) (bin_last h) (bin_leaf h Ts) runs
               (forest_of ts)); auto.
    - eexists; split; [reflexivity|]. eapply (inst_inter lok_bin); eauto. lia.
    - eapply inst_okf; eauto. lia.
    - eapply inst_somes; eauto.
    - intros Hr. eapply inst_plains; eauto.
    - eapply inst_heights; eauto.
  Qed.

  Hypothesis Hhc16 : (hc < 2 ^ 16)%N.
  Hypothesis Hsmall : 2 <= h \/ (hc <= 3)%N.

  Lemma bin_cut : forall parallel, par_branch h hc parallel = true ->
    N.to_nat (N.log2 hc) <= h /\ (S (N.to_nat (N.log2 hc)) <= h \/ (2 ^ N.log2 hc <= 2)%N).
  Proof.
    clear - Hh Hhc Hhc16 Hsmall.
    intros parallel Hb. destruct (hc_threads hc Hhc Hhc16) as (H15 & H3 & _).
    unfold par_branch in Hb. apply andb_prop in Hb. destruct Hb as (_ & Hb).
    apply orb_prop in Hb. destruct (Nat.eq_dec h 1) as [E|E].
    - assert (hc <= 3)%N by (destruct Hsmall; auto; lia). split; [|right; apply H3; auto].
      assert (N.log2 hc <= N.log2 3)%N by (apply N.log2_le_mono; auto). change (N.log2 3) with 1%N in *. lia.
    - destruct Hb as [Hb|Hb]; [apply Nat.ltb_lt in Hb; lia|]. apply Nat.leb_le in Hb. lia.
  Qed.

  Theorem bin_par : forall s1 s2 parallel, valid_scheduler s1 -> valid_scheduler s2 ->
    par_branch h hc parallel = true ->
    par_outcome sets (Forall (noruns (S (N.to_nat (N.log2 hc)))) ts) hc
      (Intersect_mem Bin s1 s2 hc Ts runs parallel).
  Proof.
    intros s1 s2 parallel V1 V2 Hb.
    destruct (hc_threads hc Hhc Hhc16) as (H15 & H3 & _).
    destruct (bin_cut parallel Hb) as (C1 & C2).
    assert (HI : is_intersection sets (inter umem 0 (length Ts) h (forest_of ts) 0))
      by (eapply (inst_inter lok_bin); eauto; lia).
    destruct (par_intersect Bin Ts h umem 0 h (leafok lok_bin Ts) true ltac:(lia) ltac:(lia)
               (bin_end h) (bin_tot h) ltac:(lia) ltac:(lia) (bin_last h) (bin_leaf h Ts) runs
               (forest_of ts)) with (hc := hc) (s1 := s1) (s2 := s2) (parallel := parallel)
      as (r & m & E & (Z & P & _) & F & M1 & M2 & M3 & _); auto.
    - eapply inst_okf; eauto. lia.
    - eapply inst_somes; eauto.
    - intros Hr. eapply inst_plains; eauto.
    - eapply inst_heights; eauto.
    - exists r, m. destruct (perm_outcome _ _ _ _ HI P) as (O1 & O2).
      split; auto. split; auto. split; auto. split.
      { intros HN. rewrite F; auto. eapply inst_noruns; eauto. }
      split; auto. split; auto. intros H0. apply M3. apply H3; auto.
  Qed.

  Theorem bin_threads : par_branch h hc true = true ->
    match par_plan Bin Ts (length Ts) h runs (N.to_nat (N.log2 hc)) (2 ^ N.log2 hc)%N with
    | Ok (Done _ _) => True
    | Ok (Work used levels st) =>
        1 <= used /\ (N.of_nat used <= 2 ^ N.log2 hc)%N /\ used = length (pa_roots st) /\
        used = length levels /\ used = length (pa_ints st)
    | _ => False
    end.
  Proof.
    intros Hb. destruct (hc_threads hc Hhc Hhc16) as (H15 & H3 & _).
    destruct (bin_cut true Hb) as (C1 & C2).
    apply (par_threads Bin Ts h umem 0 h (leafok lok_bin Ts) true ltac:(lia) ltac:(lia)
               (bin_tot h) ltac:(lia) (bin_last h) runs (forest_of ts)); auto.
    - eapply inst_okf; eauto. lia.
    - eapply inst_somes; eauto.
    - intros Hr. eapply inst_plains; eauto.
  Qed.
End BinMain.

(** * Tries of words *)

Section FastMain.
  Variables lw d : nat.
  Hypothesis Hlw : lw <= 6.
  Hypothesis Hd : d + lw <= 48.
  Variable Ts : list trie_ops.
  Variable ts : list (tree N).
  Variable sets : list (list N).
  Hypothesis Hn : 1 <= length Ts <= 16.
  Hypothesis HR : Forall2 (repr lok_fast d (S d)) Ts ts.
  Hypothesis HS : Forall2 (fun t s => sel (wmem lw) (d + lw) t 0 = s) ts sets.
  Variable runs : bool.
  Hypothesis Hpl : runs = false -> Forall plain ts.
  Variable hc : N.
  Hypothesis Hhc : (1 <= hc)%N.

  Theorem fast_seq : forall s1 s2 parallel, par_branch (S d) hc parallel = false ->
    exists r, Intersect_mem (Fast lw) s1 s2 hc Ts runs parallel = Ok (r, mkMem 0 []) /\ is_intersection sets r.
  Proof.
    intros s1 s2 parallel Hb.
    rewrite (seq_intersect (Fast lw) Ts (S d) (wmem lw) lw d (leafok lok_fast Ts) false ltac:(lia) ltac:(lia)
               (fast_end lw d) (fast_tot lw d) ltac:(lia) ltac:(lia) (fast_last d) (fast_leaf lw d Hlw Ts) runs
               (forest_of ts)); auto.
    - eexists; split; [reflexivity|]. eapply (inst_inter lok_fast); eauto. lia.
    - eapply inst_okf; eauto. lia.
    - eapply inst_somes; eauto.
    - intros Hr. eapply inst_plains; eauto.
    - eapply inst_heights; eauto.
  Qed.

  Hypothesis Hhc16 : (hc < 2 ^ 16)%N.
  Hypothesis Hsmall : 1 <= d \/ (hc = 1)%N.

  Lemma fast_cut : forall parallel, par_branch (S d) hc parallel = true ->
    N.to_nat (N.log2 hc) <= d /\ (S (N.to_nat (N.log2 hc)) <= d \/ (2 ^ N.log2 hc <= 2)%N).
  Proof.
    clear - Hsmall.
    intros parallel Hb. unfold par_branch in Hb. apply andb_prop in Hb. destruct Hb as (_ & Hb).
    apply orb_prop in Hb. destruct (Nat.eq_dec d 0) as [E|E].
    - assert (hc = 1)%N by (destruct Hsmall; auto; lia). subst hc. cbn. lia.
    - destruct Hb as [Hb|Hb]; [apply Nat.ltb_lt in Hb; lia|]. apply Nat.leb_le in Hb.
      split; [lia|]. destruct (Nat.eq_dec d 1) as [->|].
      + right. replace (N.log2 hc) with 0%N by lia. cbn. lia.
      + left. lia.
  Qed.

  Theorem fast_par : forall s1 s2 parallel, valid_scheduler s1 -> valid_scheduler s2 ->
    par_branch (S d) hc parallel = true ->
    par_outcome sets (Forall (noruns (S (N.to_nat (N.log2 hc)))) ts) hc
      (Intersect_mem (Fast lw) s1 s2 hc Ts runs parallel).
  Proof.
    intros s1 s2 parallel V1 V2 Hb.
    destruct (hc_threads hc Hhc Hhc16) as (H15 & H3 & _).
    destruct (fast_cut parallel Hb) as (C1 & C2).
    assert (HI : is_intersection sets (inter (wmem lw) lw (length Ts) d (forest_of ts) 0))
      by (eapply (inst_inter lok_fast); eauto; lia).
    destruct (par_intersect (Fast lw) Ts (S d) (wmem lw) lw d (leafok lok_fast Ts) false ltac:(lia) ltac:(lia)
               (fast_end lw d) (fast_tot lw d) ltac:(lia) ltac:(lia) (fast_last d) (fast_leaf lw d Hlw Ts) runs
               (forest_of ts)) with (hc := hc) (s1 := s1) (s2 := s2) (parallel := parallel)
      as (r & m & E & (Z & P & _) & F & M1 & M2 & M3 & _); auto.
    - eapply inst_okf; eauto. lia.
    - eapply inst_somes; eauto.
    - intros Hr. eapply inst_plains; eauto.
    - eapply inst_heights; eauto.
    - exists r, m. destruct (perm_outcome _ _ _ _ HI P) as (O1 & O2).
      split; auto. split; auto. split; auto. split.
      { intros HN. rewrite F; auto. eapply inst_noruns; eauto. }
      split; auto. split; auto. intros H0. apply M3. apply H3; auto.
  Qed.

  Theorem fast_threads : par_branch (S d) hc true = true ->
    match par_plan (Fast lw) Ts (length Ts) (S d) runs (N.to_nat (N.log2 hc)) (2 ^ N.log2 hc)%N with
    | Ok (Done _ _) => True
    | Ok (Work used levels st) =>
        1 <= used /\ (N.of_nat used <= 2 ^ N.log2 hc)%N /\ used = length (pa_roots st) /\
        used = length levels /\ used = length (pa_ints st)
    | _ => False
    end.
  Proof.
    intros Hb. destruct (hc_threads hc Hhc Hhc16) as (H15 & H3 & _).
    destruct (fast_cut true Hb) as (C1 & C2).
    apply (par_threads (Fast lw) Ts (S d) (wmem lw) lw d (leafok lok_fast Ts) false ltac:(lia) ltac:(lia)
               (fast_tot lw d) ltac:(lia) (fast_last d) runs (forest_of ts)); auto.
    - eapply inst_okf; eauto. lia.
    - eapply inst_somes; eauto.
    - intros Hr. eapply inst_plains; eauto.
  Qed.
End FastMain.

(** * The tries built from sets *)

Lemma bin_make_rep : forall u h v enc s, height_of u = Ok h -> (2 <= u <= 2 ^ 48)%N ->
  1 <= h <= 48 -> (u <= pow2 h)%N -> ((3 <= u)%N -> 2 <= h) -> stored_ok u v enc s ->
  exists t T, bin_make u v enc s = Ok t /\ repr lok_bin h h (bin_ops t) T /\
    sel umem (h + 0) T 0 = s /\ (enc = false -> plain T) /\ (enc = true -> tight ufull (pred h) T).
Proof.
  intros u h v enc s Hh Hu H1 Hp H2 ((Hs & Hb & Hv) & Hne & Hm).
  assert (E := sel_is_set u h s Hp Hne Hs Hb). set (T := tree_of unit_leaf 0 h s) in *.
  assert (Hpl : plain T) by apply tree_of_plain.
  rewrite Nat.add_0_r. unfold bin_make, bin_build. destruct v as [il|il].
  - destruct Hv as (H3 & _ & Hl). specialize (H2 H3).
    destruct (flat_build_layout s u h Hh) as (t & -> & L & Hre & He); auto; try lia.
    cbn [bind]. destruct enc.
    + assert (Em : nodelev (ucompress T) = h).
      { apply (deep_iff T h 0); auto using aligned_0; try lia. { apply L. }
        apply (mixed_block_iff u h s); auto. }
      destruct (flat_layout_runs t h T L Hpl Em) as (t' & Ht' & L' & _).
      cbn [bin_encodeRuns]. rewrite Ht'. cbn [bind]. exists (BFlat t'), (ucompress T).
      split; auto. split; [|split; [rewrite ucompress_sel; auto|split; [discriminate|]]].
      { assert (R := flat_reps _ _ _ L'). destruct L' as (_ & W & EH & _).
        split; [exact EH|]. split; auto. }
      intros _. apply (compress_tight ufull true T h); try lia. apply tree_of_wf.
    + exists (BFlat t), T. split; auto. split; [|split; [auto|split; [auto|discriminate]]].
      assert (R := flat_reps _ _ _ L). destruct L as (_ & W & EH & _).
      split; [exact EH|]. split; auto.
  - destruct (level_build_layout il s u h Hh) as (t & -> & L & Hre & He & _); auto; try lia.
    { apply below_short with (u := u); auto. lia. }
    cbn [bind]. destruct enc.
    + destruct (level_encodeRuns_spec _ _ _ L Hpl) as (t' & Ht' & L' & _).
      cbn [bin_encodeRuns]. rewrite Ht'. cbn [bind]. exists (BLevel t'), (ucompress T).
      split; auto. split; [|split; [rewrite ucompress_sel; auto|split; [discriminate|]]].
      { assert (R := level_reps _ _ _ L'). split; [exact (level_height _ _ _ L')|].
        split; auto. apply L'. }
      intros _. apply (compress_tight ufull true T h); try lia. apply tree_of_wf.
    + exists (BLevel t), T. split; auto. split; [|split; [auto|split; [auto|discriminate]]].
      assert (R := level_reps _ _ _ L). split; [exact (level_height _ _ _ L)|].
      split; auto. apply L.
Qed.

Lemma fast_make_rep : forall u hu lw jh je enc s, height_of u = Ok hu ->
  lw <= 6 -> lw <= hu -> hu <= 48 -> (u <= pow2 hu)%N -> fast_ok u s ->
  exists t T, fast_make u lw jh je enc s = Ok t /\ repr lok_fast (hu - lw) (S (hu - lw)) (fast_ops t) T /\
    sel (wmem lw) (hu - lw + lw) T 0 = s /\ (enc = false -> plain T) /\
    (enc = true -> tight (xfull lw) (hu - lw) T /\ gaps (xfull lw) (wmem lw) lw T).
Proof.
  intros u hu lw jh je enc s Hh Hlw Hlh H48 Hp (Hne & Hs & Hb & Hl).
  destruct (fast_build_layout lw jh je s u hu Hh) as (t & Ht & L & E1 & E2 & Hre & Hje); auto; try lia.
  set (T := tree_of (word_of lw) lw (hu - lw) s) in *.
  assert (E : sel (wmem lw) (hu - lw + lw) T 0 = s).
  { assert (D := distinct_fast_set lw (hu - lw) s Hne (increasing_nondecreasing _ Hs)).
    unfold distinct_fast in D.
    apply (is_set_of_unique s); [|apply is_set_of_self; auto]. apply D.
    replace (hu - lw + lw) with hu by lia. eapply below_within; eauto. }
  assert (Hpl : plain T) by apply tree_of_plain.
  unfold fast_make. rewrite Ht. cbn [bind]. destruct enc.
  - assert (Hx : x_height t = S (hu - lw)) by apply L.
    destruct (fast_encodeRuns_spec t T ltac:(rewrite Hx; exact L) Hpl) as (t' & Ht' & L' & _).
    rewrite Ht'. rewrite Hx, E1 in L'. exists t', (xcompress lw T).
    split; auto. split; [|split; [rewrite xcompress_sel; auto|split; [discriminate|]]].
    { assert (R := fast_reps _ _ _ L'). destruct L' as (_ & W & EH & _). rewrite Nat.sub_succ, Nat.sub_0_r in W.
      split; [exact EH|]. split; auto. }
    intros _. split; [|apply words_gaps]. apply (compress_tight (xfull lw) false T (hu - lw)); auto; [|discriminate].
    apply tree_of_wf.
  - exists t, T. split; auto. split; [|split; [auto|split; [auto|discriminate]]].
    assert (R := fast_reps _ _ _ L). destruct L as (_ & W & EH & _). rewrite Nat.sub_succ, Nat.sub_0_r in W.
    split; [exact EH|]. split; auto.
Qed.

Lemma each_ok_spec : forall X Y (f : X -> result Y) (P : X -> Y -> Prop) l,
  Forall (fun x => exists y, f x = Ok y /\ P x y) l ->
  exists ys, each_ok f l = Ok ys /\ Forall2 P l ys.
Proof.
  induction l as [|x l IH]; intros H; cbn [each_ok].
  - exists []. auto.
  - inversion H as [|? ? (y & E & Hy) Hl]; subst. rewrite E. cbn [bind].
    destruct (IH Hl) as (ys & -> & Hys). cbn [bind]. exists (y :: ys). auto.
Qed.

(** * Empty sets in level-wise tries *)

Section Empty.
  Variable h : nat.
  Hypothesis Hh : 1 <= h.
  Variable Ts : list trie_ops.
  Notation n := (length Ts).
  Hypothesis Hn : 1 <= n <= 16.
  Hypothesis Hheights : forall o, In o Ts -> t_height o = h.
  Variable code : nat -> N.
  Hypothesis Hcode : forall i, i < n -> t_getNode (T Ts i) 0 0 = Ok (code i).
  Hypothesis Hzero : exists i, i < n /\ code i = 0%N.

  Lemma init_root : forall i, i < n -> aget init_roots i = Ok 0.
  Proof. intros i Hi. apply aget_Some. apply nth_error_repeat. lia. Qed.

  Lemma empty_AND : forall roots p r fuel, (forall i, i < n -> aget roots i = Ok 0) ->
    AND Bin Ts n h (S fuel) 0 roots p r = Ok (r, Some false).
  Proof.
    intros roots p r fuel Hroots. cbn [AND at_end].
    replace (0 =? h) with false by (symmetry; apply Nat.eqb_neq; lia).
    loop_inv (fun j (acc : N) => (exists i, i < j /\ code i = 0%N) -> acc = 0%N) LI.
    destruct LI as (acc & -> & E).
    - intros (i & Hi & _). lia.
    - intros j acc Hj Hacc. cbn [Nat.add] in *. rewrite vget_T by lia. cbn [bind].
      rewrite Hroots by lia. cbn [bind]. rewrite Hcode by lia. cbn [bind].
      eexists; split; [reflexivity|]. intros (i & Hi & Ei).
      destruct (Nat.eq_dec i j) as [->|]; [rewrite Ei; apply N.land_0_r|].
      rewrite Hacc; [reflexivity|]. exists i. split; auto. lia.
    - rewrite E by auto. reflexivity.
  Qed.

  Lemma copy_init : exists dst, copy_arr n init_roots = Ok dst /\ forall i, i < n -> aget dst i = Ok 0.
  Proof.
    unfold copy_arr.
    loop_inv (fun j (dst : roots_arr) => length dst = 16 /\ forall i, i < j -> aget dst i = Ok 0) LI.
    destruct LI as (dst & E & L & G).
    - split; auto. intros; lia.
    - intros j dst Hj (L & G). cbn [Nat.add] in *. rewrite init_root by lia. cbn [bind].
      destruct (aset_spec _ dst j 0 ltac:(lia)) as (dst' & -> & L' & G1 & G2).
      eexists; split; [reflexivity|]. split; [lia|]. intros i Hi.
      destruct (Nat.eq_dec i j) as [->|]; auto. rewrite G2 by auto. apply G. lia.
    - exists dst. split; auto.
  Qed.

  Lemma empty_heights : exists T0, vget Ts 0 = Ok T0 /\ t_height T0 = h /\ same_height h Ts = true.
  Proof.
    destruct Ts as [|T0 Tl] eqn:E; [cbn in Hn; lia|]. exists T0. split; auto. split.
    - apply Hheights. left; auto.
    - unfold same_height. apply forallb_forall. intros T HT. apply Nat.eqb_eq. auto.
  Qed.

  Variable hc : N.
  Hypothesis Hhc : (1 <= hc)%N.

  Lemma pa_scan_empty : pa_scan Ts n false 0 init_roots init_active = Ok (arr16, 0%N, 0%N).
  Proof.
    unfold pa_scan.
    loop_inv (fun j (st : active_arr * N * N) => exists acc, st = (arr16, acc, 0%N) /\
      ((exists i, i < j /\ code i = 0%N) -> acc = 0%N)) LI.
    destruct LI as (st & E0 & (acc & Est & E)).
    - exists 3%N. split; auto. intros (i & Hi & _). lia.
    - intros j st Hj (acc & -> & Hacc). cbn [Nat.add] in *. rewrite vget_T by lia. cbn [bind].
      rewrite init_root by lia. cbn [bind]. rewrite Hcode by lia. cbn [bind].
      eexists; split; [reflexivity|]. eexists; split; [reflexivity|]. intros (i & Hi & Ei).
      destruct (Nat.eq_dec i j) as [->|]; [rewrite Ei; apply N.land_0_r|].
      rewrite Hacc; [reflexivity|]. exists i. split; auto. lia.
    - refine (eq_trans E0 _). rewrite Est, E by auto. reflexivity.
  Qed.

  Theorem empty_intersect : forall s1 s2 (parallel : bool), (parallel = true -> valid_scheduler s1) ->
    exists m, Intersect_mem Bin s1 s2 hc Ts false parallel = Ok ([], m) /\
      Permutation (m_freed m) (seq 0 (m_next m)).
  Proof.
    intros s1 s2 parallel V1. unfold Intersect_mem. destruct empty_heights as (T0 & -> & E1 & E2).
    cbn [bind]. rewrite E1, E2. cbn [negb].
    replace (N.eqb hc 0) with false by (symmetry; apply N.eqb_neq; lia).
    destruct (parallel && _)%bool eqn:Hpar.
    - rewrite n_tries_16 by apply Hn. unfold par_plan. destruct (N.to_nat (N.log2 hc)) as [|cut] eqn:Ec.
      + assert (El : N.log2 hc = 0%N) by lia. rewrite El. change (2 ^ 0)%N with 1%N.
        cbn [partialAND Nat.eqb]. unfold pa_emit.
        destruct copy_init as (rts & Erts & Hrts).
        rewrite Erts. cbn [bind pa_roots pa_r pa_ints pa_active pa_mem m_next m_freed app length Nat.eqb].
        change (N.to_nat (wrap16 (N.of_nat 1))) with 1. change (wrap16 (N.of_nat 1)) with 1%N.
        cbn [fill_loop]. change (N.ltb 1 (wrap32 (1 + 2 ^ 32 - 1))) with false. cbn [andb].
        change (N.to_nat 1) with 1.
        cbn [bind pa_roots pa_r pa_ints pa_active pa_mem m_next m_freed app length Nat.eqb repeat Nat.sub
             for_loop vget nth_error].
        change (N.to_nat 1) with 1.
        unfold par_results. cbn [for_loop bind get_task vget nth_error pa_roots pa_ints snd run_task tk_level
          tk_roots tk_active tk_prefix].
        rewrite empty_AND by auto.
        cbn [bind app].
        rewrite pf_traces_diag by auto. cbn [bind seq map nth app].
        assert (Es : s1 [[]; []] = []).
        { apply andb_prop in Hpar. destruct Hpar as (Hpar & _).
          specialize (V1 Hpar [[]; []]). apply interleave_perm in V1. cbn in V1.
          apply Permutation_nil in V1. auto. }
        rewrite Es. cbn [exec_push bind repeat].
        cbn [par_concat for_loop vget nth_error bind length Nat.add app N.of_nat].
        change (N.ltb 450000 0) with false. cbn [bind].
        cbn [free_loop for_loop vget nth_error bind pa_roots pa_mem free1 existsb m_freed m_next fst app].
        eexists; split; [reflexivity|]. cbn [m_freed m_next seq]. auto.
      + cbn [partialAND Nat.eqb]. rewrite pa_scan_empty. cbn [bind negb andb N.eqb pa_roots length Nat.eqb].
        eexists; split; [reflexivity|]. cbn. auto.
    - rewrite empty_AND by apply init_root. cbn [bind]. eexists; split; [reflexivity|]. cbn. auto.
  Qed.
End Empty.
