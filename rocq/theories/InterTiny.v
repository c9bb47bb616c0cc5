(** Parallel intersections over universes whose tries have a single level: two values
    for tries of bits, one word for tries of words. *)

From Verif Require Import Base FlatTrie LevelTrie FastTrie ParallelFor Intersection Tries Facts Tree
  Groups Reps Layout BuildFlat BuildLevel BuildFast WordBits Spec RoundTrip RoundTripFacts Compress
  WriteOnes CompressFast RunsFacts RunsThms SpecTries InterSpec InterSeq ParFacts InterPar InterPlan
  InterTop InterInst InterTight InterMain InterThms CallsMain.

Definition has (x : N) (s : list N) : bool := existsb (N.eqb x) s.

Lemma has_In : forall x s, has x s = true <-> In x s.
Proof.
  intros x s. unfold has. rewrite existsb_exists. split.
  - intros (y & Hy & E). apply N.eqb_eq in E. subst. auto.
  - intros H. exists x. split; auto. apply N.eqb_refl.
Qed.

(** What a trie of two values answers. *)
Definition tiny (o : trie_ops) (s : list N) : Prop :=
  t_height o = 1 /\ t_getNode o 0 0 = Ok (node_code (has 0 s) (has 1 s)) /\
  t_getLeft o 0 0 = Ok 0 /\ t_getRight o 0 0 = Ok 0 /\ forall id, t_getNode o id 1 = UB OutOfBounds.

Lemma two_sets : forall s, increasing s -> below 2 s -> s = [] \/ s = [0%N] \/ s = [1%N] \/ s = [0%N; 1%N].
Proof.
  intros s Hi Hb. unfold increasing, below in *. destruct s as [|a s]; [auto|right].
  inversion Hi as [|? ? Hs Ha]; subst. inversion Hb as [|? ? Ba Bs]; subst.
  destruct s as [|b s].
  - assert (a = 0 \/ a = 1)%N as [-> | ->] by lia; auto.
  - inversion Ha as [|? ? Hab Ha']; subst. inversion Bs as [|? ? Bb Bs']; subst.
    destruct s as [|c s].
    + right. right. assert (a = 0 /\ b = 1)%N as (-> & ->) by lia. auto.
    + exfalso. inversion Hs as [|? ? Hs' Hb']; subst. inversion Hb'; subst. inversion Bs'; subst. lia.
Qed.

Lemma tiny_make : forall v enc s, plain_ok 2 v s ->
  exists t, bin_make 2 v enc s = Ok t /\ tiny (bin_ops t) s.
Proof.
  intros v enc s (Hi & Hb & Hv). destruct v as [il|il]; [lia|].
  destruct (two_sets s Hi Hb) as [-> | [-> | [-> | ->]]]; destruct il, enc;
    (eexists; split; [vm_compute; reflexivity|]; repeat split; vm_compute; reflexivity).
Qed.

Section Tiny.
  Variable Ts : list trie_ops.
  Variable sets : list (list N).
  Hypothesis HT : Forall2 tiny Ts sets.
  Hypothesis Hn : 1 <= length Ts <= 16.
  Variable runs : bool.
  Hypothesis Hr : runs = true -> Forall (fun s => s <> []) sets.
  Hypothesis Hb : Forall (below 2) sets.
  Notation n := (length Ts).

  Lemma tiny_nth : forall j, j < n -> exists o s, vget Ts j = Ok o /\ nth_error sets j = Some s /\ tiny o s.
  Proof.
    clear - HT. intros j Hj. destruct (nth_error Ts j) as [o|] eqn:E.
    - destruct (Forall2_nth _ _ _ _ _ _ _ HT E) as (s & Es & H). exists o, s. split; auto.
      unfold vget. rewrite E. auto.
    - apply nth_error_None in E. lia.
  Qed.

  Lemma root_cells : forall j, j < n -> aget init_roots j = Ok 0.
  Proof. clear - Hn. intros j Hj. unfold aget, init_roots, vget. rewrite nth_error_repeat by lia. auto. Qed.

  Lemma active_cells : forall j, j < n -> aget init_active j = Ok true.
  Proof. clear - Hn. intros j Hj. unfold aget, init_active, vget. rewrite nth_error_repeat by lia. auto. Qed.

  Definition upto (x : N) (j : nat) : bool := forallb (has x) (firstn j sets).

  Lemma upto_S : forall x j s, nth_error sets j = Some s -> upto x (S j) = (upto x j && has x s)%bool.
  Proof.
    intros x j s E. unfold upto. clear - E. revert sets E. induction j; intros [|a l] E; cbn in *; try discriminate.
    - injection E as ->. rewrite andb_true_r. auto.
    - rewrite <- andb_assoc. f_equal. rewrite <- (IHj l E). auto.
  Qed.

  Lemma tiny_scan : exists temp o, pa_scan Ts n runs 0 init_roots init_active
      = Ok (temp, node_code (upto 0 n) (upto 1 n), o) /\
    (runs = true -> aget temp 0 = Ok true /\ N.eqb o 0 = false).
  Proof.
    unfold pa_scan. destruct runs eqn:ER.
    - loop_inv (fun j (s : active_arr * N * N) =>
        snd (fst s) = node_code (upto 0 j) (upto 1 j) /\ length (fst (fst s)) = 16 /\
        (0 < j -> aget (fst (fst s)) 0 = Ok true) /\
        (exists a b, snd s = node_code a b /\ (0 < j -> (a || b)%bool = true))) LI.
      destruct LI as (((temp & a) & o) & E & F).
      + cbn. repeat split; intros; try lia. exists false, false. split; auto. lia.
      + cbn [Nat.add]. intros j ((temp & a) & o) Hj (F1 & F2 & F3 & c & e & F4 & F5). cbn [fst snd] in *. subst a o.
        rewrite active_cells by lia. cbn [bind].
        destruct (tiny_nth j ltac:(lia)) as (T & s & -> & Es & (_ & G & _)). cbn [bind].
        rewrite root_cells by lia. cbn [bind]. rewrite G. cbn [bind]. rewrite orb_true_r.
        destruct (aset_spec _ temp j true) as (temp' & -> & Lt & Gj & Go); [lia|]. cbn [bind].
        eexists; split; [reflexivity|]. cbn [fst snd]. repeat split.
        * rewrite !(upto_S _ _ _ Es). apply land_code.
        * lia.
        * intros _. destruct (Nat.eq_dec j 0); [subst; auto|]. rewrite Go by auto. apply F3. lia.
        * exists (c || has 0 s)%bool, (e || has 1 s)%bool. split; [apply lor_code|]. intros _.
          assert (Hs : s <> []).
          { assert (Q := Hr eq_refl). rewrite Forall_forall in Q. apply Q. eapply nth_error_In; eauto. }
          assert (Bs : below 2 s).
          { rewrite Forall_forall in Hb. apply Hb. eapply nth_error_In; eauto. }
          destruct s as [|x s]; [congruence|]. unfold below in Bs. inversion Bs as [|? ? Bx _]; subst.
          assert (x = 0 \/ x = 1)%N as [-> | ->] by lia; cbn; rewrite ?orb_true_r; auto.
      + cbn [Nat.add fst snd] in F. destruct F as (-> & _ & Ft & c & e & -> & Fo).
        exists temp, (node_code c e). split; [apply E|]. intros _. split; [apply Ft; lia|].
        specialize (Fo ltac:(lia)). destruct c, e; try discriminate; reflexivity.
    - loop_inv (fun j (s : active_arr * N * N) => snd (fst s) = node_code (upto 0 j) (upto 1 j)) LI.
      destruct LI as (((temp & a) & o) & E & F).
      + reflexivity.
      + cbn [Nat.add]. intros j ((temp & a) & o) Hj F1. cbn [fst snd] in *. subst a.
        destruct (tiny_nth j ltac:(lia)) as (T & s & -> & Es & (_ & G & _)). cbn [bind].
        rewrite root_cells by lia. cbn [bind]. rewrite G. cbn [bind].
        eexists; split; [reflexivity|]. cbn [fst snd]. rewrite !(upto_S _ _ _ Es). apply land_code.
      + cbn [Nat.add fst snd] in F. subst a. exists temp, o. split; [apply E|]. discriminate.
  Qed.

  (** The second scan reads past the last level. *)
  Lemma tiny_past : forall roots active x, aget roots 0 = Ok x -> (runs = true -> aget active 0 = Ok true) ->
    pa_scan Ts n runs 1 roots active = UB OutOfBounds.
  Proof.
    intros roots active x Hx Ha. destruct (tiny_nth 0 ltac:(lia)) as (T & s & ET & _ & (_ & _ & _ & _ & P)).
    unfold pa_scan. destruct n as [|m]; [lia|]. cbn [for_loop].
    destruct runs.
    - rewrite Ha by auto. cbn [bind]. rewrite ET. cbn [bind]. rewrite Hx. cbn [bind]. rewrite P. reflexivity.
    - rewrite ET. cbn [bind]. rewrite Hx. cbn [bind]. rewrite P. reflexivity.
  Qed.

  Lemma tiny_past_and : forall fuel cut roots active x p st, 2 <= cut -> 1 <= fuel ->
    aget roots 0 = Ok x -> (runs = true -> aget active 0 = Ok true) ->
    partialAND Bin Ts n 1 runs fuel 1 cut roots active p st = UB OutOfBounds.
  Proof.
    intros fuel cut roots active x p st Hc Hf Hx Ha. destruct fuel as [|fuel]; [lia|]. cbn [partialAND].
    replace (1 =? cut) with false by (symmetry; apply Nat.eqb_neq; lia).
    rewrite (tiny_past roots active x Hx Ha). reflexivity.
  Qed.

  Lemma tiny_left : exists nodes, pa_left Ts n 0 init_roots = Ok nodes /\ aget nodes 0 = Ok 0.
  Proof.
    unfold pa_left.
    loop_inv (fun j (v : roots_arr) => length v = 16 /\ (0 < j -> aget v 0 = Ok 0)) LI.
    destruct LI as (v & E & F).
    - split; auto. lia.
    - cbn [Nat.add]. intros j v Hj (L & F).
      destruct (tiny_nth j ltac:(lia)) as (T & s & -> & Es & (_ & _ & G & _)). cbn [bind].
      rewrite root_cells by lia. cbn [bind]. rewrite G. cbn [bind].
      destruct (aset_spec _ v j 0) as (v' & -> & Lt & Gj & Go); [lia|]. exists v'. split; auto. split; [lia|].
      intros _. destruct (Nat.eq_dec j 0); [subst; auto|]. rewrite Go by auto. apply F. lia.
    - exists v. split; auto. apply F. cbn. lia.
  Qed.

  Lemma tiny_right : exists nodes, pa_right Ts n 0 init_roots = Ok nodes /\ aget nodes 0 = Ok 0.
  Proof.
    unfold pa_right.
    loop_inv (fun j (v : roots_arr) => length v = 16 /\ (0 < j -> aget v 0 = Ok 0)) LI.
    destruct LI as (v & E & F).
    - split; auto. lia.
    - cbn [Nat.add]. intros j v Hj (L & F).
      destruct (tiny_nth j ltac:(lia)) as (T & s & -> & Es & (_ & _ & _ & G & _)). cbn [bind].
      rewrite root_cells by lia. cbn [bind]. rewrite G. cbn [bind].
      destruct (aset_spec _ v j 0) as (v' & -> & Lt & Gj & Go); [lia|]. exists v'. split; auto. split; [lia|].
      intros _. destruct (Nat.eq_dec j 0); [subst; auto|]. rewrite Go by auto. apply F. lia.
    - exists v. split; auto. apply F. cbn. lia.
  Qed.

  Lemma tiny_both : exists ln rn, pa_both Ts n 0 init_roots = Ok (ln, rn) /\ aget ln 0 = Ok 0.
  Proof.
    unfold pa_both.
    loop_inv (fun j (v : roots_arr * roots_arr) => length (fst v) = 16 /\ length (snd v) = 16 /\
      (0 < j -> aget (fst v) 0 = Ok 0)) LI.
    destruct LI as ((v & w) & E & F).
    - split; auto. split; auto. lia.
    - cbn [Nat.add]. intros j (v & w) Hj (L & L' & F). cbn [fst snd] in *.
      destruct (tiny_nth j ltac:(lia)) as (T & s & -> & Es & (_ & _ & G & _)). cbn [bind].
      rewrite root_cells by lia. cbn [bind]. rewrite G. cbn [bind].
      destruct (aset_spec _ v j 0) as (v' & -> & Lt & Gj & Go); [lia|]. cbn [bind].
      destruct (aset_spec _ w j (0 + 1)) as (w' & -> & Lt' & _); [lia|]. cbn [bind].
      exists (v', w'). split; auto. cbn [fst snd]. split; [lia|]. split; [lia|].
      intros _. destruct (Nat.eq_dec j 0); [subst; auto|]. rewrite Go by auto. apply F. lia.
    - exists v, w. split; auto. apply F. cbn. lia.
  Qed.

  Lemma tiny_partial : forall cut, 2 <= cut ->
    partialAND Bin Ts n 1 runs (S cut) 0 cut init_roots init_active 0 (mkPA [] [] [] [] (mkMem 0 []))
    = if (upto 0 n || upto 1 n)%bool then UB OutOfBounds else Ok (mkPA [] [] [] [] (mkMem 0 [])).
  Proof.
    intros cut Hc. cbn [partialAND].
    replace (0 =? cut) with false by (symmetry; apply Nat.eqb_neq; lia).
    destruct tiny_scan as (temp & o & -> & Ho). cbn [bind].
    rewrite code_0, code_1, code_2, code_3.
    assert (EO : (runs && N.eqb o 0)%bool = false).
    { destruct runs; auto. destruct (Ho eq_refl) as (_ & ->). auto. }
    rewrite EO.
    assert (RP : right_prefix Bin 1 0 0 = Ok 1%N) by reflexivity.
    assert (Ht : runs = true -> aget temp 0 = Ok true) by (intros E; apply Ho; auto).
    destruct (upto 0 n), (upto 1 n); cbn [negb andb orb]; rewrite ?andb_false_r; cbn [negb andb orb].
    - rewrite RP. cbn [bind]. destruct tiny_both as (ln & rn & -> & E). cbn [bind].
      rewrite (tiny_past_and cut cut ln temp 0) by (auto; lia). reflexivity.
    - destruct tiny_left as (ln & -> & E). cbn [bind].
      apply (tiny_past_and cut cut ln temp 0); auto; lia.
    - rewrite RP. cbn [bind]. destruct tiny_right as (ln & -> & E). cbn [bind].
      apply (tiny_past_and cut cut ln temp 0); auto; lia.
    - rewrite andb_true_r. destruct runs; reflexivity.
  Qed.

  Lemma tiny_intersect : forall s1 s2 hc, (4 <= hc)%N ->
    Intersect Bin s1 s2 hc Ts runs true = if (upto 0 n || upto 1 n)%bool then UB OutOfBounds else Ok [].
  Proof.
    intros s1 s2 hc Hhc.
    destruct (same_heights Ts 1 ltac:(lia)) as (T0 & E0 & Eh & Es).
    { intros T HIn. apply In_nth_error in HIn. destruct HIn as (i & Ei).
      destruct (Forall2_nth _ _ _ _ _ _ _ HT Ei) as (s & _ & (H & _)). auto. }
    unfold Intersect, Intersect_mem. rewrite E0. cbn [bind]. rewrite Eh, Es. cbn [negb].
    replace (N.eqb hc 0) with false by (symmetry; apply N.eqb_neq; lia).
    cbn [andb orb Nat.ltb Nat.leb]. rewrite n_tries_16 by apply Hn. unfold par_plan.
    assert (C : 2 <= N.to_nat (N.log2 hc)).
    { assert (N.log2 4 <= N.log2 hc)%N by (apply N.log2_le_mono; auto). change (N.log2 4) with 2%N in *. lia. }
    rewrite (tiny_partial _ C). destruct (upto 0 n || upto 1 n)%bool; reflexivity.
  Qed.
End Tiny.

Lemma upto_all : forall sets n x, n = length sets ->
  (upto sets x n = true <-> Forall (fun s => In x s) sets).
Proof.
  intros sets n x ->. unfold upto. rewrite firstn_all, forallb_forall, Forall_forall.
  split; intros H s Hs; apply has_In; auto.
Qed.

Theorem bin_two_values : forall (l : list bitem) runs hc s1 s2,
  1 <= length l <= 16 -> Forall (fun x => plain_ok 2 (fst (fst x)) (snd x)) l ->
  (runs = true -> Forall (fun x => snd x <> []) l) -> (4 <= hc)%N ->
  exists Ts, each_ok (make_bitem 2) l = Ok Ts /\
    (is_intersection (map snd l) [] -> Intersect Bin s1 s2 hc (map bin_ops Ts) runs true = Ok []) /\
    (~ is_intersection (map snd l) [] -> Intersect Bin s1 s2 hc (map bin_ops Ts) runs true = UB OutOfBounds).
Proof.
  intros l runs hc s1 s2 Hn Hl Hr Hhc.
  destruct (each_ok_spec _ _ (make_bitem 2) (fun x t => tiny (bin_ops t) (snd x)) l) as (Ts & E & HF).
  { eapply Forall_impl; [|exact Hl]. intros [[v e] s] Hx. apply tiny_make. auto. }
  exists Ts. split; auto.
  assert (HT : Forall2 tiny (map bin_ops Ts) (map snd l)).
  { clear - HF. induction HF; cbn; auto. }
  assert (Ln : length (map bin_ops Ts) = length (map snd l)) by apply (Forall2_length HT).
  assert (Ll : length (map snd l) = length l) by apply map_length.
  rewrite (tiny_intersect (map bin_ops Ts) (map snd l) HT ltac:(lia) runs); auto.
  - assert (U := fun x => upto_all (map snd l) (length (map bin_ops Ts)) x Ln).
    split.
    + intros (_ & Hi). destruct (upto _ 0 _) eqn:E0; [exfalso; apply (Hi 0%N), U; auto|].
      destruct (upto _ 1 _) eqn:E1; [exfalso; apply (Hi 1%N), U; auto|]. reflexivity.
    + intros Hni. destruct (upto _ 0 _) eqn:E0; auto. destruct (upto _ 1 _) eqn:E1; auto.
      exfalso. apply Hni. split; [constructor|]. intros x. split; [intros []|]. intros Hx. exfalso.
      assert (Hx2 : (x < 2)%N).
      { destruct l as [|y l]; [cbn in Hn; lia|]. cbn [map] in Hx. inversion Hx as [|? ? Hx0 _]; subst.
        inversion Hl as [|? ? (_ & Hby & _) _]; subst. unfold below in Hby. rewrite Forall_forall in Hby. auto. }
      apply U in Hx. assert (x = 0 \/ x = 1)%N as [-> | ->] by lia; congruence.
  - intros H. specialize (Hr H). rewrite Forall_map. auto.
  - rewrite Forall_map. eapply Forall_impl; [|exact Hl]. intros x (_ & Hx & _). auto.
Qed.

(** * One word *)

Lemma one_word_make : forall u lw jh je enc s, fast_universe u lw -> (u <= 2 ^ N.of_nat lw)%N -> fast_ok u s ->
  exists t, fast_make u lw jh je enc s = Ok t /\ t_height (fast_ops t) = 1 /\
    forall id lvl, t_getNode (fast_ops t) id lvl = UB OutOfBounds.
Proof.
  intros u lw jh je enc s (Hlw & Hu2) Hu (Hne & Hs & Hb & Hl).
  assert (H8 : (2 ^ N.of_nat 3 <= 2 ^ N.of_nat lw)%N).
  { apply N.pow_le_mono_r; [lia|]. cbn in Hlw. lia. }
  change (2 ^ N.of_nat 3)%N with 8%N in H8.
  destruct (height_of_spec u ltac:(lia)) as (h & Hh & H1 & Hp & H2 & Hk).
  assert (Hlh : lw <= h).
  { destruct lw as [|lw]; [lia|]. change (2 ^ N.of_nat (S lw))%N with (pow2 (S lw)) in Hu2.
    rewrite pow2_S in Hu2. assert (lw < h) by (apply Hk; lia). lia. }
  assert (Hhl : h <= lw).
  { assert (E := height_rounded u h ltac:(lia) Hh). unfold rounded, pow2 in E.
    assert (Q : (N.log2_up u <= N.of_nat lw)%N) by (apply N.log2_up_le_pow2; [lia|auto]).
    apply N.pow_inj_r in E; lia. }
  assert (h = lw) by lia. subst h.
  destruct (fast_build_layout lw jh je s u lw Hh) as (t & Ht & L & E1 & E2 & Hre & Hje); auto; try lia.
  rewrite Nat.sub_diag in L.
  assert (Main : forall t' T', fast_layout t' 1 T' -> t_height (fast_ops t') = 1 /\
    forall id lvl, t_getNode (fast_ops t') id lvl = UB OutOfBounds).
  { intros t' T' (_ & _ & EH & EB & _). split; [exact EH|]. intros id lvl. cbn [fast_ops t_getNode].
    unfold fast_getNode. rewrite EB. cbn [Nat.sub prebits]. unfold vget. destruct (2 * id); reflexivity. }
  unfold fast_make. rewrite Ht. cbn [bind]. destruct enc.
  - assert (Hx : x_height t = 1) by apply L.
    destruct (fast_encodeRuns_spec t _ ltac:(rewrite Hx; exact L) (tree_of_plain _ _ _ _)) as (t' & Ht' & L' & _).
    rewrite Hx in L'. exists t'. split; auto. eapply Main; eauto.
  - exists t. split; auto. eapply Main; eauto.
Qed.

Theorem fast_one_word : forall (u : N) (lw : nat) (l : list fitem) runs hc s1 s2,
  fast_universe u lw -> (u <= 2 ^ N.of_nat lw)%N -> 1 <= length l <= 16 -> Forall (fitem_ok u) l -> (2 <= hc)%N ->
  exists Ts, each_ok (make_fitem u lw) l = Ok Ts /\
    Intersect (Fast lw) s1 s2 hc (map fast_ops Ts) runs true = UB OutOfBounds.
Proof.
  intros u lw l runs hc s1 s2 Hu Hw Hn Hl Hhc.
  destruct (each_ok_spec _ _ (make_fitem u lw) (fun x t => t_height (fast_ops t) = 1 /\
    forall id lvl, t_getNode (fast_ops t) id lvl = UB OutOfBounds) l) as (Ts & E & HF).
  { eapply Forall_impl; [|exact Hl]. intros [[[jh je] e] s] Hx.
    apply (one_word_make u lw jh je e s Hu Hw Hx). }
  exists Ts. split; auto.
  assert (Ln := Forall2_length HF).
  assert (HA : forall o, In o (map fast_ops Ts) -> t_height o = 1 /\ forall id lvl, t_getNode o id lvl = UB OutOfBounds).
  { intros o Ho. apply in_map_iff in Ho. destruct Ho as (t & <- & Ht). clear - HF Ht.
    induction HF as [|x y l' Ts' H HF IH]; destruct Ht; subst; auto. }
  destruct Ts as [|t Ts]; [cbn in Ln; lia|]. cbn [map] in *.
  destruct (HA (fast_ops t) (or_introl eq_refl)) as (H1 & HN).
  destruct (same_heights (fast_ops t :: map fast_ops Ts) 1 ltac:(cbn; lia)) as (T0 & E0 & Eh & Es).
  { intros o Ho. apply HA; auto. }
  unfold Intersect, Intersect_mem. rewrite E0. cbn [bind]. rewrite Eh, Es. cbn [negb].
  replace (N.eqb hc 0) with false by (symmetry; apply N.eqb_neq; lia).
  cbn [andb orb Nat.ltb Nat.leb]. rewrite n_tries_16 by (cbn [length]; rewrite map_length; cbn in Ln; lia). unfold par_plan.
  assert (C : 1 <= N.to_nat (N.log2 hc)).
  { assert (N.log2 2 <= N.log2 hc)%N by (apply N.log2_le_mono; auto). change (N.log2 2) with 1%N in *. lia. }
  cbn [partialAND]. replace (0 =? N.to_nat (N.log2 hc)) with false by (symmetry; apply Nat.eqb_neq; lia).
  unfold pa_scan. cbn [length for_loop].
  change (aget init_active 0) with (Ok true). change (aget init_roots 0) with (Ok 0).
  cbn [bind vget nth_error]. rewrite HN. destruct runs; reflexivity.
Qed.
