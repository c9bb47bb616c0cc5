(** Calls of Intersect outside its limits: no trie, more than sixteen tries, no known hardware
    concurrency. *)

From Verif Require Import Base FlatTrie LevelTrie FastTrie ParallelFor Intersection Tries Facts Spec SpecTries
  InterPlan InterInst InterThms.

(** A read that is defined, or out of bounds. *)
Definition in_or_out {A} (m : result A) : Prop := (exists a, m = Ok a) \/ m = UB OutOfBounds.

Lemma vget_io : forall A (v : list A) i, in_or_out (vget v i).
Proof. intros. unfold in_or_out, vget. destruct (nth_error v i); eauto. Qed.

Lemma io_bind : forall A B (m : result A) (f : A -> result B),
  in_or_out m -> (forall a, in_or_out (f a)) -> in_or_out (bind m f).
Proof. intros A B m f [(a & E)|E] H; rewrite E; cbn; auto. right; auto. Qed.

Lemma io_ok : forall A (a : A), in_or_out (Ok a).
Proof. left; eauto. Qed.

Lemma io_out : forall A, in_or_out (A := A) (UB OutOfBounds).
Proof. right; auto. Qed.

Ltac io := repeat first [apply vget_io | apply io_ok | apply io_out | apply io_bind; [|intros]].

Lemma flat_node_io : forall t i l, in_or_out (flat_getNode t i l).
Proof.
  intros. unfold flat_getNode. destruct (S l <? f_height t); [io|].
  destruct (2 * i <? length (f_bTrie t)); io.
Qed.

Lemma level_node_io : forall t i l, in_or_out (level_getNode t i l).
Proof. intros. unfold level_getNode. io. Qed.

Lemma fast_node_io : forall t i l, in_or_out (fast_getNode t i l).
Proof. intros. unfold fast_getNode. io. Qed.

Lemma fast_word_io : forall t i, in_or_out (fast_getWord t i).
Proof. intros. unfold fast_getWord. destruct (i <? length (x_bTrie t) / 2); io. Qed.

Lemma bin_node_io : forall t i l, in_or_out (t_getNode (bin_ops t) i l).
Proof. intros [] i l; cbn; [apply flat_node_io|apply level_node_io]. Qed.

(** A loop whose step is defined or out of bounds below [m], and out of bounds at [m]. *)
Lemma loop_out : forall S (P : S -> Prop) (f : nat -> S -> result S) m k n i s, i + k = m -> k < n -> P s ->
  (forall j a, j < m -> P a -> (exists b, f j a = Ok b /\ P b) \/ f j a = UB OutOfBounds) ->
  (forall a, P a -> f m a = UB OutOfBounds) ->
  for_loop n i f s = UB OutOfBounds.
Proof.
  intros S P f m k. induction k as [|k IH]; intros n i s Hi Hn Hs H Hm.
  - destruct n as [|n]; [lia|]. cbn [for_loop]. replace i with m by lia. rewrite Hm; auto.
  - destruct n as [|n]; [lia|]. cbn [for_loop]. destruct (H i s ltac:(lia) Hs) as [(b & E & Hb)|E]; rewrite E; cbn [bind]; auto.
    apply IH; auto; lia.
Qed.

Lemma init_roots_in : forall i, i < 16 -> aget init_roots i = Ok 0.
Proof. intros i Hi. unfold aget, vget, init_roots. rewrite nth_error_repeat; auto. Qed.
Lemma init_active_in : forall i, i < 16 -> aget init_active i = Ok true.
Proof. intros i Hi. unfold aget, vget, init_active. rewrite nth_error_repeat; auto. Qed.
Lemma init_roots_out : aget init_roots 16 = UB OutOfBounds.
Proof. reflexivity. Qed.
Lemma init_active_out : aget init_active 16 = UB OutOfBounds.
Proof. reflexivity. Qed.

Lemma aset_len : forall A (v : list (option A)) i x, i < length v ->
  exists w, aset v i x = Ok w /\ length w = length v.
Proof.
  intros A v i x Hi. unfold aset, vset. replace (i <? length v) with true by (symmetry; apply Nat.ltb_lt; auto).
  eexists; split; [reflexivity|]. rewrite app_length, firstn_length. cbn [length]. rewrite skipn_length. lia.
Qed.

Section Many.
  Variable k : kind.
  Variable Ts : list trie_ops.
  Variable h : nat.
  Hypothesis Hn : 16 < length Ts.
  Hypothesis Hh : 1 <= h.
  Hypothesis Hnode : forall T, In T Ts -> in_or_out (t_getNode T 0 0).
  Hypothesis Hword : match k with Bin => True | Fast _ => forall T, In T Ts -> in_or_out (t_getWord T 0) end.

  Lemma many_get : forall i, i < length Ts -> exists T, vget Ts i = Ok T /\ In T Ts.
  Proof.
    intros i Hi. unfold vget. destruct (nth_error Ts i) as [T|] eqn:E.
    - exists T. split; auto. eapply nth_error_In; eauto.
    - apply nth_error_None in E. lia.
  Qed.

  Ltac at16 := destruct (many_get 16 Hn) as (T & ET & _); rewrite ?ET; cbn [bind]; rewrite ?init_roots_out; reflexivity.

  Lemma many_leaf : forall active prefix r, match k with Bin => False | _ => True end ->
    (forall i, i < 16 -> active i = Ok true) -> (active 16 = Ok true \/ active 16 = UB OutOfBounds) ->
    and_leaf k Ts (length Ts) active init_roots prefix r = UB OutOfBounds.
  Proof.
    intros active prefix r Hk Ha Ha16. unfold and_leaf. destruct k as [|lw]; [tauto|].
    rewrite (loop_out _ (fun _ => True) _ 16 16); auto.
    - intros j a Hj _. rewrite Ha by auto. cbn [bind].
      destruct (many_get j ltac:(lia)) as (T & E & HT). rewrite E. cbn [bind]. rewrite init_roots_in by auto. cbn [bind].
      destruct (Hword T HT) as [(w & Ew)|Ew]; rewrite Ew; cbn [bind]; eauto.
    - intros a _. destruct Ha16 as [E|E]; rewrite E; cbn [bind]; auto. at16.
  Qed.

  Lemma many_AND : forall fuel prefix r, AND k Ts (length Ts) h (S fuel) 0 init_roots prefix r = UB OutOfBounds.
  Proof.
    intros fuel prefix r. cbn [AND]. destruct (at_end k h 0) eqn:E.
    - rewrite many_leaf; auto.
      destruct k; auto. cbn in E. destruct h; [lia|discriminate].
    - rewrite (loop_out _ (fun _ => True) _ 16 16); auto.
      + intros j a Hj _. destruct (many_get j ltac:(lia)) as (T & ET & HT). rewrite ET. cbn [bind].
        rewrite init_roots_in by auto. cbn [bind]. destruct (Hnode T HT) as [(w & Ew)|Ew]; rewrite Ew; cbn [bind]; eauto.
      + intros a _. at16.
  Qed.

  Lemma many_scan : runs_scan Ts (length Ts) 0 init_roots init_active = UB OutOfBounds.
  Proof.
    unfold runs_scan. apply (loop_out _ (fun a : active_arr * N * N => length (fst (fst a)) = 16) _ 16 16); auto.
    - intros j [[tmp x] y] Hj L. cbn [fst] in L. rewrite init_active_in by auto. cbn [bind].
      destruct (many_get j ltac:(lia)) as (T & ET & HT). rewrite ET. cbn [bind]. rewrite init_roots_in by auto. cbn [bind].
      destruct (Hnode T HT) as [(w & Ew)|Ew]; rewrite Ew; cbn [bind]; auto. left.
      destruct (negb (N.eqb w 0)).
      + destruct (aset_len _ tmp j true ltac:(lia)) as (tmp' & E & L'). rewrite E. cbn [bind].
        eexists; split; [reflexivity|]. cbn. lia.
      + destruct (aset_len _ tmp j false ltac:(lia)) as (tmp' & E & L'). rewrite E. cbn [bind].
        eexists; split; [reflexivity|]. cbn. lia.
    - intros [[tmp x] y] _. rewrite init_active_out. reflexivity.
  Qed.

  Lemma many_runsAND : forall fuel prefix r,
    runsAND k Ts (length Ts) h (S fuel) 0 init_roots init_active prefix r = UB OutOfBounds.
  Proof.
    intros fuel prefix r. cbn [runsAND]. destruct (at_end k h 0) eqn:E.
    - apply many_leaf; auto using init_active_in.
      destruct k; auto. cbn in E. destruct h; [lia|discriminate].
    - rewrite many_scan. reflexivity.
  Qed.

  Lemma many_copy : copy_arr (length Ts) init_roots = UB OutOfBounds.
  Proof.
    unfold copy_arr. apply (loop_out _ (fun a : list (option nat) => length a = 16) _ 16 16); auto.
    - intros j a Hj L. rewrite init_roots_in by auto. cbn [bind]. left.
      destruct (aset_len _ a j 0 ltac:(lia)) as (a' & E & L'). exists a'. split; auto. lia.
  Qed.

  Variable runs : bool.

  Lemma many_pa_scan : pa_scan Ts (length Ts) runs 0 init_roots init_active = UB OutOfBounds.
  Proof.
    unfold pa_scan. apply (loop_out _ (fun a : active_arr * N * N => length (fst (fst a)) = 16) _ 16 16); auto.
    - intros j [[tmp x] y] Hj L. cbn [fst] in L. rewrite init_active_in by auto. cbn [bind].
      destruct (many_get j ltac:(lia)) as (T & ET & HT). rewrite ET. cbn [bind]. rewrite init_roots_in by auto. cbn [bind].
      destruct (Hnode T HT) as [(w & Ew)|Ew]; rewrite Ew; cbn [bind]; [|destruct runs; auto].
      destruct runs; left.
      + rewrite orb_true_r. destruct (aset_len _ tmp j true ltac:(lia)) as (tmp' & E & L'). rewrite E. cbn [bind].
        eexists; split; [reflexivity|]. cbn. lia.
      + eexists; split; [reflexivity|]. cbn. auto.
    - intros [[tmp x] y] _. rewrite init_active_out. destruct runs; cbn [bind]; auto. at16.
  Qed.

  Lemma many_partial : forall fuel cut p st,
    partialAND k Ts (length Ts) h runs (S fuel) 0 cut init_roots init_active p st = UB OutOfBounds.
  Proof.
    intros fuel cut p st. cbn [partialAND]. destruct (0 =? cut).
    - unfold pa_emit. rewrite many_copy. reflexivity.
    - rewrite many_pa_scan. reflexivity.
  Qed.

  Hypothesis Hheight : forall T, In T Ts -> t_height T = h.

  Theorem many_intersect : forall s1 s2 hc parallel, (1 <= hc)%N ->
    (parallel = true -> (N.of_nat (length Ts) < 2 ^ 16)%N) ->
    Intersect k s1 s2 hc Ts runs parallel = UB OutOfBounds.
  Proof.
    intros s1 s2 hc parallel Hhc Hp. unfold Intersect, Intersect_mem.
    destruct (many_get 0 ltac:(lia)) as (T0 & E0 & H0). rewrite E0. cbn [bind]. rewrite (Hheight T0 H0).
    assert (Hs : same_height h Ts = true).
    { unfold same_height. apply forallb_forall. intros T HT. apply Nat.eqb_eq. auto. }
    rewrite Hs. cbn [negb]. replace (N.eqb hc 0) with false by (symmetry; apply N.eqb_neq; lia).
    destruct (parallel && ((h <? 2) || (N.to_nat (N.log2 hc) <=? h - 2))) eqn:Eb.
    - apply andb_true_iff in Eb. rewrite n_tries_small by (apply Hp, Eb).
      unfold par_plan. rewrite many_partial. reflexivity.
    - destruct runs; [rewrite many_runsAND|rewrite many_AND]; reflexivity.
  Qed.
End Many.

(** * Tries built from sets *)

Theorem bin_many : forall (u : N) (l : list bitem), (2 <= u <= 2 ^ 48)%N -> 16 < length l -> Forall (bitem_ok u) l ->
  exists Ts, each_ok (make_bitem u) l = Ok Ts /\
    forall s1 s2 hc runs parallel, (1 <= hc)%N -> (parallel = true -> (N.of_nat (length l) < 2 ^ 16)%N) ->
      Intersect Bin s1 s2 hc (map bin_ops Ts) runs parallel = UB OutOfBounds.
Proof.
  intros u l Hu Hn Hl. destruct (bin_family u l Hu Hl) as (h & Ts & ts & Hh & _ & _ & _ & E & HR & HS & _).
  exists Ts. split; auto. intros s1 s2 hc runs parallel Hhc Hp.
  assert (L : length (map bin_ops Ts) = length l) by (rewrite (Forall2_length HR), (Forall2_length HS), map_length; auto).
  apply (many_intersect Bin (map bin_ops Ts) h); rewrite ?L; auto; try lia.
  - intros T HT. apply in_map_iff in HT. destruct HT as (t & <- & _). apply bin_node_io.
  - eapply inst_heights; eauto.
Qed.

Theorem fast_many : forall (u : N) (lw : nat) (l : list fitem), fast_universe u lw -> 16 < length l -> Forall (fitem_ok u) l ->
  exists Ts, each_ok (make_fitem u lw) l = Ok Ts /\
    forall s1 s2 hc runs parallel, (1 <= hc)%N -> (parallel = true -> (N.of_nat (length l) < 2 ^ 16)%N) ->
      Intersect (Fast lw) s1 s2 hc (map fast_ops Ts) runs parallel = UB OutOfBounds.
Proof.
  intros u lw l Hu Hn Hl. destruct (fast_family u lw l Hu Hl) as (d & Ts & ts & Hh & _ & _ & _ & _ & E & HR & HS & _).
  exists Ts. split; auto. intros s1 s2 hc runs parallel Hhc Hp.
  assert (L : length (map fast_ops Ts) = length l) by (rewrite (Forall2_length HR), (Forall2_length HS), map_length; auto).
  apply (many_intersect (Fast lw) (map fast_ops Ts) (S d)); rewrite ?L; auto; try lia.
  - intros T HT. apply in_map_iff in HT. destruct HT as (t & <- & _). apply fast_node_io.
  - intros T HT. apply in_map_iff in HT. destruct HT as (t & <- & _). apply fast_word_io.
  - eapply inst_heights; eauto.
Qed.

Theorem no_tries : forall k s1 s2 hc runs parallel, Intersect k s1 s2 hc [] runs parallel = UB OutOfBounds.
Proof. reflexivity. Qed.

Lemma no_threads : forall k s1 s2 Ts h runs parallel, Ts <> [] -> (forall T, In T Ts -> t_height T = h) ->
  Intersect k s1 s2 0 Ts runs parallel = UB BadCast.
Proof.
  intros k s1 s2 Ts h runs parallel Hne Hh. unfold Intersect, Intersect_mem.
  destruct Ts as [|T0 Ts]; [congruence|]. cbn [vget nth_error bind]. rewrite (Hh T0 (or_introl eq_refl)).
  assert (Hs : same_height h (T0 :: Ts) = true).
  { unfold same_height. apply forallb_forall. intros T HT. apply Nat.eqb_eq. auto. }
  rewrite Hs. reflexivity.
Qed.

Theorem bin_no_threads : forall (u : N) (l : list bitem), (2 <= u <= 2 ^ 48)%N -> l <> [] -> Forall (bitem_ok u) l ->
  exists Ts, each_ok (make_bitem u) l = Ok Ts /\
    forall s1 s2 runs parallel, Intersect Bin s1 s2 0 (map bin_ops Ts) runs parallel = UB BadCast.
Proof.
  intros u l Hu Hn Hl. destruct (bin_family u l Hu Hl) as (h & Ts & ts & Hh & _ & _ & _ & E & HR & HS & _).
  exists Ts. split; auto. intros. apply (no_threads _ _ _ _ h).
  - intros H0. rewrite H0 in HR. inversion HR; subst. inversion HS. destruct l; cbn in *; congruence.
  - eapply inst_heights; eauto.
Qed.

Theorem fast_no_threads : forall (u : N) (lw : nat) (l : list fitem), fast_universe u lw -> l <> [] -> Forall (fitem_ok u) l ->
  exists Ts, each_ok (make_fitem u lw) l = Ok Ts /\
    forall s1 s2 runs parallel, Intersect (Fast lw) s1 s2 0 (map fast_ops Ts) runs parallel = UB BadCast.
Proof.
  intros u lw l Hu Hn Hl. destruct (fast_family u lw l Hu Hl) as (d & Ts & ts & Hh & _ & _ & _ & _ & E & HR & HS & _).
  exists Ts. split; auto. intros. apply (no_threads _ _ _ _ (S d)).
  - intros H0. rewrite H0 in HR. inversion HR; subst. inversion HS. destruct l; cbn in *; congruence.
  - eapply inst_heights; eauto.
Qed.

(** * Exactly the calls within the limits are defined *)

Theorem bin_limits : forall (u : N) (l : list bitem), (2 <= u <= 2 ^ 48)%N -> Forall (bitem_ok u) l ->
  exists Ts, each_ok (make_bitem u) l = Ok Ts /\
    forall s1 s2 hc, (exists r, Intersect Bin s1 s2 hc (map bin_ops Ts) true false = Ok r /\ is_intersection (map snd l) r)
      <-> 1 <= length l <= 16 /\ (1 <= hc)%N.
Proof.
  intros u l Hu Hl. destruct l as [|x l'].
  { exists []. split; auto. intros. split; [intros (r & H & _); discriminate|intros (H & _); cbn in H; lia]. }
  set (l := x :: l') in *.
  destruct (bin_no_threads u l Hu ltac:(discriminate) Hl) as (Ts & E & H0). exists Ts. split; auto.
  intros s1 s2 hc. destruct (N.eq_dec hc 0) as [->|Hhc].
  { split; [|lia]. intros (r & Er & _). rewrite H0 in Er. discriminate. }
  destruct (Nat.le_gt_cases (length l) 16) as [Hn|Hn].
  - split; [intros _; split; [split; auto; cbn; lia|lia]|]. intros _.
    destruct (bin_runs_sequential u l s1 s2 hc Hu) as (Ts' & r & E' & Er & Hr); auto; try lia.
    { split; auto. cbn; lia. }
    assert (Ts' = Ts) by congruence. subst Ts'. eauto.
  - split; [|lia]. intros (r & Er & _). destruct (bin_many u l Hu Hn Hl) as (Ts' & E' & H1).
    assert (Ts' = Ts) by congruence. subst Ts'. rewrite H1 in Er by (lia || discriminate). discriminate.
Qed.

Theorem fast_limits : forall (u : N) (lw : nat) (l : list fitem), fast_universe u lw -> Forall (fitem_ok u) l ->
  exists Ts, each_ok (make_fitem u lw) l = Ok Ts /\
    forall s1 s2 hc, (exists r, Intersect (Fast lw) s1 s2 hc (map fast_ops Ts) true false = Ok r /\ is_intersection (map snd l) r)
      <-> 1 <= length l <= 16 /\ (1 <= hc)%N.
Proof.
  intros u lw l Hu Hl. destruct l as [|x l'].
  { exists []. split; auto. intros. split; [intros (r & H & _); discriminate|intros (H & _); cbn in H; lia]. }
  set (l := x :: l') in *.
  destruct (fast_no_threads u lw l Hu ltac:(discriminate) Hl) as (Ts & E & H0). exists Ts. split; auto.
  intros s1 s2 hc. destruct (N.eq_dec hc 0) as [->|Hhc].
  { split; [|lia]. intros (r & Er & _). rewrite H0 in Er. discriminate. }
  destruct (Nat.le_gt_cases (length l) 16) as [Hn|Hn].
  - split; [intros _; split; [split; auto; cbn; lia|lia]|]. intros _.
    destruct (fast_sequential u lw l true s1 s2 hc Hu) as (Ts' & r & E' & Er & Hr); auto; try lia; try discriminate.
    { split; auto. cbn; lia. }
    assert (Ts' = Ts) by congruence. subst Ts'. eauto.
  - split; [|lia]. intros (r & Er & _). destruct (fast_many u lw l Hu Hn Hl) as (Ts' & E' & H1).
    assert (Ts' = Ts) by congruence. subst Ts'. rewrite H1 in Er by (lia || discriminate). discriminate.
Qed.

(** * A multiple of 65536 tries, in parallel and with runs: partialAND looks at none of them *)

Lemma wrapped_intersect : forall k s1 s2 hc Ts h, Ts <> [] -> (forall T, In T Ts -> t_height T = h) ->
  (N.of_nat (length Ts) mod 2 ^ 16 = 0)%N -> (2 <= hc)%N ->
  N.to_nat (N.log2 hc) <= h - 2 -> total_bits k h < 64 ->
  Intersect k s1 s2 hc Ts true true = Ok (nrange 0 (2 ^ total_bits k h)).
Proof.
  intros k s1 s2 hc Ts h Hne Hh Hm Hhc Hc Hb. unfold Intersect, Intersect_mem.
  destruct Ts as [|T0 Ts]; [congruence|]. change (vget (T0 :: Ts) 0) with (Ok T0). cbn [bind].
  rewrite (Hh T0 (or_introl eq_refl)).
  assert (Hs : same_height h (T0 :: Ts) = true).
  { unfold same_height. apply forallb_forall. intros T HT. apply Nat.eqb_eq. auto. }
  rewrite Hs. cbn [negb]. replace (N.eqb hc 0) with false by (symmetry; apply N.eqb_neq; lia).
  replace (N.to_nat (N.log2 hc) <=? h - 2) with true by (symmetry; apply Nat.leb_le; auto).
  rewrite orb_true_r. cbn [andb].
  unfold n_tries, wrap16. rewrite Hm. change (N.to_nat 0) with 0. unfold par_plan.
  assert (C : 1 <= N.to_nat (N.log2 hc)).
  { assert (N.log2 2 <= N.log2 hc)%N by (apply N.log2_le_mono; auto). change (N.log2 2) with 1%N in *. lia. }
  destruct (N.to_nat (N.log2 hc)) as [|c]; [lia|].
  cbn [partialAND Nat.eqb]. unfold pa_scan. cbn [for_loop bind negb andb]. rewrite N.eqb_refl.
  unfold push_full, shl_sub. cbn [Nat.ltb Nat.leb]. rewrite Nat.sub_0_r, shl1_pow2 by auto. cbn [bind].
  rewrite push_range_aligned by apply aligned_0. reflexivity.
Qed.

Lemma is_range : forall h x, In x (nrange 0 (2 ^ h)) <-> (x < pow2 h)%N.
Proof. intros. rewrite In_nrange, of_nat_pow2. lia. Qed.

Theorem bin_wrapped : forall (u : N) (l : list bitem), (2 <= u <= 2 ^ 48)%N -> Forall (bitem_ok u) l ->
  l <> [] -> (N.of_nat (length l) mod 2 ^ 16 = 0)%N ->
  exists Ts, each_ok (make_bitem u) l = Ok Ts /\
    forall s1 s2 hc, (2 <= hc)%N -> (4 * 2 ^ N.log2 hc <= rounded u)%N ->
      exists r, Intersect Bin s1 s2 hc (map bin_ops Ts) true true = Ok r /\ forall x, In x r <-> (x < rounded u)%N.
Proof.
  intros u l Hu Hl Hne Hm. destruct (bin_family u l Hu Hl) as (h & Ts & ts & Hh & _ & _ & Eh & E & HR & HS & _).
  assert (L : length (map bin_ops Ts) = length l) by (rewrite (Forall2_length HR), (Forall2_length HS), map_length; auto).
  exists Ts. split; auto. intros s1 s2 hc Hhc H4. rewrite (height_rounded u h) in * by (auto; lia).
  exists (nrange 0 (2 ^ h)). split; [|apply is_range].
  apply (wrapped_intersect Bin); rewrite ?L; auto; try (cbn; lia).
  - intros H0. rewrite H0 in L. destruct l; cbn in L; congruence.
  - eapply inst_heights; eauto.
  - unfold pow2 in H4. change 4%N with (2 ^ 2)%N in H4. rewrite <- N.pow_add_r in H4.
    apply N.pow_le_mono_r_iff in H4; lia.
Qed.

Theorem fast_wrapped : forall (u : N) (lw : nat) (l : list fitem), fast_universe u lw -> Forall (fitem_ok u) l ->
  l <> [] -> (N.of_nat (length l) mod 2 ^ 16 = 0)%N ->
  exists Ts, each_ok (make_fitem u lw) l = Ok Ts /\
    forall s1 s2 hc, (2 <= hc)%N -> (2 * 2 ^ N.of_nat lw * 2 ^ N.log2 hc <= rounded u)%N ->
      exists r, Intersect (Fast lw) s1 s2 hc (map fast_ops Ts) true true = Ok r /\ forall x, In x r <-> (x < rounded u)%N.
Proof.
  intros u lw l Hu Hl Hne Hm.
  destruct (fast_family u lw l Hu Hl) as (d & Ts & ts & Hw & Hd & Eh & Hu' & _ & E & HR & HS & _).
  assert (L : length (map fast_ops Ts) = length l) by (rewrite (Forall2_length HR), (Forall2_length HS), map_length; auto).
  exists Ts. split; auto. intros s1 s2 hc Hhc H4. rewrite (height_rounded u (d + lw)) in * by (auto; lia).
  exists (nrange 0 (2 ^ (d + lw))). split; [|apply is_range].
  replace (d + lw) with (total_bits (Fast lw) (S d)) by (cbn; lia).
  apply (wrapped_intersect (Fast lw)); rewrite ?L; auto; try (cbn; lia).
  - intros H0. rewrite H0 in L. destruct l; cbn in L; congruence.
  - eapply inst_heights; eauto.
  - unfold pow2 in H4. replace (2 * 2 ^ N.of_nat lw)%N with (2 ^ (1 + N.of_nat lw))%N in H4
      by (rewrite N.pow_add_r; auto). rewrite <- N.pow_add_r in H4.
    apply N.pow_le_mono_r_iff in H4; lia.
Qed.
