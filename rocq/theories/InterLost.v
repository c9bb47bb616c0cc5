(** Which common values a parallel call on run-encoded tries loses. *)

From Coq Require Import Permutation.
From Verif Require Import Base FlatTrie LevelTrie FastTrie ParallelFor Intersection Tries Facts Tree
  Groups Reps Layout BuildFlat BuildLevel BuildFast WordBits Spec RoundTrip RoundTripFacts
  Compress CompressFast RunsFacts RunsThms SpecTries SpecLost
  InterSpec InterSeq ParFacts InterPar InterPlan InterTop InterInst InterTight InterMain InterThms.

Section MixedRuns.
  Context {A : Type}.
  Variable Ts : list trie_ops.
  Variable lmem : A -> N -> bool.
  Variable lg : nat.
  Notation n := (length Ts).

  (** Every trie has the value [x]. *)
  Definition holds (d : nat) (X : forest (A := A)) (x : N) : Prop :=
    forall i, i < n -> exists t, X i = Some t /\ wf d t /\ mem lmem (d + lg) t x = true.

  Definition some_run (j d : nat) (X : forest (A := A)) (x : N) (b : bool) : Prop :=
    exists i t, i < n /\ X i = Some t /\ runat lg j d t x = b.

  Lemma mixed_runat : 1 <= n -> forall c d X x, c <= d -> holds d X x ->
    (mixed Ts lg c d X x <-> exists j, j < c /\ some_run j d X x true /\ some_run j d X x false).
  Proof.
    intros Hn. induction c; intros d X x Hc HH.
    { split; [intros []|]. intros (j & Hj & _). lia. }
    destruct d as [|d]; [lia|]. cbn [mixed].
    destruct (all_full Ts X) eqn:EA.
    { split; [intros (H & _); discriminate|]. intros (j & Hj & _ & (i & t & Hi & Et & Hr)). exfalso.
      unfold all_full in EA. rewrite forallb_seq in EA. specialize (EA i Hi). rewrite Et in EA.
      destruct t; try discriminate EA. destruct j; discriminate Hr. }
    assert (HN : exists i t, i < n /\ X i = Some t /\ t <> Full).
    { unfold all_full in EA. apply forallb_seq_false in EA. destruct EA as (i & Hi & E).
      destruct (HH i Hi) as (t & Et & _). exists i, t. split; auto. split; auto.
      rewrite Et in E. destruct t; congruence. }
    assert (HR0 : forall i t, i < n -> X i = Some t -> t <> Full -> runat lg 0 (S d) t x = false).
    { intros i t _ _ H. destruct t; auto. congruence. }
    destruct (full_dec Ts X) as [(i & Hi & EXi)|NF].
    { split; [|intros _; split; eauto]. intros _. exists 0. split; [lia|]. split.
      - exists i, Full. auto.
      - destruct HN as (i' & t & Hi' & Et & Nt). exists i', t. split; auto. split; auto. apply (HR0 i'); auto. }
    set (Y := if N.testbit x (N.of_nat (d + lg)) then rights X else lefts X).
    assert (HY : forall i t, i < n -> X i = Some t -> exists t', Y i = Some t' /\ wf d t' /\
              mem lmem (d + lg) t' x = true /\ forall j, runat lg (S j) (S d) t x = runat lg j d t' x).
    { intros i t Hi Et. destruct (HH i Hi) as (t0 & Et0 & W & M). rewrite Et in Et0. injection Et0 as <-.
      assert (Nt := NF i t Hi Et). unfold Y.
      destruct t as [a| |l|r|l r]; cbn [wf] in W; try (lia || congruence); cbn [mem Nat.add pred] in M, W.
      - destruct (N.testbit x (N.of_nat (d + lg))) eqn:B; [discriminate|]. exists l. unfold lefts. rewrite Et.
        split; auto. split; [apply W|]. split; auto. intros j. cbn [runat pred]. rewrite B. auto.
      - destruct (N.testbit x (N.of_nat (d + lg))) eqn:B; [|discriminate]. exists r. unfold rights. rewrite Et.
        split; auto. split; [apply W|]. split; auto. intros j. cbn [runat pred]. rewrite B. auto.
      - destruct (N.testbit x (N.of_nat (d + lg))) eqn:B; [exists r|exists l]; unfold lefts, rights; rewrite Et;
          (split; auto; split; [apply W|]; split; auto; intros j; cbn [runat pred]; rewrite B; auto). }
    assert (HYH : holds d Y x).
    { intros i Hi. destruct (HH i Hi) as (t & Et & _). destruct (HY i t Hi Et) as (t' & ? & ? & ? & _). eauto. }
    assert (SR : forall j b, some_run (S j) (S d) X x b <-> some_run j d Y x b).
    { intros j b. split.
      - intros (i & t & Hi & Et & Hr). destruct (HY i t Hi Et) as (t' & Et' & _ & _ & E).
        exists i, t'. split; auto. split; auto. rewrite <- E. auto.
      - intros (i & t' & Hi & Et' & Hr). destruct (HH i Hi) as (t & Et & _).
        destruct (HY i t Hi Et) as (t2 & Et2 & _ & _ & E). rewrite Et' in Et2. injection Et2 as <-.
        exists i, t. split; auto. split; auto. rewrite E. auto. }
    rewrite (IHc d Y x ltac:(lia) HYH). split.
    - intros (_ & [(i & Hi & E)|(j & Hj & R1 & R2)]).
      + exfalso. exact (NF i Full Hi E eq_refl).
      + exists (S j). split; [lia|]. split; apply SR; auto.
    - intros (j & Hj & R1 & R2). split; auto. right. destruct j as [|j].
      + destruct R1 as (i & t & Hi & Et & Hr). rewrite (HR0 i t Hi Et (NF i t Hi Et)) in Hr. discriminate.
      + exists j. split; [lia|]. split; apply SR; auto.
  Qed.
End MixedRuns.

(** * From trees to sets *)

Section Sets.
  Context {A : Type}.
  Variable lfull : A -> bool.
  Variable lmem : A -> N -> bool.
  Variable lg D c : nat.
  Hypothesis Hc : c <= D.

  (** A tree, whether its runs are encoded, and its set. *)
  Definition stands (t : tree A) (x : bool * list N) : Prop :=
    wf D t /\ sel lmem (D + lg) t 0 = snd x /\ (fst x = false -> plain t) /\
    (fst x = true -> tight lfull c t /\ gaps lfull lmem lg t).

  Lemma stands_mem : forall t x v, stands t x ->
    (In v (snd x) <-> (v < pow2 (D + lg))%N /\ mem lmem (D + lg) t v = true).
  Proof.
    intros t x v (_ & E & _). rewrite <- E. unfold sel. rewrite filter_In, In_nrange, of_nat_pow2.
    split; intros (H & M); split; auto; lia.
  Qed.

  Lemma stands_run : forall t x v j, stands t x -> j < c -> (v < pow2 (D + lg))%N ->
    (runat lg j D t v = true <-> run_around (pow2 (D + lg - j)) v x).
  Proof.
    intros t x v j Hs Hj Hv. assert (HM := fun y => stands_mem t x y Hs). destruct Hs as (W & E & Hp & Ht).
    unfold run_around. destruct (fst x).
    - destruct (Ht eq_refl) as (T & G).
      rewrite (runat_block lfull lmem lg j t D v W G); [|clear - T Hj|lia].
      + split.
        * intros H. split; auto. intros y Hy. apply HM. split; auto.
          assert (Gp := pow2_nz (D + lg - j)).
          assert (Ed : pow2 (D + lg) = (pow2 (D + lg - j) * pow2 j)%N).
          { unfold pow2. rewrite <- N.pow_add_r. f_equal. lia. }
          rewrite Ed in *. set (b := pow2 (D + lg - j)) in *.
          assert (v / b < pow2 j)%N by (apply N.div_lt_upper_bound; auto).
          rewrite <- Hy in H0. assert (Ey := N.div_mod' y b). assert (My := N.mod_lt y b Gp). nia.
        * intros (_ & H) y Hy. apply HM. auto.
      + revert t j T Hj. clear. induction c as [|c' IH]; intros t j T Hj; [lia|].
        destruct T as (T1 & T2). cbn [tight]. split; auto. destruct j as [|j].
        * destruct t; cbn [tight]; auto.
        * destruct t; auto; try (apply (IH _ j); auto; lia). destruct T2. split; apply (IH _ j); auto; lia.
    - rewrite (runat_plain lg t j D v (Hp eq_refl)). split; [discriminate|]. intros (H & _). discriminate.
  Qed.

  Variable Ts : list trie_ops.
  Variable ts : list (tree A).
  Variable xs : list (bool * list N).
  Hypothesis Hn : 1 <= length Ts.
  Hypothesis Hlen : length Ts = length ts.
  Hypothesis HF : Forall2 stands ts xs.

  Theorem mixed_disagree : forall v c', c' <= c -> Forall (fun s => In v s) (map snd xs) ->
    (mixed Ts lg c' D (forest_of ts) v <-> exists j, j < c' /\ disagree (pow2 (D + lg - j)) v xs).
  Proof.
    intros v c' Hc' Hv.
    assert (HH : holds Ts lmem lg D (forest_of ts) v).
    { intros i Hi. unfold forest_of. rewrite Hlen in Hi.
      destruct (nth_error ts i) as [t|] eqn:Et; [|apply nth_error_None in Et; lia].
      destruct (Forall2_nth _ _ _ _ _ _ _ HF Et) as (x & Ex & Hs). exists t. split; auto.
      split; [apply Hs|]. apply (stands_mem t x v Hs). rewrite Forall_forall in Hv. apply Hv.
      apply in_map. eapply nth_error_In; eauto. }
    assert (Hb : (v < pow2 (D + lg))%N).
    { destruct (HH 0 Hn) as (t & Et & _). destruct (Forall2_nth _ _ _ _ _ _ _ HF Et) as (x & Ex & Hs).
      apply (stands_mem t x v Hs). rewrite Forall_forall in Hv. apply Hv.
      apply in_map. eapply nth_error_In; eauto. }
    rewrite (mixed_runat Ts lmem lg Hn c' D (forest_of ts) v ltac:(lia) HH).
    assert (HE : forall j, j < c' ->
      (some_run Ts lg j D (forest_of ts) v true <-> Exists (run_around (pow2 (D + lg - j)) v) xs) /\
      (some_run Ts lg j D (forest_of ts) v false <-> Exists (fun x => ~ run_around (pow2 (D + lg - j)) v x) xs)).
    { intros j Hj. assert (Hj' : j < c) by lia.
      assert (HA : forall i t, nth_error ts i = Some t -> exists x, nth_error xs i = Some x /\
                 (runat lg j D t v = true <-> run_around (pow2 (D + lg - j)) v x)).
      { intros i t Et. destruct (Forall2_nth _ _ _ _ _ _ _ HF Et) as (x & Ex & Hs).
        exists x. split; auto. apply stands_run; auto. }
      assert (HB : forall x, In x xs -> exists i t, i < length Ts /\ nth_error ts i = Some t /\
                 (runat lg j D t v = true <-> run_around (pow2 (D + lg - j)) v x)).
      { intros x Hx. apply In_nth_error in Hx. destruct Hx as (i & Ex).
        assert (Li : i < length ts).
        { rewrite (Forall2_length HF). apply nth_error_Some. congruence. }
        destruct (nth_error ts i) as [t|] eqn:Et; [|apply nth_error_None in Et; lia].
        destruct (HA i t Et) as (x' & Ex' & R). rewrite Ex in Ex'. injection Ex' as <-.
        exists i, t. split; [lia|]. auto. }
      split; rewrite Exists_exists; split.
      - intros (i & t & Hi & Et & Hr). destruct (HA i t Et) as (x & Ex & R). exists x.
        split; [eapply nth_error_In; eauto|]. apply R. auto.
      - intros (x & Hx & Hr). destruct (HB x Hx) as (i & t & Hi & Et & R). exists i, t. split; auto. split; auto.
        apply R. auto.
      - intros (i & t & Hi & Et & Hr). destruct (HA i t Et) as (x & Ex & R). exists x.
        split; [eapply nth_error_In; eauto|]. intros H. apply R in H. congruence.
      - intros (x & Hx & Hr). destruct (HB x Hx) as (i & t & Hi & Et & R). exists i, t. split; auto. split; auto.
        destruct (runat lg j D t v) eqn:E; auto. exfalso. apply Hr. apply R. auto. }
    unfold disagree. split; intros (j & Hj & H1 & H2); exists j; destruct (HE j Hj) as (E1 & E2); split; auto;
      split; [apply E1|apply E2|apply E1|apply E2]; auto.
  Qed.

  (** A block larger than the universe is in no set. *)
  Lemma no_big_run : forall b v, (pow2 (D + lg) < b)%N -> (v < pow2 (D + lg))%N -> ~ Exists (run_around b v) xs.
  Proof.
    intros b v Hb Hv H. rewrite Exists_exists in H. destruct H as (x & Hx & (_ & H)).
    apply In_nth_error in Hx. destruct Hx as (i & Ex).
    assert (Li : i < length ts).
    { rewrite (Forall2_length HF). apply nth_error_Some. congruence. }
    destruct (nth_error ts i) as [t|] eqn:Et; [|apply nth_error_None in Et; lia].
    destruct (Forall2_nth _ _ _ _ _ _ _ HF Et) as (x' & Ex' & Hs). rewrite Ex in Ex'. injection Ex' as <-.
    specialize (H (pow2 (D + lg))). rewrite (N.div_small v b), (N.div_small (pow2 (D + lg)) b) in H by lia.
    specialize (H eq_refl). apply (stands_mem t x _ Hs) in H. lia.
  Qed.

  (** What follows for the result. *)
  Theorem lost_sets : forall cut r Z, S cut <= c ->
    is_intersection (map snd xs) (inter lmem lg (length Ts) D (forest_of ts) 0) ->
    Permutation (r ++ Z) (inter lmem lg (length Ts) D (forest_of ts) 0) ->
    lost_ok Ts lmem lg D cut (forest_of ts) Z ->
    forall v, Forall (fun s => In v s) (map snd xs) ->
      ((forall j, ~ disagree (pow2 (D + lg - cut) * 2 ^ j)%N v xs) -> In v r) /\
      (forall j, (1 <= j)%N -> disagree (pow2 (D + lg - cut) * 2 ^ j)%N v xs -> ~ In v r).
  Proof.
    intros cut r Z Hcut HI HP (L1 & L2) v Hv.
    assert (Hin : In v (inter lmem lg (length Ts) D (forest_of ts) 0)) by (apply HI; auto).
    assert (Hb : (v < pow2 (D + lg))%N).
    { unfold inter in Hin. apply filter_In in Hin. rewrite In_nrange, of_nat_pow2 in Hin. lia. }
    assert (EB : forall j, j <= cut -> (pow2 (D + lg - cut) * 2 ^ N.of_nat j)%N = pow2 (D + lg - (cut - j))).
    { intros j Hj. unfold pow2. rewrite <- N.pow_add_r. f_equal. lia. }
    split.
    - intros Hd. apply (Permutation_in _ (Permutation_sym HP)) in Hin. apply in_app_or in Hin.
      destruct Hin as [Hin|Hin]; auto. exfalso. apply L1 in Hin.
      apply mixed_disagree in Hin; auto. destruct Hin as (j & Hj & Hdis).
      apply (Hd (N.of_nat (cut - j))). rewrite EB by lia. replace (cut - (cut - j)) with j by lia. auto.
    - intros j Hj Hdis Hr. destruct (N.le_gt_cases j (N.of_nat cut)) as [Hle|Hgt].
      + assert (Hz : In v Z).
        { apply L2; auto. apply mixed_disagree; auto; try lia. exists (cut - N.to_nat j). split; [lia|].
          rewrite <- EB by lia. rewrite N2Nat.id. auto. }
        assert (Nd : NoDup (r ++ Z)).
        { apply (Permutation_NoDup (Permutation_sym HP)). destruct HI as (Hs & _). unfold increasing in Hs.
          clear - Hs. induction Hs as [|a l Hs IH Hf]; constructor; auto.
          intros Hin. rewrite Forall_forall in Hf. specialize (Hf a Hin). lia. }
        apply in_split in Hr. destruct Hr as (r1 & r2 & ->). rewrite <- app_assoc in Nd. cbn [app] in Nd.
        apply NoDup_remove_2 in Nd. apply Nd. rewrite !in_app_iff. auto.
      + destruct Hdis as (Hdis & _). revert Hdis. apply no_big_run; auto.
        unfold pow2. rewrite <- N.pow_add_r. apply N.pow_lt_mono_r; lia.
  Qed.
End Sets.

Lemma Forall2_map_both : forall X Y Z (f : Y -> Z) (P : X -> Z -> Prop) a b,
  Forall2 (fun x y => P x (f y)) a b -> Forall2 P a (map f b).
Proof. intros X Y Z f P a b H. induction H; cbn; auto. Qed.

(** Two relations on the same lists. *)
Lemma Forall2_and : forall X Y (P Q : X -> Y -> Prop) a b,
  Forall2 P a b -> Forall2 Q a b -> Forall2 (fun x y => P x y /\ Q x y) a b.
Proof. intros X Y P Q a b H. induction H; intros H2; inversion H2; subst; auto. Qed.

Lemma Forall2_unmap_r : forall X Y Z (f : Y -> Z) (P : X -> Z -> Prop) a b,
  Forall2 P a (map f b) -> Forall2 (fun x y => P x (f y)) a b.
Proof.
  intros X Y Z f P a b. revert a. induction b; intros a' H; inversion H; subst; constructor; auto.
Qed.

Lemma Forall2_in_l : forall X Y (P : X -> Prop) (Q : X -> Y -> Prop) a b,
  (forall x, In x a -> P x) -> Forall2 Q a b -> Forall2 (fun x y => P x /\ Q x y) a b.
Proof.
  intros X Y P Q a b HP H. induction H; constructor.
  - split; auto. apply HP. left; auto.
  - apply IHForall2. intros. apply HP. right; auto.
Qed.

(** What a parallel call over runs returns: no duplicates, only common values, all
    common values around which the tries agree on runs of a thread's share or more,
    and ([split]: when the tries are high enough to be split) none around which they
    disagree on a run of twice that or more. *)
Definition runs_outcome (xs : list (bool * list N)) (tb : N) (high : Prop) (r : list N) : Prop :=
  NoDup r /\ (forall v, In v r -> Forall (fun s => In v s) (map snd xs)) /\
  (forall v, Forall (fun s => In v s) (map snd xs) -> (forall j, ~ disagree (tb * 2 ^ j)%N v xs) -> In v r) /\
  (high -> forall v j, Forall (fun s => In v s) (map snd xs) -> (1 <= j)%N -> disagree (tb * 2 ^ j)%N v xs ->
     ~ In v r).

Lemma exact_runs_outcome : forall xs tb (high : Prop) r, is_intersection (map snd xs) r -> ~ high ->
  runs_outcome xs tb high r.
Proof.
  intros xs tb high r Hi Hh. destruct (perm_outcome _ r r [] Hi) as (P1 & P2); [rewrite app_nil_r; auto|].
  split; auto. split; auto. split; [|intros; contradiction]. intros v Hv _. apply Hi. auto.
Qed.

Theorem bin_par_lost : forall (u : N) (l : list bitem) hc s1 s2,
  (3 <= u <= 2 ^ 48)%N -> 1 <= length l <= 16 -> Forall (bitem_ok u) l ->
  (1 <= hc < 2 ^ 16)%N -> valid_scheduler s1 -> valid_scheduler s2 ->
  exists Ts r, each_ok (make_bitem u) l = Ok Ts /\
    Intersect Bin s1 s2 hc (map bin_ops Ts) true true = Ok r /\
    runs_outcome (map b_part l) (thread_block u hc) (4 * 2 ^ N.log2 hc <= rounded u)%N r.
Proof.
  intros u l hc s1 s2 Hu Hn Hl Hhc V1 V2.
  destruct (bin_family_runs u l ltac:(lia) Hl) as (h & Ts & ts & H1 & Hp & H2 & Hh & E & HR & HS & HB).
  specialize (H2 ltac:(lia)).
  assert (Ln : length (map bin_ops Ts) = length l).
  { rewrite (Forall2_length HR), (Forall2_length HS), map_length. auto. }
  assert (Es : map snd (map b_part l) = map snd l) by (rewrite map_map; auto).
  assert (H4 : (4 * 2 ^ N.log2 hc <= rounded u)%N <-> par_branch h hc true = true).
  { rewrite (height_rounded u h) by (auto; lia). unfold par_branch. cbn [andb].
    replace (h <? 2) with false by (symmetry; apply Nat.ltb_ge; lia). cbn [orb]. rewrite Nat.leb_le.
    change 4%N with (2 ^ 2)%N. rewrite <- N.pow_add_r. unfold pow2. rewrite <- N.pow_le_mono_r_iff by lia. lia. }
  destruct (par_branch h hc true) eqn:Hb.
  - destruct (hc_threads hc ltac:(lia) ltac:(lia)) as (H15 & H3 & _).
    destruct (bin_cut h H1 hc ltac:(lia) ltac:(lia) ltac:(lia) true Hb) as (C1 & C2).
    assert (HI : is_intersection (map snd l) (inter umem 0 (length (map bin_ops Ts)) h (forest_of ts) 0))
      by (eapply (inst_inter lok_bin); eauto; lia).
    destruct (par_intersect Bin (map bin_ops Ts) h umem 0 h (leafok lok_bin (map bin_ops Ts)) true ltac:(lia) ltac:(lia)
               (bin_end h) (bin_tot h) ltac:(lia) ltac:(lia) (bin_last h) (bin_leaf h (map bin_ops Ts)) true
               (forest_of ts)) with (hc := hc) (s1 := s1) (s2 := s2) (parallel := true)
      as (r & m & Er & (Z & P & L) & _); auto; try lia; try discriminate.
    { eapply inst_okf; eauto. lia. }
    { eapply inst_somes; eauto. }
    { eapply inst_heights; eauto. }
    exists Ts, r. split; auto. split; [unfold Intersect; rewrite Er; auto|].
    assert (Hcut : S (N.to_nat (N.log2 hc)) <= pred h).
    { unfold par_branch in Hb. cbn [andb] in Hb. apply orb_prop in Hb.
      destruct Hb as [Hb|Hb]; [apply Nat.ltb_lt in Hb; lia|]. apply Nat.leb_le in Hb. lia. }
    assert (HF : Forall2 (stands ufull umem 0 h (pred h)) ts (map b_part l)).
    { apply Forall2_map_both. apply Forall2_unmap_r in HS.
      assert (HW : forall t, In t ts -> wf h t).
      { intros t Ht. apply In_nth_error in Ht. destruct Ht as (i & Ei).
        apply Forall2_flip in HR. destruct (Forall2_nth _ _ _ _ _ _ _ HR Ei) as (o & _ & (_ & W & _)). auto. }
      eapply Forall2_impl; [|exact (Forall2_in_l _ _ _ _ _ _ HW (Forall2_and _ _ _ _ _ _ HS HB))].
      cbn. intros t x (W & Hsel & Hf & Ht). split; auto. split; auto. split; auto.
      intros He. split; [apply Ht; auto|apply unit_gaps]. }
    destruct (perm_outcome _ _ _ _ HI P) as (O1 & O2). rewrite <- Es in O2, HI.
    assert (HL := lost_sets ufull umem 0 h (pred h) ltac:(lia) (map bin_ops Ts) ts (map b_part l) ltac:(lia)
                    (Forall2_length HR) HF _ r Z Hcut HI P L).
    rewrite (thread_block_pow2 u h hc) by (auto; lia). rewrite Nat.add_0_r in HL.
    split; auto. split; auto. split.
    + intros v Hv Hd. apply (HL v Hv). auto.
    + intros _ v j Hv. apply (HL v Hv).
  - destruct (bin_seq h H1 (map bin_ops Ts) ts (map snd l) ltac:(lia) HR HS true
      ltac:(discriminate) hc ltac:(lia) s1 s2 true Hb) as (r & Er & Hi).
    exists Ts, r. split; auto. split; [unfold Intersect; rewrite Er; auto|].
    rewrite <- Es in Hi. apply exact_runs_outcome; auto. intros H. apply H4 in H. discriminate.
Qed.

Theorem fast_par_lost : forall (u : N) (lw : nat) (l : list fitem) hc s1 s2,
  fast_universe u lw -> (2 ^ N.of_nat lw < u)%N -> 1 <= length l <= 16 -> Forall (fitem_ok u) l ->
  (1 <= hc < 2 ^ 16)%N -> valid_scheduler s1 -> valid_scheduler s2 ->
  exists Ts r, each_ok (make_fitem u lw) l = Ok Ts /\
    Intersect (Fast lw) s1 s2 hc (map fast_ops Ts) true true = Ok r /\
    runs_outcome (map f_part l) (thread_block u hc) (2 * 2 ^ N.of_nat lw * 2 ^ N.log2 hc <= rounded u)%N r.
Proof.
  intros u lw l hc s1 s2 Hu Hbig Hn Hl Hhc V1 V2.
  destruct (fast_family_runs u lw l Hu Hl) as (d & Ts & ts & H6 & H48 & Hh & Hu5 & Hd & Hp & E & HR & HS & HB).
  specialize (Hd Hbig).
  assert (Ln : length (map fast_ops Ts) = length l).
  { rewrite (Forall2_length HR), (Forall2_length HS), map_length. auto. }
  assert (Es : map snd (map f_part l) = map snd l) by (rewrite map_map; auto).
  assert (H4 : (2 * 2 ^ N.of_nat lw * 2 ^ N.log2 hc <= rounded u)%N <-> par_branch (S d) hc true = true).
  { rewrite (height_rounded u (d + lw)) by (auto; lia). unfold par_branch. cbn [andb].
    replace (S d <? 2) with false by (symmetry; apply Nat.ltb_ge; lia). cbn [orb]. rewrite Nat.leb_le.
    rewrite <- N.pow_succ_r', <- N.pow_add_r. unfold pow2. rewrite <- N.pow_le_mono_r_iff by lia. lia. }
  destruct (par_branch (S d) hc true) eqn:Hb.
  - destruct (hc_threads hc ltac:(lia) ltac:(lia)) as (H15 & H3 & _).
    destruct (fast_cut d hc ltac:(lia) true Hb) as (C1 & C2).
    assert (HI : is_intersection (map snd l) (inter (wmem lw) lw (length (map fast_ops Ts)) d (forest_of ts) 0))
      by (eapply (inst_inter lok_fast); eauto; lia).
    destruct (par_intersect (Fast lw) (map fast_ops Ts) (S d) (wmem lw) lw d (leafok lok_fast (map fast_ops Ts)) false
               ltac:(lia) ltac:(lia)
               (fast_end lw d) (fast_tot lw d) ltac:(lia) ltac:(lia) (fast_last d)
               (fast_leaf lw d H6 (map fast_ops Ts)) true
               (forest_of ts)) with (hc := hc) (s1 := s1) (s2 := s2) (parallel := true)
      as (r & m & Er & (Z & P & L) & _); auto; try lia; try discriminate.
    { eapply inst_okf; eauto. lia. }
    { eapply inst_somes; eauto. }
    { eapply inst_heights; eauto. }
    exists Ts, r. split; auto. split; [unfold Intersect; rewrite Er; auto|].
    assert (Hcut : S (N.to_nat (N.log2 hc)) <= d).
    { unfold par_branch in Hb. cbn [andb] in Hb. apply orb_prop in Hb.
      destruct Hb as [Hb|Hb]; [apply Nat.ltb_lt in Hb; lia|]. apply Nat.leb_le in Hb. lia. }
    assert (HF : Forall2 (stands (xfull lw) (wmem lw) lw d d) ts (map f_part l)).
    { apply Forall2_map_both. apply Forall2_unmap_r in HS.
      assert (HW : forall t, In t ts -> wf d t).
      { intros t Ht. apply In_nth_error in Ht. destruct Ht as (i & Ei).
        apply Forall2_flip in HR. destruct (Forall2_nth _ _ _ _ _ _ _ HR Ei) as (o & _ & (_ & W & _)). auto. }
      eapply Forall2_impl; [|exact (Forall2_in_l _ _ _ _ _ _ HW (Forall2_and _ _ _ _ _ _ HS HB))].
      cbn. intros t x (W & Hsel & Hf & Ht). split; auto. }
    destruct (perm_outcome _ _ _ _ HI P) as (O1 & O2). rewrite <- Es in O2, HI.
    assert (HL := lost_sets (xfull lw) (wmem lw) lw d d ltac:(lia) (map fast_ops Ts) ts (map f_part l) ltac:(lia)
                    (Forall2_length HR) HF _ r Z Hcut HI P L).
    rewrite (thread_block_pow2 u (d + lw) hc) by (auto; lia).
    split; auto. split; auto. split.
    + intros v Hv Hd'. apply (HL v Hv). auto.
    + intros _ v j Hv. apply (HL v Hv).
  - destruct (fast_seq lw d H6 H48 (map fast_ops Ts) ts (map snd l) ltac:(lia) HR HS true
      ltac:(discriminate) hc ltac:(lia) s1 s2 true Hb) as (r & Er & Hi).
    exists Ts, r. split; auto. split; [unfold Intersect; rewrite Er; auto|].
    rewrite <- Es in Hi. apply exact_runs_outcome; auto. intros H. apply H4 in H. discriminate.
Qed.

Theorem bin_kept_and_lost : forall (u : N) (l : list bitem) hc s1 s2,
  (3 <= u <= 2 ^ 48)%N -> 1 <= length l <= 16 -> Forall (bitem_ok u) l ->
  (1 <= hc < 2 ^ 16)%N -> valid_scheduler s1 -> valid_scheduler s2 ->
  exists Ts r, each_ok (make_bitem u) l = Ok Ts /\
    Intersect Bin s1 s2 hc (map bin_ops Ts) true true = Ok r /\
    forall v, Forall (fun s => In v s) (map snd l) ->
      ((forall j, ~ disagree (thread_block u hc * 2 ^ j)%N v (map b_part l)) -> In v r) /\
      ((4 * 2 ^ N.log2 hc <= rounded u)%N ->
       forall j, (1 <= j)%N -> disagree (thread_block u hc * 2 ^ j)%N v (map b_part l) -> ~ In v r).
Proof.
  intros u l hc s1 s2 Hu Hn Hl Hhc V1 V2.
  destruct (bin_par_lost u l hc s1 s2 Hu Hn Hl Hhc V1 V2) as (Ts & r & E & Er & (_ & _ & K & L)).
  assert (Es : map snd (map b_part l) = map snd l) by (rewrite map_map; auto). rewrite Es in *.
  exists Ts, r. split; auto. split; auto. intros v Hv. split; [apply K; auto|].
  intros H4 j Hj. apply L; auto.
Qed.

Theorem fast_kept_and_lost : forall (u : N) (lw : nat) (l : list fitem) hc s1 s2,
  fast_universe u lw -> (2 ^ N.of_nat lw < u)%N -> 1 <= length l <= 16 -> Forall (fitem_ok u) l ->
  (1 <= hc < 2 ^ 16)%N -> valid_scheduler s1 -> valid_scheduler s2 ->
  exists Ts r, each_ok (make_fitem u lw) l = Ok Ts /\
    Intersect (Fast lw) s1 s2 hc (map fast_ops Ts) true true = Ok r /\
    forall v, Forall (fun s => In v s) (map snd l) ->
      ((forall j, ~ disagree (thread_block u hc * 2 ^ j)%N v (map f_part l)) -> In v r) /\
      ((2 * 2 ^ N.of_nat lw * 2 ^ N.log2 hc <= rounded u)%N ->
       forall j, (1 <= j)%N -> disagree (thread_block u hc * 2 ^ j)%N v (map f_part l) -> ~ In v r).
Proof.
  intros u lw l hc s1 s2 Hu Hb Hn Hl Hhc V1 V2.
  destruct (fast_par_lost u lw l hc s1 s2 Hu Hb Hn Hl Hhc V1 V2) as (Ts & r & E & Er & (_ & _ & K & L)).
  assert (Es : map snd (map f_part l) = map snd l) by (rewrite map_map; auto). rewrite Es in *.
  exists Ts, r. split; auto. split; auto. intros v Hv. split; [apply K; auto|].
  intros H4 j Hj. apply L; auto.
Qed.
