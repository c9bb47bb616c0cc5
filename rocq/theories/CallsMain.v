(** The calls of a sequential intersection of tries built from sets. *)

From Coq Require Import Permutation.
From Verif Require Import Base FlatTrie LevelTrie FastTrie ParallelFor Intersection Tries Calls Facts Tree
  Groups Reps Layout BuildFlat BuildLevel BuildFast WordBits Spec RoundTrip RoundTripFacts Compress
  WriteOnes CompressFast RunsFacts RunsThms SpecTries SpecMeasures SpecCalls NodeCount
  InterSpec InterSeq ParFacts InterPar InterPlan InterTop InterInst InterTight InterMain InterThms LayoutThms CallsThms.

(** * The trees of the tries *)

Definition bin_tree (h : nat) (enc : bool) (s : list N) : tree unit :=
  let T := tree_of unit_leaf 0 h s in if enc then ucompress T else T.

Definition fast_tree (lw d : nat) (enc : bool) (s : list N) : tree N :=
  let T := tree_of (word_of lw) lw d s in if enc then xcompress lw T else T.

Lemma bin_make_tree : forall u h v enc s, height_of u = Ok h -> (2 <= u <= 2 ^ 48)%N ->
  1 <= h <= 48 -> (u <= pow2 h)%N -> ((3 <= u)%N -> 2 <= h) -> stored_ok u v enc s ->
  exists t, bin_make u v enc s = Ok t /\ repr lok_bin h h (bin_ops t) (bin_tree h enc s) /\
    sel umem (h + 0) (bin_tree h enc s) 0 = s.
Proof.
  intros u h v enc s Hh Hu H1 Hp H2 ((Hs & Hb & Hv) & Hne & Hm).
  assert (E := sel_is_set u h s Hp Hne Hs Hb). unfold bin_tree. set (T := tree_of unit_leaf 0 h s) in *.
  assert (Hpl : plain T) by apply tree_of_plain.
  rewrite Nat.add_0_r. unfold bin_make, bin_build. destruct v as [il|il].
  - destruct Hv as (H3 & _ & Hl). specialize (H2 H3).
    destruct (flat_build_layout s u h Hh) as (t & -> & L & Hre & He); auto; try lia.
    cbn [bind]. destruct enc.
    + assert (Em : nodelev (ucompress T) = h).
      { apply (deep_iff T h 0); auto using aligned_0; try lia. { apply L. }
        apply (mixed_block_iff u h s); auto. }
      destruct (flat_layout_runs t h T L Hpl Em) as (t' & Ht' & L' & _).
      cbn [bin_encodeRuns]. rewrite Ht'. cbn [bind]. exists (BFlat t').
      split; auto. split; [|rewrite ucompress_sel; auto].
      assert (R := flat_reps _ _ _ L'). destruct L' as (_ & W & EH & _).
      split; [exact EH|]. split; auto.
    + exists (BFlat t). split; auto. split; [|auto].
      assert (R := flat_reps _ _ _ L). destruct L as (_ & W & EH & _).
      split; [exact EH|]. split; auto.
  - destruct (level_build_layout il s u h Hh) as (t & -> & L & Hre & He & _); auto; try lia.
    { apply below_short with (u := u); auto. lia. }
    cbn [bind]. destruct enc.
    + destruct (level_encodeRuns_spec _ _ _ L Hpl) as (t' & Ht' & L' & _).
      cbn [bin_encodeRuns]. rewrite Ht'. cbn [bind]. exists (BLevel t').
      split; auto. split; [|rewrite ucompress_sel; auto].
      assert (R := level_reps _ _ _ L'). split; [exact (level_height _ _ _ L')|].
      split; auto. apply L'.
    + exists (BLevel t). split; auto. split; [|auto].
      assert (R := level_reps _ _ _ L). split; [exact (level_height _ _ _ L)|].
      split; auto. apply L.
Qed.

Lemma fast_make_tree : forall u hu lw jh je enc s, height_of u = Ok hu ->
  lw <= 6 -> lw <= hu -> hu <= 48 -> (u <= pow2 hu)%N -> fast_ok u s ->
  exists t, fast_make u lw jh je enc s = Ok t /\
    repr lok_fast (hu - lw) (S (hu - lw)) (fast_ops t) (fast_tree lw (hu - lw) enc s) /\
    sel (wmem lw) (hu - lw + lw) (fast_tree lw (hu - lw) enc s) 0 = s.
Proof.
  intros u hu lw jh je enc s Hh Hlw Hlh H48 Hp (Hne & Hs & Hb & Hl).
  destruct (fast_build_layout lw jh je s u hu Hh) as (t & Ht & L & E1 & E2 & Hre & Hje); auto; try lia.
  unfold fast_tree. set (T := tree_of (word_of lw) lw (hu - lw) s) in *.
  assert (E : sel (wmem lw) (hu - lw + lw) T 0 = s).
  { assert (D := distinct_fast_set lw (hu - lw) s Hne (increasing_nondecreasing _ Hs)).
    unfold distinct_fast in D.
    apply (is_set_of_unique s); [|apply is_set_of_self; auto]. apply D.
    replace (hu - lw + lw) with hu by lia. eapply below_within; eauto. }
  assert (Hpl : plain T) by apply tree_of_plain.
  unfold fast_make. rewrite Ht. cbn [bind]. destruct enc.
  - assert (Hx : x_height t = S (hu - lw)) by apply L.
    destruct (fast_encodeRuns_spec t T ltac:(rewrite Hx; exact L) Hpl) as (t' & Ht' & L' & _).
    rewrite Ht'. rewrite Hx, E1 in L'. exists t'.
    split; auto. split; [|rewrite xcompress_sel; auto].
    assert (R := fast_reps _ _ _ L'). destruct L' as (_ & W & EH & _). rewrite Nat.sub_succ, Nat.sub_0_r in W.
    split; [exact EH|]. split; auto.
  - exists t. split; auto. split; [|auto].
    assert (R := fast_reps _ _ _ L). destruct L as (_ & W & EH & _). rewrite Nat.sub_succ, Nat.sub_0_r in W.
    split; [exact EH|]. split; auto.
Qed.

(** * Leaves are not empty *)

Lemma unit_inhabited : forall t, inhabited 0 umem t.
Proof. intros t a _ p _. exists p. assert (G := pow2_pos 0). split; [lia|reflexivity]. Qed.

Lemma tree_of_leaves_ne : forall A (mk : list N -> A) lg d s a, s <> [] -> In a (leaves (tree_of mk lg d s)) ->
  exists s', s' <> [] /\ a = mk s'.
Proof.
  intros A mk lg. induction d; intros s a Hs H; cbn [tree_of] in H.
  - destruct H as [<-|[]]. eauto.
  - destruct (Groups.lefts _ s) eqn:E1, (Groups.rights _ s) eqn:E2; cbn [leaves] in H;
      try (apply in_app_or in H; destruct H as [H|H]).
    + exfalso. apply Hs. destruct s as [|x s]; auto. exfalso.
      unfold Groups.lefts, Groups.rights in *. cbn [filter] in E1, E2.
      destruct (N.testbit x _); cbn [negb] in *; discriminate.
    + apply (IHd (n :: l)); auto. discriminate.
    + apply (IHd (n :: l)); auto. discriminate.
    + apply (IHd (n :: l)); auto. discriminate.
    + apply (IHd (n0 :: l0)); auto. discriminate.
Qed.

Lemma word_inhabited : forall lw s p, s <> [] -> aligned lw p ->
  exists y, (p <= y < p + pow2 lw)%N /\ wmem lw (word_of lw s) y = true.
Proof.
  intros lw s p Hs Ha. destruct s as [|x s]; [congruence|].
  set (i := N.land x (N.ones (N.of_nat lw))).
  assert (Hi : (i < pow2 lw)%N) by (apply low_lt).
  exists (p + i)%N. split; [lia|]. unfold wmem. rewrite testbit_word_of by apply low_lt.
  apply existsb_exists. exists x. split; [left; auto|]. apply N.eqb_eq.
  rewrite (low_bits lw p) by (auto; lia). unfold i. lia.
Qed.

Lemma fast_inhabited : forall lw d enc s, s <> [] -> inhabited lw (wmem lw) (fast_tree lw d enc s).
Proof.
  intros lw d enc s Hs a Hin p Ha.
  assert (Hin' : In a (leaves (tree_of (word_of lw) lw d s))).
  { unfold fast_tree in Hin. destruct enc; auto. unfold xcompress in Hin. apply compress_leaves in Hin. auto. }
  apply tree_of_leaves_ne in Hin'; auto. destruct Hin' as (s' & Hs' & ->). apply word_inhabited; auto.
Qed.

(** * The calls by prefixes *)

Lemma sel_In : forall A (lmem : A -> N -> bool) b t s, sel lmem b t 0 = s ->
  forall x, In x s <-> (x < pow2 b)%N /\ mem lmem b t x = true.
Proof.
  intros A lmem b t s <- x. unfold sel. rewrite filter_In, In_nrange, of_nat_pow2.
  split; intros (H1 & H2); split; auto; lia.
Qed.

Lemma same_block_lt : forall b d x y, b <= d -> (x < pow2 d)%N -> (y / pow2 b = x / pow2 b)%N -> (y < pow2 d)%N.
Proof.
  intros b d x y Hb Hx E. assert (Ed : pow2 d = (pow2 (d - b) * pow2 b)%N).
  { unfold pow2. rewrite <- N.pow_add_r. f_equal. lia. }
  assert (G := pow2_nz b). assert (Hq : (x / pow2 b < pow2 (d - b))%N).
  { apply N.div_lt_upper_bound; auto. rewrite N.mul_comm, <- Ed. auto. }
  assert (Ey := N.div_mod' y (pow2 b)). assert (My := N.mod_lt y (pow2 b) G). rewrite Ed. rewrite E in Ey. nia.
Qed.

Lemma same_heights : forall Ts maxLevel, 1 <= length Ts -> (forall T, In T Ts -> t_height T = maxLevel) ->
  exists T0, vget Ts 0 = Ok T0 /\ t_height T0 = maxLevel /\ same_height maxLevel Ts = true.
Proof.
  intros [|T0 Ts] h Hn H; [cbn in Hn; lia|]. exists T0. split; auto. split.
  - apply H. left; auto.
  - unfold same_height. apply forallb_forall. intros T HT. apply Nat.eqb_eq. auto.
Qed.

Section Prefixes.
  Context {A : Type}.
  Variable lok : trie_ops -> nat -> A -> Prop.
  Variable lmem : A -> N -> bool.
  Variable lg D maxLevel : nat.
  Variable k : kind.
  Variable Ts : list trie_ops.
  Variable ts : list (tree A).
  Variable item : Type.
  Variable items : list item.
  Variable ss : item -> list N.
  Variable Rn : item -> nat -> N -> Prop.
  Variable noroot : bool.
  Hypothesis HR : Forall2 (repr lok D maxLevel) Ts ts.
  Hypothesis HI : Forall2 (fun t x => sel lmem (D + lg) t 0 = ss x /\ inhabited lg lmem t /\
    forall j q, j < D -> (q < pow2 (D + lg))%N -> (runat lg j D t q = true <-> Rn x j q)) ts items.
  Hypothesis Hn : 1 <= length Ts <= 16.
  Hypothesis Hend : forall lvl, lvl <= D -> at_end k maxLevel lvl = (lvl =? D).
  Hypothesis Htot : total_bits k maxLevel = D + lg.
  Hypothesis Hbits : D + lg < 64.
  Hypothesis HDm : D <= maxLevel.
  Hypothesis Hlast : forall lvl, lvl < D -> S lvl = maxLevel -> noroot = true /\ S lvl = D.
  Hypothesis Hleaf : forall active roots X p r,
    (forall i, i < length Ts -> active i = Ok (is_some (X i))) ->
    okf Ts (leafok lok Ts) noroot 0 D roots X -> aligned lg p ->
    and_leaf k Ts (length Ts) active roots p r = Ok (r ++ inter lmem lg (length Ts) 0 X p).
  Variable hc : N.
  Hypothesis Hhc : (1 <= hc)%N.
  Variable runs : bool.
  Hypothesis Hpl : runs = false -> Forall plain ts.

  Lemma calls_visits : exists r, Intersect_calls k hc Ts runs =
    Ok (r, visits lg (length Ts) D (forest_of ts) 0 0%N).
  Proof.
    assert (Hs := inst_somes lok D maxLevel Ts ts HR).
    assert (HX := inst_okf lok D maxLevel Ts ts HR noroot ltac:(lia)).
    assert (Hh := inst_heights lok D maxLevel Ts ts HR).
    unfold Intersect_calls.
    destruct (same_heights Ts maxLevel ltac:(lia) Hh) as (T0 & -> & E1 & E2).
    cbn [bind]. rewrite E1, E2. cbn [negb].
    replace (N.eqb hc 0) with false by (symmetry; apply N.eqb_neq; lia). destruct runs.
    - apply (runsAND_calls_spec k Ts maxLevel lmem lg D (leafok lok Ts) noroot ltac:(lia) Hend Htot Hbits Hlast Hleaf
               D 0 init_roots init_active (forest_of ts) 0%N [] [] (S maxLevel)); auto using aligned_0; try lia.
      intros i Hi. rewrite (aget_Some _ _ _ true).
      + specialize (Hs i Hi). destruct (forest_of ts i); auto. congruence.
      + apply nth_error_repeat. lia.
    - destruct (AND_calls_spec k Ts maxLevel lmem lg D (leafok lok Ts) noroot ltac:(lia) ltac:(lia) Hend Htot Hbits Hlast Hleaf
               D 0 init_roots (forest_of ts) 0%N [] [] (S maxLevel)) as (r & fl & ->); auto using aligned_0; try lia.
      { eapply inst_plains; eauto. }
      cbn [bind]. eauto.
  Qed.

  Lemma some_tree : forall i, i < length Ts -> exists t x, nth_error ts i = Some t /\ nth_error items i = Some x.
  Proof.
    intros i Hi. rewrite (inst_length _ _ _ _ _ HR) in Hi.
    destruct (nth_error ts i) as [t|] eqn:E; [|apply nth_error_None in E; lia].
    destruct (Forall2_nth _ _ _ _ _ _ _ HI E) as (x & Ex & _). eauto.
  Qed.

  Lemma tree_at : forall i x, nth_error items i = Some x -> exists t, i < length Ts /\ nth_error ts i = Some t /\ wf D t /\
    sel lmem (D + lg) t 0 = ss x /\ inhabited lg lmem t /\
    forall j q, j < D -> (q < pow2 (D + lg))%N -> (runat lg j D t q = true <-> Rn x j q).
  Proof.
    intros i x E. assert (Hi : i < length ts).
    { rewrite (Forall2_length HI). apply nth_error_Some. congruence. }
    destruct (nth_error ts i) as [t|] eqn:Et; [|apply nth_error_None in Et; lia].
    destruct (Forall2_nth _ _ _ _ _ _ _ HI Et) as (x' & Ex & H). rewrite E in Ex. injection Ex as <-.
    exists t. split; [rewrite (inst_length _ _ _ _ _ HR); auto|]. split; auto. split; auto.
    destruct (inst_nth lok D maxLevel Ts ts HR i t Et) as (_ & W & _). auto.
  Qed.

  Lemma item_at : forall i t, nth_error ts i = Some t -> exists x, nth_error items i = Some x /\ wf D t /\
    sel lmem (D + lg) t 0 = ss x /\ inhabited lg lmem t /\
    forall j q, j < D -> (q < pow2 (D + lg))%N -> (runat lg j D t q = true <-> Rn x j q).
  Proof.
    intros i t Et. destruct (Forall2_nth _ _ _ _ _ _ _ HI Et) as (x & Ex & H). exists x. split; auto.
    destruct (inst_nth lok D maxLevel Ts ts HR i t Et) as (_ & W & _). auto.
  Qed.

  Lemma reach_prefix : forall j t x b q, wf D t -> sel lmem (D + lg) t 0 = ss x -> inhabited lg lmem t ->
    j <= D -> b = D + lg - j -> (q * pow2 b < pow2 (D + lg))%N ->
    (reach lg j D t (q * pow2 b) = true <-> prefix_of_member (ss x) b q).
  Proof.
    intros j t x b q W E I Hj -> Hq. rewrite (reach_member lg 0 lmem j t D _ W I Hj).
    assert (Hdiv : (q * pow2 (D + lg - j) / pow2 (D + lg - j) = q)%N) by (apply N.div_mul, pow2_nz).
    unfold prefix_of_member. split.
    - intros (y & Ey & My). exists y. fold (pow2 (D + lg - j)). split; [|congruence].
      apply (sel_In _ _ _ _ _ E). split; auto. eapply same_block_lt; [|exact Hq|exact Ey]. lia.
    - intros (y & Iy & Ey). fold (pow2 (D + lg - j)) in Ey. exists y. split; [congruence|].
      apply (sel_In _ _ _ _ _ E) in Iy. tauto.
  Qed.

  Definition called (m : nat) (p : N) : Prop :=
    exists b q, call_at (D + lg) m p b q /\ lg <= b /\ common_prefix (map ss items) b q /\
      (m = 0 \/ ~ Forall (fun x => Rn x (pred m) p) items).

  Lemma visited_called : forall m p, visited lg (length Ts) D (forest_of ts) 0 0%N m p <-> called m p.
  Proof.
    intros m p. unfold visited, called, call_at, common_prefix. split.
    - intros (j & Hj & -> & Ha & Hp & Hr & Ho). cbn [Nat.add] in *. apply aligned_ex in Ha. destruct Ha as (q & ->).
      exists (D - j + lg), q. split; [split; [lia|reflexivity]|]. split; [lia|]. split.
      + apply Forall_forall. intros s Hin. apply in_map_iff in Hin. destruct Hin as (x & <- & Hin).
        apply In_nth_error in Hin. destruct Hin as (i & Ei).
        destruct (tree_at i x Ei) as (t & Hi & Et & W & E & I & _).
        apply (reach_prefix j t x (D - j + lg) q); auto; try lia. apply (Hr i); auto.
      + destruct Ho as [Ho|(i & t & Hi & Et & Hru)]; [auto|]. destruct j as [|j]; [auto|]. right. cbn [pred] in *.
        intros F. destruct (item_at i t Et) as (x & Ex & W & E & I & HRn). rewrite Forall_forall in F.
        assert (Fx := F x (nth_error_In _ _ Ex)). apply HRn in Fx; [congruence|lia|lia].
    - intros (b & q & (Hb & ->) & Hlb & Hc & Ho). fold (pow2 b). exists m. split; [lia|]. split; [lia|].
      replace (D - m + lg) with b by lia. split; [apply aligned_ex; eauto|].
      assert (Hq : (q * pow2 b < pow2 (D + lg))%N).
      { destruct (some_tree 0 ltac:(lia)) as (t & x & Et & Ex).
        destruct (tree_at 0 x Ex) as (t' & _ & _ & _ & E & _).
        rewrite Forall_forall in Hc. destruct (Hc (ss x)) as (y & Iy & Ey).
        { apply in_map. eapply nth_error_In; eauto. }
        apply (sel_In _ _ _ _ _ E) in Iy. destruct Iy as (Iy & _). fold (pow2 b) in Ey.
        assert (G := pow2_nz b). assert (Hm := N.mul_div_le y (pow2 b) G). rewrite <- Ey in Hm. nia. }
      split; [lia|]. split.
      + intros i t Hi Et. destruct (item_at i t Et) as (x & Ex & W & E & I & _).
        apply (reach_prefix m t x b q); auto; try lia.
        rewrite Forall_forall in Hc. apply Hc, in_map. eapply nth_error_In; eauto.
      + destruct Ho as [Ho|Ho]; [auto|]. destruct m as [|m]; [auto|]. right. cbn [pred] in *.
        destruct (forallb (fun t => runat lg m D t (q * pow2 b)) ts) eqn:EF.
        * destruct Ho. apply Forall_forall. intros x Hin. apply In_nth_error in Hin. destruct Hin as (i & Ei).
          destruct (tree_at i x Ei) as (t & Hi & Et & W & E & I & HRn). apply HRn; auto; try lia.
          rewrite forallb_forall in EF. apply EF. eapply nth_error_In; eauto.
        * assert (Hex : exists t, In t ts /\ runat lg m D t (q * pow2 b) = false).
          { clear -EF. induction ts as [|t l IH]; [discriminate|]. cbn [forallb] in EF.
            destruct (runat lg m D t (q * pow2 b)) eqn:Er; [|exists t; split; [left|]; auto].
            destruct (IH EF) as (t' & Hin & E'). exists t'. split; [right|]; auto. }
          destruct Hex as (t & Hin & Er). apply In_nth_error in Hin. destruct Hin as (i & Ei).
          exists i, t. split; auto. rewrite (inst_length _ _ _ _ _ HR). apply nth_error_Some. congruence.
  Qed.

  Theorem calls_prefixes : exists r c, Intersect_calls k hc Ts runs = Ok (r, c) /\ NoDup c /\
    forall m p, In (m, p) c <-> called m p.
  Proof.
    destruct calls_visits as (r & E). exists r, (visits lg (length Ts) D (forest_of ts) 0 0%N).
    split; auto. split; [apply visits_NoDup|]. intros m p. rewrite visits_In.
    - apply visited_called.
    - intros i t Hi Et. destruct (inst_nth lok D maxLevel Ts ts HR i t Et) as (_ & W & _). auto.
    - apply aligned_0.
  Qed.
End Prefixes.

(** * Where the tries have runs *)

Lemma runat_last : forall A lfull lg d (t : tree A) x, wf (S d) t -> plain t ->
  runat lg d (S d) (compress lfull true t) x =
  match d with O => false | S e => runat lg e (S d) (compress lfull true t) x end.
Proof.
  intros A lfull lg. induction d as [|d IH]; intros t x W P.
  - destruct t as [a| |l|r|l r]; cbn [wf plain] in *; try tauto; cbn [compress runat]; auto.
    destruct W as (_ & W1 & W2). apply wf_leaf in W1, W2. destruct W1 as (a & ->), W2 as (b & ->).
    cbn [is_leaf andb negb]. rewrite andb_false_r. reflexivity.
  - destruct t as [a| |l|r|l r]; cbn [wf plain] in *; try tauto; cbn [compress runat pred].
    + cbn [wf] in W. discriminate.
    + destruct W as (_ & W). cbn [pred] in W. rewrite IH by auto. destruct d; auto.
      destruct (N.testbit x _); auto.
    + destruct W as (_ & W). cbn [pred] in W. rewrite IH by auto. destruct d; auto.
      destruct (N.testbit x _); auto.
    + destruct W as (_ & W1 & W2). cbn [pred] in *. destruct P as (P1 & P2).
      match goal with |- context [if ?b then Full else _] => destruct b end; [destruct d; auto|].
      cbn [runat pred]. rewrite !IH by auto. destruct d; auto.
      destruct (N.testbit x _); auto.
Qed.

Lemma block_full_mem : forall A (lmem : A -> N -> bool) d t s b x, sel lmem d t 0 = s -> b <= d -> (x < pow2 d)%N ->
  ((forall y, (y / pow2 b = x / pow2 b)%N -> mem lmem d t y = true) <-> block_full s b x).
Proof.
  intros A lmem d t s b x E Hb Hx. unfold block_full. fold (pow2 b). split; intros H y Ey.
  - apply (sel_In _ _ _ _ _ E). split; auto. eapply same_block_lt; eauto.
  - apply (sel_In _ _ _ _ _ E). auto.
Qed.

Lemma bin_runat : forall h enc s j q, 1 <= h -> wf h (bin_tree h enc s) ->
  sel umem (h + 0) (bin_tree h enc s) 0 = s ->
  j < h -> (q < pow2 (h + 0))%N ->
  (runat 0 j h (bin_tree h enc s) q = true <-> enc = true /\ block_full s (Nat.max 2 (h - j)) q).
Proof.
  intros h enc s j q Hh W E Hj Hq. unfold bin_tree in *.
  assert (Hpl : plain (tree_of unit_leaf 0 h s)) by apply tree_of_plain.
  destruct enc.
  2:{ rewrite runat_plain by auto. split; [discriminate|]. intros (? & _). discriminate. }
  set (T := tree_of unit_leaf 0 h s) in *. assert (W0 : wf h T) by apply tree_of_wf.
  assert (Hgen : forall j', j' + 2 <= h ->
    (runat 0 j' h (ucompress T) q = true <-> block_full s (h - j') q)).
  { intros j' Hj'. unfold ucompress in *.
    rewrite (runat_block ufull umem 0 j' _ h q W (unit_gaps _)); [|apply (compress_tight ufull true T h); auto; intros; lia|lia].
    rewrite (block_full_mem _ umem (h + 0) _ s (h + 0 - j') q E) by (auto; lia).
    replace (h + 0 - j') with (h - j') by lia. reflexivity. }
  assert (Hd : j + 2 <= h \/ j = h - 1) by lia. destruct Hd as [Hd| ->].
  - rewrite Hgen by auto. replace (Nat.max 2 (h - j)) with (h - j) by lia. tauto.
  - destruct h as [|h]; [lia|]. replace (S h - 1) with h by lia. replace (Nat.max 2 (S h - h)) with 2 by lia.
    unfold ucompress. rewrite runat_last by auto. destruct h as [|h].
    + split; [discriminate|]. intros (_ & H).
      assert (N : In ((q / pow2 2) * pow2 2 + 3)%N s).
      { apply H. fold (pow2 2). change (pow2 2) with 4%N. rewrite N.div_add_l by lia.
        change (3 / 4)%N with 0%N. lia. }
      apply (sel_In _ _ _ _ _ E) in N. destruct N as (N & _). change (pow2 (1 + 0)) with 2%N in N. change (pow2 2) with 4%N in N. lia.
    + fold (ucompress T). rewrite Hgen by lia. replace (S (S h) - h) with 2 by lia. tauto.
Qed.

Lemma fast_runat : forall lw d enc s j q, wf d (fast_tree lw d enc s) ->
  sel (wmem lw) (d + lw) (fast_tree lw d enc s) 0 = s ->
  j < d -> (q < pow2 (d + lw))%N ->
  (runat lw j d (fast_tree lw d enc s) q = true <-> enc = true /\ block_full s (d + lw - j) q).
Proof.
  intros lw d enc s j q W E Hj Hq. unfold fast_tree in *.
  assert (Hpl : plain (tree_of (word_of lw) lw d s)) by apply tree_of_plain.
  destruct enc.
  2:{ rewrite runat_plain by auto. split; [discriminate|]. intros (? & _). discriminate. }
  assert (W0 : wf d (tree_of (word_of lw) lw d s)) by apply tree_of_wf.
  rewrite (runat_block (xfull lw) (wmem lw) lw j _ d q W (words_gaps lw d s));
    [|apply (compress_tight (xfull lw) false _ d); auto; try lia; discriminate|lia].
  rewrite (block_full_mem _ (wmem lw) (d + lw) _ s (d + lw - j) q E) by (auto; lia). tauto.
Qed.

(** * How many calls *)

Lemma length_flat_map_const : forall X Y (f : X -> list Y) n l, (forall x, length (f x) = n) ->
  length (flat_map f l) = length l * n.
Proof. intros X Y f n l H. induction l; cbn; auto. rewrite app_length, H, IHl. auto. Qed.

Lemma calls_bound : forall D d (c : calls) s, NoDup c ->
  (forall m p, In (m, p) c -> m <= D /\ (m = 0 -> p = 0%N) /\ exists b q, call_at d m p b q /\ prefix_of_member s b q) ->
  length c <= 1 + D * length s.
Proof.
  intros D d c s Nd H.
  set (all := (0, 0%N) :: flat_map (fun m => map (fun x => (m, (x / 2 ^ N.of_nat (d - m) * 2 ^ N.of_nat (d - m))%N)) s) (seq 1 D)).
  assert (L : length all = 1 + D * length s).
  { unfold all. cbn [length]. rewrite (length_flat_map_const _ _ _ (length s)).
    - rewrite seq_length. reflexivity.
    - intros m. apply map_length. }
  rewrite <- L. apply NoDup_incl_length; auto. intros (m, p) Hin. destruct (H m p Hin) as (Hm & H0 & b & q & (Hb & ->) & x & Hx & ->).
  unfold all. destruct m as [|m].
  - left. rewrite H0; auto.
  - right. apply in_flat_map. exists (S m). split; [apply in_seq; lia|]. apply in_map_iff. exists x. split; auto.
    replace (d - S m) with b by lia. auto.
Qed.

Lemma top_prefix : forall d s b q p, below (2 ^ N.of_nat d) s -> call_at d 0 p b q -> prefix_of_member s b q -> p = 0%N.
Proof.
  intros d s b q p Hs (Hb & ->) (x & Hx & ->). assert (b = d) by lia. subst b.
  rewrite N.div_small; auto. unfold below in Hs. rewrite Forall_forall in Hs. auto.
Qed.

Theorem bin_calls : forall u (l : list bitem) runs s1 s2 hc,
  (2 <= u <= 2 ^ 48)%N -> 1 <= length l <= 16 -> Forall (bitem_ok u) l ->
  (runs = false -> Forall (fun x : bitem => snd (fst x) = false) l) -> (1 <= hc)%N ->
  exists Ts r c, each_ok (make_bitem u) l = Ok Ts /\
    Intersect_calls Bin hc (map bin_ops Ts) runs = Ok (r, c) /\
    Intersect Bin s1 s2 hc (map bin_ops Ts) runs false = Ok r /\ is_intersection (map snd l) r /\
    NoDup c /\
    (forall m p, In (m, p) c <-> exists b q, call_at (digits u) m p b q /\ common_prefix (map snd l) b q /\
       (m = 0 \/ ~ Forall (fun x => bin_run x b p) l)) /\
    Forall (fun s => length c <= 1 + digits u * length s) (map snd l).
Proof.
  intros u l runs s1 s2 hc Hu Hn Hl Hr Hhc.
  destruct (height_of_spec u Hu) as (h & Hh & H1 & Hp & H2 & _).
  destruct (each_ok_spec _ _ (make_bitem u) (fun x t => exists T, T = bin_tree h (snd (fst x)) (snd x) /\
    repr lok_bin h h (bin_ops t) T /\ sel umem (h + 0) T 0 = snd x) l) as (Ts & E & HT).
  { eapply Forall_impl; [|exact Hl]. intros [[v e] s] Hx.
    destruct (bin_make_tree u h v e s Hh Hu H1 Hp H2 Hx) as (t & ? & ? & ?). exists t. split; eauto. }
  apply Forall2_split in HT. destruct HT as (ts & HA & HB).
  assert (HR : Forall2 (repr lok_bin h h) (map bin_ops Ts) ts).
  { apply Forall2_map_l. eapply Forall2_impl; [|exact HA]. cbn. intros t T (x & _ & _ & ? & _). auto. }
  assert (HS : Forall2 (fun t s => sel umem (h + 0) t 0 = s) ts (map snd l)).
  { apply Forall2_map_r. eapply Forall2_impl; [|exact HB]. cbn. intros T x (t & _ & _ & ?). auto. }
  assert (HI : Forall2 (fun t x => sel umem (h + 0) t 0 = snd x /\ inhabited 0 umem t /\
    forall j q, j < h -> (q < pow2 (h + 0))%N -> (runat 0 j h t q = true <-> bin_run x (h - S j) q)) ts l).
  { eapply Forall2_impl; [|exact HB]. cbn. intros T x (t & -> & (_ & W & _) & Es). split; auto.
    split; [apply unit_inhabited|]. intros j q Hj Hq. rewrite bin_runat by (auto; lia). unfold bin_run.
    replace (S (h - S j)) with (h - j) by lia. reflexivity. }
  assert (Hpl : runs = false -> Forall plain ts).
  { intros Hf. specialize (Hr Hf). apply Forall_forall. intros T HTi. apply In_nth_error in HTi. destruct HTi as (i & Ei).
    destruct (Forall2_nth _ _ _ _ _ _ _ HB Ei) as (x & Ex & (t & -> & _)).
    rewrite Forall_forall in Hr. rewrite (Hr x) by (eapply nth_error_In; eauto). apply tree_of_plain. }
  assert (Ln : length (map bin_ops Ts) = length l).
  { rewrite (Forall2_length HR), (Forall2_length HS), map_length. auto. }
  destruct (bin_seq h H1 (map bin_ops Ts) ts (map snd l) ltac:(lia) HR HS runs Hpl hc Hhc
              s1 s2 false eq_refl) as (r & Er & HIr).
  destruct (calls_prefixes lok_bin umem 0 h h Bin (map bin_ops Ts) ts bitem l snd (fun x j => bin_run x (h - S j)) true
    HR HI ltac:(lia) (bin_end h) (bin_tot h) ltac:(lia) ltac:(lia) (bin_last h) (bin_leaf h (map bin_ops Ts))
    hc Hhc runs Hpl) as (r' & c & Ec & Nd & Hc).
  assert (Ed := height_digits u h ltac:(lia) Hh). rewrite <- Ed in *.
  assert (EI := Intersect_erase Bin s1 s2 hc (map bin_ops Ts) runs). rewrite Ec in EI. cbn [drop bind] in EI.
  assert (Er' : Intersect Bin s1 s2 hc (map bin_ops Ts) runs false = Ok r) by (unfold Intersect; rewrite Er; auto).
  assert (r' = r) by congruence. subst r'.
  assert (Hin : forall m p, In (m, p) c <-> exists b q, call_at h m p b q /\ common_prefix (map snd l) b q /\
       (m = 0 \/ ~ Forall (fun x => bin_run x b p) l)).
  { intros m p. rewrite Hc. unfold called. rewrite Nat.add_0_r.
    split; intros (b & q & Hca & H).
    - exists b, q. split; auto. destruct H as (_ & Hcp & Ho). split; auto. destruct Ho as [Ho|Ho]; auto.
      destruct m as [|m]; auto. right. cbn [pred] in Ho. destruct Hca as (Hb & _).
      replace (h - S m) with b in Ho by lia. auto.
    - exists b, q. split; auto. split; [lia|]. destruct H as (Hcp & Ho). split; auto. destruct Ho as [Ho|Ho]; auto.
      destruct m as [|m]; auto. right. cbn [pred]. destruct Hca as (Hb & _).
      replace (h - S m) with b by lia. auto. }
  exists Ts, r, c. repeat (split; [assumption|]).
  apply Forall_forall. intros s Hs. apply (calls_bound h h); auto. intros m p Hmp.
  apply Hin in Hmp. destruct Hmp as (b & q & Hca & Hcp & _). assert (Hca' := Hca). destruct Hca' as (Hb & Ep).
  split; [lia|]. unfold common_prefix in Hcp. rewrite Forall_forall in Hcp. specialize (Hcp s Hs). split.
  - intros ->. apply (top_prefix h s b q); auto. apply in_map_iff in Hs. destruct Hs as (x & <- & Hx).
    rewrite Forall_forall in Hl. destruct (Hl x Hx) as ((_ & Hbl & _) & _).
    unfold below in *. eapply Forall_impl; [|exact Hbl]. intros y Hy. exact (N.lt_le_trans _ _ _ Hy Hp).
  - eauto.
Qed.

Theorem fast_calls : forall u lw (l : list fitem) runs s1 s2 hc,
  fast_universe u lw -> 1 <= length l <= 16 -> Forall (fitem_ok u) l ->
  (runs = false -> Forall (fun x => f_enc x = false) l) -> (1 <= hc)%N ->
  exists Ts r c, each_ok (make_fitem u lw) l = Ok Ts /\
    Intersect_calls (Fast lw) hc (map fast_ops Ts) runs = Ok (r, c) /\
    Intersect (Fast lw) s1 s2 hc (map fast_ops Ts) runs false = Ok r /\ is_intersection (map snd l) r /\
    NoDup c /\
    (forall m p, In (m, p) c <-> exists b q, call_at (digits u) m p b q /\ lw <= b /\ common_prefix (map snd l) b q /\
       (m = 0 \/ ~ Forall (fun x => fast_run x b p) l)) /\
    Forall (fun s => length c <= 1 + (digits u - lw) * length s) (map snd l).
Proof.
  intros u lw l runs s1 s2 hc (Hlw & Hu) Hn Hl Hr Hhc.
  assert (H8 : (2 ^ N.of_nat 3 <= 2 ^ N.of_nat lw)%N).
  { apply N.pow_le_mono_r; [lia|]. cbn in Hlw. lia. }
  change (2 ^ N.of_nat 3)%N with 8%N in H8.
  destruct (height_of_spec u ltac:(lia)) as (h & Hh & H1 & Hp & H2 & Hk).
  assert (Hlh : lw <= h).
  { destruct lw as [|lw]; [lia|]. change (2 ^ N.of_nat (S lw))%N with (pow2 (S lw)) in Hu.
    rewrite pow2_S in Hu. assert (lw < h) by (apply Hk; lia). lia. }
  assert (H6 : lw <= 6) by (cbn in Hlw; lia).
  assert (Eh : h - lw + lw = h) by lia. set (d := h - lw) in *.
  destruct (each_ok_spec _ _ (make_fitem u lw) (fun x t => exists T, T = fast_tree lw d (f_enc x) (snd x) /\
    repr lok_fast d (S d) (fast_ops t) T /\ sel (wmem lw) (d + lw) T 0 = snd x /\ snd x <> []) l) as (Ts & E & HT).
  { eapply Forall_impl; [|exact Hl]. intros [[[jh je] e] s] Hx.
    destruct (fast_make_tree u h lw jh je e s Hh H6 Hlh ltac:(lia) Hp Hx) as (t & ? & ? & ?). exists t. split; auto.
    destruct Hx as (Hne & _). eauto 6. }
  apply Forall2_split in HT. destruct HT as (ts & HA & HB).
  assert (HR : Forall2 (repr lok_fast d (S d)) (map fast_ops Ts) ts).
  { apply Forall2_map_l. eapply Forall2_impl; [|exact HA]. cbn. intros t T (x & _ & _ & ? & _). auto. }
  assert (HS : Forall2 (fun t s => sel (wmem lw) (d + lw) t 0 = s) ts (map snd l)).
  { apply Forall2_map_r. eapply Forall2_impl; [|exact HB]. cbn. intros T x (t & _ & _ & ? & _). auto. }
  assert (HI : Forall2 (fun t x => sel (wmem lw) (d + lw) t 0 = snd x /\ inhabited lw (wmem lw) t /\
    forall j q, j < d -> (q < pow2 (d + lw))%N -> (runat lw j d t q = true <-> fast_run x (h - S j) q)) ts l).
  { eapply Forall2_impl; [|exact HB]. cbn. intros T x (t & -> & (_ & W & _) & Es & Hne). split; auto.
    split; [apply fast_inhabited; auto|]. intros j q Hj Hq. rewrite fast_runat by auto. unfold fast_run.
    replace (S (h - S j)) with (d + lw - j) by lia. reflexivity. }
  assert (Hpl : runs = false -> Forall plain ts).
  { intros Hf. specialize (Hr Hf). apply Forall_forall. intros T HTi. apply In_nth_error in HTi. destruct HTi as (i & Ei).
    destruct (Forall2_nth _ _ _ _ _ _ _ HB Ei) as (x & Ex & (t & -> & _)).
    rewrite Forall_forall in Hr. rewrite (Hr x) by (eapply nth_error_In; eauto). apply tree_of_plain. }
  assert (Ln : length (map fast_ops Ts) = length l).
  { rewrite (Forall2_length HR), (Forall2_length HS), map_length. auto. }
  destruct (fast_seq lw d H6 ltac:(lia) (map fast_ops Ts) ts (map snd l) ltac:(lia) HR HS runs Hpl hc Hhc
              s1 s2 false eq_refl) as (r & Er & HIr).
  destruct (calls_prefixes lok_fast (wmem lw) lw d (S d) (Fast lw) (map fast_ops Ts) ts fitem l snd (fun x j => fast_run x (h - S j)) false
    HR HI ltac:(lia) (fast_end lw d) (fast_tot lw d) ltac:(lia) ltac:(lia) (fast_last d) (fast_leaf lw d H6 (map fast_ops Ts))
    hc Hhc runs Hpl) as (r' & c & Ec & Nd & Hc).
  assert (Ed := height_digits u h ltac:(lia) Hh). rewrite <- Ed in *. rewrite Eh in *.
  assert (EI := Intersect_erase (Fast lw) s1 s2 hc (map fast_ops Ts) runs). rewrite Ec in EI. cbn [drop bind] in EI.
  assert (Er' : Intersect (Fast lw) s1 s2 hc (map fast_ops Ts) runs false = Ok r) by (unfold Intersect; rewrite Er; auto).
  assert (r' = r) by congruence. subst r'.
  assert (Hin : forall m p, In (m, p) c <-> exists b q, call_at h m p b q /\ lw <= b /\ common_prefix (map snd l) b q /\
       (m = 0 \/ ~ Forall (fun x => fast_run x b p) l)).
  { intros m p. rewrite Hc. unfold called. rewrite Eh.
    split; intros (b & q & Hca & Hb & Hcp & Ho); exists b, q; split; auto; split; auto; split; auto;
      (destruct Ho as [Ho|Ho]; auto); (destruct m as [|m]; auto); right; cbn [pred] in *; destruct Hca as (Hb' & _);
      replace (h - S m) with b in * by lia; auto. }
  exists Ts, r, c. split; auto. split; auto. split; auto. split; auto. split; auto. split; auto.
  apply Forall_forall. intros s Hs. apply (calls_bound d h); auto. intros m p Hmp.
  apply Hin in Hmp. destruct Hmp as (b & q & Hca & Hlb & Hcp & _). assert (Hca' := Hca). destruct Hca' as (Hb & Ep).
  split; [lia|]. unfold common_prefix in Hcp. rewrite Forall_forall in Hcp. specialize (Hcp s Hs). split.
  - intros ->. apply (top_prefix h s b q); auto. apply in_map_iff in Hs. destruct Hs as (x & <- & Hx).
    rewrite Forall_forall in Hl. destruct (Hl x Hx) as (_ & _ & Hbl & _).
    unfold below in *. eapply Forall_impl; [|exact Hbl]. intros y Hy. exact (N.lt_le_trans _ _ _ Hy Hp).
  - eauto.
Qed.

(** * Without runs *)

Lemma no_bin_run : forall (l : list bitem) b p, 1 <= length l ->
  Forall (fun x : bitem => snd (fst x) = false) l -> ~ Forall (fun x => bin_run x b p) l.
Proof.
  intros [|x l] b p Hn H F; [cbn in Hn; lia|]. rewrite Forall_cons_iff in H, F.
  destruct F as ((F & _) & _), H as (H & _). congruence.
Qed.

Lemma no_fast_run : forall (l : list fitem) b p, 1 <= length l ->
  Forall (fun x => f_enc x = false) l -> ~ Forall (fun x => fast_run x b p) l.
Proof.
  intros [|x l] b p Hn H F; [cbn in Hn; lia|]. rewrite Forall_cons_iff in H, F.
  destruct F as ((F & _) & _), H as (H & _). congruence.
Qed.

Theorem bin_calls_plain : forall u (l : list bitem) runs s1 s2 hc,
  (2 <= u <= 2 ^ 48)%N -> 1 <= length l <= 16 -> Forall (bitem_ok u) l ->
  Forall (fun x : bitem => snd (fst x) = false) l -> (1 <= hc)%N ->
  exists Ts r c, each_ok (make_bitem u) l = Ok Ts /\
    Intersect_calls Bin hc (map bin_ops Ts) runs = Ok (r, c) /\
    Intersect Bin s1 s2 hc (map bin_ops Ts) runs false = Ok r /\ is_intersection (map snd l) r /\
    NoDup c /\
    forall m p, In (m, p) c <-> exists b q, call_at (digits u) m p b q /\ common_prefix (map snd l) b q.
Proof.
  intros u l runs s1 s2 hc Hu Hn Hl Hpl Hhc.
  destruct (bin_calls u l runs s1 s2 hc Hu Hn Hl (fun _ => Hpl) Hhc) as (Ts & r & c & H1 & H2 & H3 & H4 & H5 & H6 & _).
  exists Ts, r, c. repeat (split; [assumption|]). intros m p. rewrite H6.
  split; intros (b & q & Hc & Hp); exists b, q; [tauto|]. split; auto. split; auto. right. apply no_bin_run; auto; lia.
Qed.

Theorem fast_calls_plain : forall u lw (l : list fitem) runs s1 s2 hc,
  fast_universe u lw -> 1 <= length l <= 16 -> Forall (fitem_ok u) l ->
  Forall (fun x => f_enc x = false) l -> (1 <= hc)%N ->
  exists Ts r c, each_ok (make_fitem u lw) l = Ok Ts /\
    Intersect_calls (Fast lw) hc (map fast_ops Ts) runs = Ok (r, c) /\
    Intersect (Fast lw) s1 s2 hc (map fast_ops Ts) runs false = Ok r /\ is_intersection (map snd l) r /\
    NoDup c /\
    forall m p, In (m, p) c <-> exists b q, call_at (digits u) m p b q /\ lw <= b /\ common_prefix (map snd l) b q.
Proof.
  intros u lw l runs s1 s2 hc Hu Hn Hl Hpl Hhc.
  destruct (fast_calls u lw l runs s1 s2 hc Hu Hn Hl (fun _ => Hpl) Hhc) as (Ts & r & c & H1 & H2 & H3 & H4 & H5 & H6 & _).
  exists Ts, r, c. repeat (split; [assumption|]). intros m p. rewrite H6.
  split; intros (b & q & Hc & Hp); exists b, q; [tauto|]. destruct Hp as (Hb & Hp).
  split; auto. split; auto. split; auto. right. apply no_fast_run; auto; lia.
Qed.
