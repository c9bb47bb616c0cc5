(** The trie of any list is the trie of the set of values it keeps. *)

From Verif Require Import Base Split FlatTrie LevelTrie FastTrie Tries Facts Tree Groups Reps Layout
  BuildFlat BuildLevel BuildFast WordBits DecodeFast RoundTrip RoundTripFacts Spec SpecTries SpecOrder
  KeepOrder InterThms KeepThms RunsThms.

Section Same.
  Context {A : Type}.
  Variable mkleaf : list N -> A.
  Variable lmem : A -> N -> bool.
  Variable lg : nat.
  Hypothesis leaf_mem : forall s x, s <> [] -> (x < pow2 lg)%N ->
    (lmem (mkleaf s) x = true <-> In x (map (fun y => y mod pow2 lg)%N s)).
  Hypothesis lmem_low : forall a x x',
    (forall i, (i < N.of_nat lg)%N -> N.testbit x i = N.testbit x' i) -> lmem a x = lmem a x'.
  Hypothesis leaf_ext : forall s r, s <> [] -> r <> [] ->
    (forall x, (x < pow2 lg)%N -> lmem (mkleaf s) x = lmem (mkleaf r) x) -> mkleaf s = mkleaf r.

  Let T := tree_of mkleaf lg.

  Let has (d : nat) (l : list N) (x : N) : bool :=
    match l with [] => false | _ :: _ => mem lmem (d + lg) (T d l) x end.

  Lemma tree_inhabited : forall d s, s <> [] ->
    exists x, (x < pow2 (d + lg))%N /\ mem lmem (d + lg) (T d s) x = true.
  Proof.
    intros d s Hne. assert (K := keep_nil lg d s Hne). unfold keep in K.
    destruct (scan lg d 0 s) as [|x r] eqn:E; [congruence|].
    assert (F := scan_lt lg d s 0). rewrite E in F. apply Forall_cons_iff in F. destruct F as (Hx & _).
    exists x. split; auto. apply tree_of_scan_mem; auto. rewrite E. left. auto.
  Qed.

  Theorem tree_of_same : forall d s r, s <> [] -> r <> [] ->
    (forall x, (x < pow2 (d + lg))%N -> mem lmem (d + lg) (T d s) x = mem lmem (d + lg) (T d r) x) ->
    T d s = T d r.
  Proof.
    induction d; intros s r Hs Hr H.
    - cbn [T tree_of] in *. f_equal. apply leaf_ext; auto.
    - cbn [Nat.add] in H. set (k := d + lg) in *.
      assert (LO : forall x, (x < pow2 k)%N -> N.testbit x (N.of_nat k) = false).
      { intros x Hx. apply testbit_big with (W := N.of_nat k); auto. lia. }
      assert (Rest : forall s x, s <> [] -> mem lmem (S k) (T (S d) s) x =
        if N.testbit x (N.of_nat k)
        then has d (rights k s) x
        else has d (lefts k s) x).
      { clear - mkleaf. intros s x Hne. unfold has. unfold T. cbn [tree_of]. fold k. generalize (lefts_rights k s).
        destruct (lefts k s), (rights k s); cbn [mem pred app]; intros E;
          try congruence; destruct (N.testbit x (N.of_nat k)); auto. }
      assert (HL : forall x, (x < pow2 k)%N ->
        has d (lefts k s) x =
        has d (lefts k r) x).
      { intros x Hx. assert (Q := H x ltac:(rewrite pow2_S; lia)). rewrite !Rest in Q by auto.
        rewrite LO in Q by auto. auto. }
      assert (HR : forall x, (x < pow2 k)%N ->
        has d (rights k s) x =
        has d (rights k r) x).
      { intros x Hx. destruct (testbit_plus_pow2 k x Hx) as (B1 & B2).
        assert (Q := H (pow2 k + x)%N ltac:(rewrite pow2_S; lia)). rewrite !Rest in Q by auto.
        rewrite B1 in Q.
        assert (Lw : forall l, mem lmem k (T d l) (pow2 k + x) = mem lmem k (T d l) x).
        { intros l. apply (mem_low lmem lg lmem_low d). { apply tree_of_wf. } auto. }
        unfold has in *. fold k in Q |- *. destruct (rights k s), (rights k r); rewrite ?Lw in Q; auto. }
      clear Rest LO H.
      assert (Same : forall a b : list N, (forall x, (x < pow2 k)%N ->
        has d a x =
        has d b x) ->
        (a = [] /\ b = []) \/ (a <> [] /\ b <> [] /\ T d a = T d b)).
      { intros [|a0 a] [|b0 b] Q.
        - left. auto.
        - destruct (tree_inhabited d (b0 :: b) ltac:(discriminate)) as (x & Hx & M). fold k in Hx, M.
          assert (Q' := Q x Hx). unfold has in Q'. fold k in Q'. congruence.
        - destruct (tree_inhabited d (a0 :: a) ltac:(discriminate)) as (x & Hx & M). fold k in Hx, M.
          assert (Q' := Q x Hx). unfold has in Q'. fold k in Q'. congruence.
        - right. split; [discriminate|]. split; [discriminate|]. apply IHd; auto; discriminate. }
      unfold T. cbn [tree_of]. fold k. fold T.
      assert (TT : forall l, tree_of mkleaf lg d l = T d l) by reflexivity.
      destruct (Same _ _ HL) as [(EL & EL')|(NL & NL' & EL)];
        destruct (Same _ _ HR) as [(ER & ER')|(NR & NR' & ER)].
      + rewrite EL, EL', ER, ER'. auto.
      + rewrite EL, EL'. change (TR (T d (rights k s)) = TR (T d (rights k r))). f_equal. auto.
      + rewrite ER, ER'. clear Same HL HR IHd. unfold T in EL.
        destruct (lefts k s), (lefts k r); congruence.
      + clear Same HL HR IHd. unfold T in EL, ER.
        destruct (lefts k s), (lefts k r), (rights k s), (rights k r); congruence.
  Qed.

  Lemma set_inhabited : forall d s, s <> [] -> sel lmem (d + lg) (T d s) 0 <> [].
  Proof.
    intros d s Hne E. destruct (tree_inhabited d s Hne) as (x & Hx & M).
    assert (I : In x (sel lmem (d + lg) (T d s) 0)).
    { unfold sel. rewrite filter_In, In_nrange, of_nat_pow2. split; auto. lia. }
    rewrite E in I. destruct I.
  Qed.

  (** Trees with the same members. *)
  Corollary tree_of_set : forall d s r, s <> [] -> sel lmem (d + lg) (T d s) 0 = r ->
    sel lmem (d + lg) (T d r) 0 = r -> T d s = T d r.
  Proof.
    intros d s r Hne E1 E2. apply tree_of_same; auto.
    { rewrite <- E1. apply set_inhabited. auto. }
    intros x Hx.
    assert (I : forall l, In x (sel lmem (d + lg) (T d l) 0) <-> mem lmem (d + lg) (T d l) x = true).
    { intros l. unfold sel. rewrite filter_In, In_nrange, of_nat_pow2. intuition lia. }
    apply eq_true_iff_eq. rewrite <- !I, E1, E2. tauto.
  Qed.
End Same.

Lemma unit_ext : forall s r, s <> [] -> r <> [] ->
  (forall x, (x < pow2 0)%N -> umem (unit_leaf s) x = umem (unit_leaf r) x) -> unit_leaf s = unit_leaf r.
Proof. reflexivity. Qed.

Lemma word_ext : forall lw s r, s <> [] -> r <> [] ->
  (forall x, (x < pow2 lw)%N -> wmem lw (word_of lw s) x = wmem lw (word_of lw r) x) ->
  word_of lw s = word_of lw r.
Proof.
  intros lw s r _ _ H. apply N.bits_inj. intros i. destruct (N.lt_ge_cases i (pow2 lw)) as [Hi|Hi].
  - assert (Q := H i Hi). unfold wmem in Q. rewrite N.land_ones in Q. fold (pow2 lw) in Q.
    rewrite N.mod_small in Q by auto. auto.
  - rewrite (testbit_big (word_of lw s) (pow2 lw)) by (auto using word_of_bound).
    rewrite (testbit_big (word_of lw r) (pow2 lw)) by (auto using word_of_bound). auto.
Qed.

Lemma set_shorter : forall k s r, is_set_of s r -> shorter k s -> shorter k r.
Proof.
  intros k s r (Hi & Hin) Hs. unfold shorter in *.
  assert (length r <= length s); [|lia].
  apply NoDup_incl_length.
  - clear - Hi. induction Hi; constructor; auto. intros I. rewrite Forall_forall in H. apply H in I. lia.
  - intros x. apply Hin.
Qed.

Lemma set_below : forall u s r, is_set_of s r -> below u s -> below u r.
Proof.
  intros u s r (_ & Hin) Hb. unfold below in *. rewrite Forall_forall in *. intros x Hx. apply Hb, Hin. auto.
Qed.

Lemma keep_below : forall lg d l, below (pow2 (d + lg)) (keep lg d l).
Proof. intros. apply scan_lt. Qed.

Lemma height_of_rounded : forall u, (2 <= u <= 2 ^ 48)%N -> height_of (rounded u) = height_of u.
Proof.
  intros u Hu. destruct (height_of_spec u Hu) as (h & Hh & Hr & _). rewrite Hh.
  rewrite (height_rounded u h ltac:(lia) Hh).
  assert (H2 : (2 <= pow2 h)%N).
  { destruct h as [|h]; [lia|]. rewrite pow2_S. assert (P := pow2_pos h). lia. }
  assert (H48 : (pow2 h <= 2 ^ 48)%N).
  { unfold pow2. apply N.pow_le_mono_r; lia. }
  destruct (height_of_spec (pow2 h)) as (h' & Hh' & Hr' & Hp & _ & Hk); auto.
  rewrite Hh'. f_equal.
  assert (Q := height_rounded (pow2 h) h' H2 Hh'). unfold rounded, pow2 in Q.
  rewrite N.log2_up_pow2 in Q by lia. apply N.pow_inj_r in Q; lia.
Qed.

Theorem flat_any_set : forall u l, (3 <= u <= 2 ^ 48)%N -> l <> [] -> shorter 32 l ->
  exists t s r, kept 1 0 (wrapped (rounded u) l) s /\ is_set_of s r /\ r <> [] /\ below (rounded u) r /\
    shorter 32 r /\ flat_build l u = Ok t /\ flat_build r (rounded u) = Ok t /\ flat_decode t [] = Ok r.
Proof.
  intros u l Hu Hne Hl. destruct (height_of_spec u ltac:(lia)) as (h & Hh & Hr & Hp & H2 & _).
  destruct (flat_build_layout l u h Hh) as (t & Ht & L & Hre & He); auto; try lia.
  set (s := keep 0 h l). set (r := sel umem h (tree_of unit_leaf 0 h l) 0).
  assert (S1 : is_set_of s r).
  { unfold r. replace (sel umem h) with (sel umem (h + 0)) by (f_equal; lia).
    apply sel_scan; auto. apply unit_leaf_mem. }
  assert (Sne : r <> []).
  { unfold r. replace (sel umem h) with (sel umem (h + 0)) by (f_equal; lia).
    apply (set_inhabited unit_leaf umem 0 unit_leaf_mem (fun _ _ _ _ => eq_refl) unit_ext). auto. }
  assert (ER := height_rounded u h ltac:(lia) Hh).
  assert (Sb : below (rounded u) r).
  { rewrite ER. apply (set_below _ s); auto. replace h with (h + 0) at 1 by lia. apply keep_below. }
  assert (Ss : shorter 32 r) by (apply (set_shorter 32 s); auto; apply keep_shorter; auto).
  assert (Hh' : height_of (rounded u) = Ok h) by (rewrite height_of_rounded by lia; auto).
  destruct (flat_build_layout r (rounded u) h Hh') as (t' & Ht' & L' & Hre' & He'); auto; try lia.
  assert (ET : tree_of unit_leaf 0 h l = tree_of unit_leaf 0 h r).
  { apply (tree_of_set unit_leaf umem 0 unit_leaf_mem (fun _ _ _ _ => eq_refl) unit_ext); auto.
    - rewrite Nat.add_0_r. reflexivity.
    - rewrite Nat.add_0_r. apply (sel_is_set (rounded u)); auto.
      + rewrite ER. lia.
      + apply S1. }
  rewrite <- ET in L'.
  assert (E : t = t').
  { eapply flat_same; eauto; try congruence.
    rewrite (flat_build_hwr _ _ _ Ht), (flat_build_hwr _ _ _ Ht'). auto. }
  subst t'. exists t, s, r. split; [|repeat (split; [assumption|])].
  - rewrite ER. rewrite <- pow2_0. replace h with (h + 0) at 1 by lia. apply keep_kept.
  - apply (flat_decode_plain t h (tree_of unit_leaf 0 h l) []); auto; try lia. apply tree_of_plain.
Qed.

Theorem level_any_set : forall il u l, (2 <= u <= 2 ^ 48)%N -> l <> [] -> shorter 64 l ->
  exists t s r, kept 1 0 (wrapped (rounded u) l) s /\ is_set_of s r /\ r <> [] /\ below (rounded u) r /\
    shorter 64 r /\ level_build il l u = Ok t /\ level_build il r (rounded u) = Ok t /\
    level_decode t [] = Ok r.
Proof.
  intros il u l Hu Hne Hl. destruct (height_of_spec u ltac:(lia)) as (h & Hh & Hr & Hp & H2 & _).
  destruct (level_build_layout il l u h Hh) as (t & Ht & L & Hre & He & Hi); auto; try lia.
  set (s := keep 0 h l). set (r := sel umem h (tree_of unit_leaf 0 h l) 0).
  assert (S1 : is_set_of s r).
  { unfold r. replace (sel umem h) with (sel umem (h + 0)) by (f_equal; lia).
    apply sel_scan; auto. apply unit_leaf_mem. }
  assert (Sne : r <> []).
  { unfold r. replace (sel umem h) with (sel umem (h + 0)) by (f_equal; lia).
    apply (set_inhabited unit_leaf umem 0 unit_leaf_mem (fun _ _ _ _ => eq_refl) unit_ext). auto. }
  assert (ER := height_rounded u h ltac:(lia) Hh).
  assert (Sb : below (rounded u) r).
  { rewrite ER. apply (set_below _ s); auto. replace h with (h + 0) at 1 by lia. apply keep_below. }
  assert (Ss : shorter 64 r) by (apply (set_shorter 64 s); auto; apply keep_shorter; auto).
  assert (Hh' : height_of (rounded u) = Ok h) by (rewrite height_of_rounded by lia; auto).
  destruct (level_build_layout il r (rounded u) h Hh') as (t' & Ht' & L' & Hre' & He' & Hi'); auto; try lia.
  assert (ET : tree_of unit_leaf 0 h l = tree_of unit_leaf 0 h r).
  { apply (tree_of_set unit_leaf umem 0 unit_leaf_mem (fun _ _ _ _ => eq_refl) unit_ext); auto.
    - rewrite Nat.add_0_r. reflexivity.
    - rewrite Nat.add_0_r. apply (sel_is_set (rounded u)); auto.
      + rewrite ER. lia.
      + apply S1. }
  rewrite <- ET in L'.
  assert (E : t = t').
  { eapply level_same; eauto; try congruence.
    rewrite (level_build_hwr _ _ _ _ Ht), (level_build_hwr _ _ _ _ Ht'). auto. }
  subst t'. exists t, s, r. split; [|repeat (split; [assumption|])].
  - rewrite ER. rewrite <- pow2_0. replace h with (h + 0) at 1 by lia. apply keep_kept.
  - apply (level_decode_plain t h (tree_of unit_leaf 0 h l) []); auto; try lia. apply tree_of_plain.
Qed.

Theorem fast_any_set : forall lw jh je u l, fast_universe u lw -> l <> [] -> shorter 32 l ->
  exists t s r, kept (2 ^ N.of_nat lw) 0 (wrapped (rounded u) l) s /\ is_set_of s r /\ r <> [] /\
    below (rounded u) r /\ shorter 32 r /\ fast_universe (rounded u) lw /\
    fast_build lw jh je l u = Ok t /\ fast_build lw jh je r (rounded u) = Ok t /\
    fast_decode t [] = Ok r.
Proof.
  intros lw jh je u l (Hlw0 & Hu1 & Hu2) Hne Hl.
  assert (H8 : (2 ^ N.of_nat 3 <= 2 ^ N.of_nat lw)%N).
  { apply N.pow_le_mono_r; [lia|]. cbn in Hlw0. lia. }
  change (2 ^ N.of_nat 3)%N with 8%N in H8. assert (Hlw := Hlw0). apply In_lw in Hlw.
  destruct (height_of_spec u ltac:(lia)) as (h & Hh & Hr & Hp & H2 & Hk).
  assert (Hlh : lw <= h).
  { destruct lw as [|lw]; [lia|]. fold (pow2 (S lw)) in Hu1. rewrite pow2_S in Hu1.
    assert (lw < h) by (apply Hk; lia). lia. }
  set (d := h - lw).
  destruct (fast_build_layout lw jh je l u h Hh) as (t & Ht & L & E1 & E2 & Hre & He); auto; try lia.
  fold d in L.
  set (s := keep lw d l). set (r := sel (wmem lw) (d + lw) (tree_of (word_of lw) lw d l) 0).
  assert (S1 : is_set_of s r).
  { apply sel_scan; auto. { apply word_leaf_mem. } apply wmem_low. }
  assert (Sne : r <> []).
  { apply (set_inhabited (word_of lw) (wmem lw) lw (word_leaf_mem lw) (wmem_low lw) (word_ext lw)). auto. }
  assert (ER := height_rounded u h ltac:(lia) Hh).
  assert (Ed : h = d + lw) by (unfold d; lia).
  assert (Sb : below (rounded u) r).
  { rewrite ER. apply (set_below _ s); auto. rewrite Ed. apply keep_below. }
  assert (Ss : shorter 32 r) by (apply (set_shorter 32 s); auto; apply keep_shorter; auto).
  assert (Hh' : height_of (rounded u) = Ok h) by (rewrite height_of_rounded by lia; auto).
  assert (UR : fast_universe (rounded u) lw).
  { split; auto. assert (K := rounded_ge u ltac:(lia)). rewrite ER in *. split; [lia|].
    assert (pow2 h <= 2 ^ 48)%N; [|lia]. unfold pow2. apply N.pow_le_mono_r; lia. }
  destruct (fast_build_layout lw jh je r (rounded u) h Hh') as (t' & Ht' & L' & E1' & E2' & Hre' & He');
    auto; try lia.
  fold d in L'.
  assert (SR : sel (wmem lw) (d + lw) (tree_of (word_of lw) lw d r) 0 = r).
  { destruct (fast_built lw jh je (rounded u) r Hlw0 (proj2 UR) Sne (proj1 S1) Sb Ss)
      as (d' & t2 & Ht2 & Hd2 & Hp2 & L2 & _ & _ & _ & _ & X2 & _ & EE).
    assert (d' = d); [|subst d'; auto].
    rewrite Ht' in Ht2. inversion Ht2; subst t2. lia. }
  assert (ET : tree_of (word_of lw) lw d l = tree_of (word_of lw) lw d r).
  { apply (tree_of_set (word_of lw) (wmem lw) lw (word_leaf_mem lw) (wmem_low lw) (word_ext lw)); auto. }
  rewrite <- ET in L'.
  assert (E : t = t').
  { eapply fast_same; eauto; try congruence.
    rewrite (fast_build_hwr _ _ _ _ _ _ Ht), (fast_build_hwr _ _ _ _ _ _ Ht'). auto. }
  subst t'. exists t, s, r. split; [|repeat (split; [assumption|])].
  - rewrite ER, Ed. apply keep_kept.
  - apply (fast_decode_plain t lw d (tree_of (word_of lw) lw d l) []); auto; try (unfold d; lia).
    + apply tree_of_plain.
    + apply all_leaves_tree_of. apply word_of_bound.
Qed.

(** * Tries of any list *)

Lemma kept_set_unique : forall w r l s s', kept_set w r l s -> kept_set w r l s' -> s = s'.
Proof.
  intros w r l s s' (k & K & I) (k' & K' & I'). assert (k = k') by (eapply kept_unique; eauto).
  subst k'. eapply is_set_of_unique; eauto.
Qed.

Definition variant_universe (u : N) (v : variant) : Prop :=
  (2 <= u <= 2 ^ 48)%N /\ match v with VFlat _ => (3 <= u)%N | VLevel _ => True end.

Theorem bin_any_set : forall u v l, variant_universe u v -> l <> [] -> shorter 32 l ->
  exists r, kept_set 1 (rounded u) l r /\ r <> [] /\ plain_ok (rounded u) v r /\
    forall enc, bin_make u v enc l = bin_make (rounded u) v enc r.
Proof.
  intros u v l (Hu & Hv) Hne Hl. assert (Hr := rounded_ge u ltac:(lia)).
  destruct v as [il|il].
  - destruct (flat_any_set u l ltac:(lia) Hne Hl) as (t & s & r & K & I & Rne & Rb & Rs & E1 & E2 & _).
    exists r. split; [exists s; auto|]. split; [auto|]. split.
    + split; [apply I|]. split; [auto|]. split; [lia|auto].
    + intros enc. unfold bin_make, bin_build. rewrite E1, E2. auto.
  - assert (Hl' : shorter 64 l).
    { unfold shorter in *. eapply N.lt_trans; [exact Hl|reflexivity]. }
    destruct (level_any_set il u l Hu Hne Hl') as (t & s & r & K & I & Rne & Rb & Rs & E1 & E2 & _).
    exists r. split; [exists s; auto|]. split; [auto|]. split.
    + split; [apply I|]. split; auto.
    + intros enc. unfold bin_make, bin_build. rewrite E1, E2. auto.
Qed.

Theorem fast_any_kept : forall u lw l, fast_universe u lw -> l <> [] -> shorter 32 l ->
  exists r, kept_set (2 ^ N.of_nat lw) (rounded u) l r /\ fast_universe (rounded u) lw /\
    fast_ok (rounded u) r /\
    forall jh je enc, fast_make u lw jh je enc l = fast_make (rounded u) lw jh je enc r.
Proof.
  intros u lw l Hu Hne Hl.
  destruct (fast_any_set lw None None u l Hu Hne Hl) as (t & s & r & K & I & Rne & Rb & Rs & Ru & E1 & E2 & _).
  exists r. split; [exists s; auto|]. split; [auto|]. split; [repeat split; auto; apply I|].
  intros jh je enc.
  destruct (fast_any_set lw jh je u l Hu Hne Hl) as (t' & s' & r' & K' & I' & _ & _ & _ & _ & E1' & E2' & _).
  assert (r = r') by (eapply kept_set_unique; [exists s|exists s']; eauto). subst r'.
  unfold fast_make. rewrite E1', E2'. auto.
Qed.
