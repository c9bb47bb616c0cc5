(** The constructors on lists that are not sorted or not below the universe. *)

From Verif Require Import Base Split FlatTrie LevelTrie FastTrie Facts Tree Groups Reps Layout
  BuildFlat BuildLevel BuildFast WordBits DecodeFast RoundTrip RoundTripFacts Spec SpecTries SpecOrder
  KeepOrder InterThms.

(** * Tries with the same layout *)

Lemma bind_Ok : forall A B (m : result A) (f : A -> result B) b, bind m f = Ok b ->
  exists a, m = Ok a /\ f a = Ok b.
Proof. intros A B [a|e|] f b H; cbn in H; try discriminate. eauto. Qed.

Lemma flat_build_hwr : forall s u t, flat_build s u = Ok t -> f_height_with_runs t = 0.
Proof.
  unfold flat_build. intros s u t H. apply bind_Ok in H. destruct H as (h & _ & H).
  apply bind_Ok in H. destruct H as (st & _ & H). inversion H. reflexivity.
Qed.

Lemma level_build_hwr : forall il s u t, level_build il s u = Ok t -> l_height_with_runs t = 0.
Proof.
  unfold level_build. intros il s u t H. apply bind_Ok in H. destruct H as (h & _ & H).
  apply bind_Ok in H. destruct H as (st & _ & H). inversion H. reflexivity.
Qed.

Lemma fast_build_hwr : forall lw jh je s u t, fast_build lw jh je s u = Ok t -> x_height_with_runs t = jh.
Proof.
  unfold fast_build. intros lw jh je s u t H. apply bind_Ok in H. destruct H as (h & _ & H).
  destruct (_ <? _); [discriminate|].
  apply bind_Ok in H. destruct H as (st & _ & H). inversion H. reflexivity.
Qed.

Lemma flat_same : forall t t' h T, flat_layout t h T -> flat_layout t' h T ->
  f_height_with_runs t = f_height_with_runs t' -> f_empty_trie t = f_empty_trie t' ->
  f_runs_encoded t = f_runs_encoded t' -> t = t'.
Proof.
  intros [] [] h T (_ & _ & A & B & C & D) (_ & _ & A' & B' & C' & D'). cbn in *. intros. congruence.
Qed.

Lemma level_same : forall t t' h T, level_layout t h T -> level_layout t' h T -> l_il t = l_il t' ->
  l_height_with_runs t = l_height_with_runs t' -> l_empty_trie t = l_empty_trie t' ->
  l_runs_encoded t = l_runs_encoded t' -> t = t'.
Proof.
  intros [] [] h T (_ & _ & A & B) (_ & _ & A' & B'). cbn in *. intros. congruence.
Qed.

Lemma map_Leaf_inj : forall (a b : list N), map Leaf a = map Leaf b -> a = b.
Proof. induction a; intros [|]; cbn; intros H; inversion H; auto. f_equal; auto. Qed.

Lemma fast_same : forall t t' h T, fast_layout t h T -> fast_layout t' h T -> x_lw t = x_lw t' ->
  x_height_u t = x_height_u t' ->
  x_height_with_runs t = x_height_with_runs t' -> x_empty_trie t = x_empty_trie t' ->
  x_runs_encoded t = x_runs_encoded t' -> t = t'.
Proof.
  intros [] [] h T (_ & _ & A & B & C & D) (_ & _ & A' & B' & C' & D'). cbn in *. intros.
  assert (x_lastLevel = x_lastLevel0) by (apply map_Leaf_inj; congruence). congruence.
Qed.

(** * The values kept in a universe *)

Definition keep (lg d : nat) (l : list N) : list N := scan lg d 0 l.

Lemma keep_wrapped : forall lg d l, keep lg d (wrapped (pow2 (d + lg)) l) = keep lg d l.
Proof.
  intros. unfold keep, wrapped. apply scan_map_low. intros x i Hi. unfold pow2.
  apply N.mod_pow2_bits_low. auto.
Qed.

Lemma keep_kept : forall lg d l, kept (pow2 lg) 0 (wrapped (pow2 (d + lg)) l) (keep lg d l).
Proof.
  intros. rewrite <- keep_wrapped. rewrite <- (N.div_0_l (pow2 lg)) at 1 by apply pow2_nz.
  apply scan_kept.
  - apply pow2_pos.
  - apply Forall_map, Forall_forall. intros. apply N.mod_lt, pow2_nz.
Qed.

Lemma keep_nil : forall lg d l, l <> [] -> keep lg d l <> [].
Proof. intros lg d [|]; cbn; congruence. Qed.

Lemma keep_shorter : forall k lg d l, shorter k l -> shorter k (keep lg d l).
Proof. unfold shorter, keep. intros. rewrite scan_length. auto. Qed.

Theorem flat_any_list : forall u l, (3 <= u <= 2 ^ 48)%N -> l <> [] -> shorter 32 l ->
  exists t s r, kept 1 0 (wrapped (rounded u) l) s /\ flat_build l u = Ok t /\ flat_build s u = Ok t /\
    flat_decode t [] = Ok r /\ is_set_of s r.
Proof.
  intros u l Hu Hne Hl. destruct (height_of_spec u ltac:(lia)) as (h & Hh & Hr & Hp & H2 & _).
  destruct (flat_build_layout l u h Hh) as (t & Ht & L & Hre & He); auto; try lia.
  destruct (flat_build_layout (keep 0 h l) u h Hh) as (t' & Ht' & L' & Hre' & He');
    auto using keep_nil, keep_shorter; try lia.
  { apply keep_shorter. auto. }
  unfold keep in L'. rewrite tree_of_scan in L' by apply unit_leaf_low. fold (keep 0 h l) in *.
  assert (E : t = t').
  { eapply flat_same; eauto; try congruence.
    rewrite (flat_build_hwr _ _ _ Ht), (flat_build_hwr _ _ _ Ht'). auto. }
  subst t'. exists t, (keep 0 h l), (sel umem h (tree_of unit_leaf 0 h l) 0).
  split; [|split; [auto|split; [auto|split]]].
  - rewrite (height_rounded u h ltac:(lia) Hh). rewrite <- pow2_0.
    replace h with (h + 0) at 1 by lia. apply keep_kept.
  - apply (flat_decode_plain t h (tree_of unit_leaf 0 h l) []); auto; try lia. apply tree_of_plain.
  - replace (sel umem h) with (sel umem (h + 0)) by (f_equal; lia).
    apply sel_scan; auto. apply unit_leaf_mem.
Qed.

Theorem level_any_list : forall il u l, (2 <= u <= 2 ^ 48)%N -> l <> [] -> shorter 64 l ->
  exists t s r, kept 1 0 (wrapped (rounded u) l) s /\ level_build il l u = Ok t /\ level_build il s u = Ok t /\
    level_decode t [] = Ok r /\ is_set_of s r.
Proof.
  intros il u l Hu Hne Hl. destruct (height_of_spec u ltac:(lia)) as (h & Hh & Hr & Hp & H2 & _).
  destruct (level_build_layout il l u h Hh) as (t & Ht & L & Hre & He & Hi); auto; try lia.
  destruct (level_build_layout il (keep 0 h l) u h Hh) as (t' & Ht' & L' & Hre' & He' & Hi');
    auto using keep_nil; try lia.
  { apply keep_shorter. auto. }
  unfold keep in L'. rewrite tree_of_scan in L' by apply unit_leaf_low. fold (keep 0 h l) in *.
  assert (E : t = t').
  { eapply level_same; eauto; try congruence.
    rewrite (level_build_hwr _ _ _ _ Ht), (level_build_hwr _ _ _ _ Ht'). auto. }
  subst t'. exists t, (keep 0 h l), (sel umem h (tree_of unit_leaf 0 h l) 0).
  split; [|split; [auto|split; [auto|split]]].
  - rewrite (height_rounded u h ltac:(lia) Hh). rewrite <- pow2_0.
    replace h with (h + 0) at 1 by lia. apply keep_kept.
  - apply (level_decode_plain t h (tree_of unit_leaf 0 h l) []); auto; try lia. apply tree_of_plain.
  - replace (sel umem h) with (sel umem (h + 0)) by (f_equal; lia).
    apply sel_scan; auto. apply unit_leaf_mem.
Qed.

Theorem fast_any_list : forall lw jh je u l, fast_universe u lw -> l <> [] -> shorter 32 l ->
  exists t s r, kept (2 ^ N.of_nat lw) 0 (wrapped (rounded u) l) s /\
    fast_build lw jh je l u = Ok t /\ fast_build lw jh je s u = Ok t /\
    fast_decode t [] = Ok r /\ is_set_of s r.
Proof.
  intros lw jh je u l (Hlw & Hu1 & Hu2) Hne Hl.
  assert (H8 : (2 ^ N.of_nat 3 <= 2 ^ N.of_nat lw)%N).
  { apply N.pow_le_mono_r; [lia|]. cbn in Hlw. lia. }
  change (2 ^ N.of_nat 3)%N with 8%N in H8. apply In_lw in Hlw.
  destruct (height_of_spec u ltac:(lia)) as (h & Hh & Hr & Hp & H2 & Hk).
  assert (Hlh : lw <= h).
  { destruct lw as [|lw]; [lia|]. fold (pow2 (S lw)) in Hu1. rewrite pow2_S in Hu1.
    assert (lw < h) by (apply Hk; lia). lia. }
  set (d := h - lw).
  destruct (fast_build_layout lw jh je l u h Hh) as (t & Ht & L & E1 & E2 & Hre & He); auto; try lia.
  destruct (fast_build_layout lw jh je (keep lw d l) u h Hh) as (t' & Ht' & L' & E1' & E2' & Hre' & He');
    auto using keep_nil; try lia.
  { apply keep_shorter. auto. }
  unfold keep in L'. fold d in L, L'. rewrite tree_of_scan in L' by apply word_of_low.
  fold (keep lw d l) in *.
  assert (E : t = t').
  { eapply fast_same; eauto; try congruence.
    rewrite (fast_build_hwr _ _ _ _ _ _ Ht), (fast_build_hwr _ _ _ _ _ _ Ht'). auto. }
  subst t'. exists t, (keep lw d l), (sel (wmem lw) (d + lw) (tree_of (word_of lw) lw d l) 0).
  split; [|split; [auto|split; [auto|split]]].
  - rewrite (height_rounded u h ltac:(lia) Hh). replace h with (d + lw) by (unfold d; lia). apply keep_kept.
  - apply (fast_decode_plain t lw d (tree_of (word_of lw) lw d l) []); auto; try (unfold d; lia).
    + apply tree_of_plain.
    + apply all_leaves_tree_of. apply word_of_bound.
  - apply sel_scan; auto.
    + apply word_leaf_mem.
    + apply wmem_low.
Qed.

(** * Distinct values in some order *)

Lemma wrapped_below : forall r l, below r l -> wrapped r l = l.
Proof.
  unfold wrapped. induction 1; cbn [map]; auto. rewrite N.mod_small by auto. f_equal. auto.
Qed.

Lemma rounded_ge : forall u, (2 <= u)%N -> (u <= rounded u)%N.
Proof. intros. unfold rounded. apply N.log2_log2_up_spec. lia. Qed.

Lemma rounded_pos : forall u, rounded u <> 0%N.
Proof. intros. unfold rounded. apply N.pow_nonzero. discriminate. Qed.

Lemma below_mono : forall u r l, (u <= r)%N -> below u l -> below r l.
Proof. unfold below. intros u r l H. apply Forall_impl. intros; lia. Qed.

Lemma words_one : forall l, words_in_order 1 l <-> nondecreasing l.
Proof.
  intros l. unfold words_in_order. replace (map (fun x => x / 1)%N l) with l; [tauto|].
  induction l; cbn [map]; auto. rewrite N.div_1_r. congruence.
Qed.

Lemma is_set_cong : forall s l r, is_set_of s r -> (is_set_of l r <-> forall x, In x s <-> In x l).
Proof.
  intros s l r (I & E). unfold is_set_of. split.
  - intros (_ & E') x. rewrite <- E, <- E'. tauto.
  - intros H. split; auto. intros x. rewrite E, H. tauto.
Qed.

Theorem flat_any_order : forall u l, (3 <= u <= 2 ^ 48)%N -> l <> [] -> shorter 32 l ->
  NoDup l -> below u l ->
  exists t r, flat_build l u = Ok t /\ flat_decode t [] = Ok r /\ (is_set_of l r <-> nondecreasing l).
Proof.
  intros u l Hu Hne Hl Hn Hb. destruct (flat_any_list u l Hu Hne Hl) as (t & s & r & K & Ht & _ & Hd & Hs).
  exists t, r. split; [auto|]. split; [auto|]. rewrite (is_set_cong s l r Hs), <- words_one.
  rewrite wrapped_below in K by (eapply below_mono; [apply rounded_ge; lia|auto]).
  apply kept_exactly; auto. discriminate.
Qed.

Theorem level_any_order : forall il u l, (2 <= u <= 2 ^ 48)%N -> l <> [] -> shorter 64 l ->
  NoDup l -> below u l ->
  exists t r, level_build il l u = Ok t /\ level_decode t [] = Ok r /\ (is_set_of l r <-> nondecreasing l).
Proof.
  intros il u l Hu Hne Hl Hn Hb.
  destruct (level_any_list il u l Hu Hne Hl) as (t & s & r & K & Ht & _ & Hd & Hs).
  exists t, r. split; [auto|]. split; [auto|]. rewrite (is_set_cong s l r Hs), <- words_one.
  rewrite wrapped_below in K by (eapply below_mono; [apply rounded_ge; lia|auto]).
  apply kept_exactly; auto. discriminate.
Qed.

Theorem fast_any_order : forall lw jh je u l, fast_universe u lw -> l <> [] -> shorter 32 l ->
  NoDup l -> below u l ->
  exists t r, fast_build lw jh je l u = Ok t /\ fast_decode t [] = Ok r /\
    (is_set_of l r <-> words_in_order (2 ^ N.of_nat lw) l).
Proof.
  intros lw jh je u l Hu Hne Hl Hn Hb.
  destruct (fast_any_list lw jh je u l Hu Hne Hl) as (t & s & r & K & Ht & _ & Hd & Hs).
  exists t, r. split; [auto|]. split; [auto|]. rewrite (is_set_cong s l r Hs).
  rewrite wrapped_below in K.
  2:{ eapply below_mono; [apply rounded_ge|eauto]. destruct l as [|x l]; [congruence|].
      destruct Hu as (Hlw & Hu & _).
      assert (2 ^ 3 <= 2 ^ N.of_nat lw)%N by (apply N.pow_le_mono_r; cbn in Hlw; lia).
      change (2 ^ 3)%N with 8%N in *. lia. }
  apply kept_exactly; auto. apply N.pow_nonzero. discriminate.
Qed.

(** * Values outside the universe *)

Lemma kept_below : forall w r l s, w <> 0%N -> (r mod w = 0)%N -> r <> 0%N ->
  kept w 0 (wrapped r l) s -> increasing l ->
  (forall x, In x l -> (x < r)%N -> In x s).
Proof.
  intros w r l s Hw Hr Hr0 K Hi x Hx Hlt.
  assert (E : exists a b, l = a ++ b /\ below r a /\ Forall (fun y => r <= y)%N b /\ increasing a).
  { clear K Hx. induction Hi as [|y l Hi IH Hy].
    - exists [], []. repeat split; constructor.
    - destruct IH as (a & b & -> & Ba & Bb & Ia). destruct (N.lt_ge_cases y r).
      + exists (y :: a), b. repeat split; auto; constructor; auto.
        apply Forall_app in Hy. tauto.
      + exists [], (y :: a ++ b). split; [auto|]. split; [constructor|]. split; [|constructor].
        constructor; auto. eapply Forall_impl; [|eauto]. cbn. intros z Hz. lia. }
  destruct E as (a & b & -> & Ba & Bb & Ia).
  unfold wrapped in K. rewrite map_app in K. fold (wrapped r a) in K. rewrite wrapped_below in K by auto.
  destruct (kept_app _ _ _ _ _ K Hw) as (q & s' & -> & _).
  - clear -Ia Hw. induction Ia; cbn [map]; constructor; auto. apply Forall_map.
    eapply Forall_impl; [|eauto]. cbn. intros y Hy. apply N.div_le_mono; auto. lia.
  - apply Forall_forall. intros; apply N.le_0_l.
  - apply in_app_iff. apply in_app_iff in Hx. destruct Hx as [|Hx]; auto.
    rewrite Forall_forall in Bb. apply Bb in Hx. lia.
Qed.

Lemma cover_bound : forall d p x q, (p < 2 ^ d)%N -> (x < 2 ^ d)%N -> least_cover p x q -> (q < 2 ^ d)%N.
Proof.
  intros d p x q Hp Hx (_ & _ & M). assert (q <= N.ones d)%N.
  { apply M; [rewrite N.ones_equiv; lia|]. apply covers_bits. intros i Hi.
    destruct (N.lt_ge_cases i d); [apply N.ones_spec_low; auto|].
    rewrite testbit_big with (W := d) in Hi; auto; discriminate. }
  rewrite N.ones_equiv in H. lia.
Qed.

Lemma kept_range : forall lg d p l s, (p < 2 ^ d)%N -> below (2 ^ (d + lg)) l ->
  kept (2 ^ lg) p l s -> below (2 ^ (d + lg)) s.
Proof.
  intros lg d p l s Hp Hb K. assert (Hw : (2 ^ lg <> 0)%N) by (apply N.pow_nonzero; discriminate).
  revert Hp Hb. induction K; intros Hp Hb; [constructor|].
  apply Forall_cons_iff in Hb. destruct Hb as (Hx & Hb).
  assert (Hq : (q < 2 ^ d)%N).
  { apply (cover_bound d p (x / 2 ^ lg) q); auto. apply N.div_lt_upper_bound; auto.
    rewrite <- N.pow_add_r. rewrite N.add_comm. auto. }
  constructor; [|apply IHK; auto].
  assert (x mod 2 ^ lg < 2 ^ lg)%N by (apply N.mod_lt; auto).
  rewrite N.pow_add_r. nia.
Qed.

(** Members are kept; and an increasing list comes back whole only if it lies in the
    rounded universe. *)
Lemma outside : forall lg d r l s dec, r = (2 ^ (d + lg))%N -> increasing l ->
  kept (2 ^ lg) 0 (wrapped r l) s -> is_set_of s dec ->
  (forall x, In x l -> (x < r)%N -> In x dec) /\ below r dec /\ (dec = l <-> below r l).
Proof.
  intros lg d r l s dec -> Hi K (Id & Ed).
  assert (Hw : (2 ^ lg <> 0)%N) by (apply N.pow_nonzero; discriminate).
  assert (Hr0 : (2 ^ (d + lg) <> 0)%N) by (apply N.pow_nonzero; discriminate).
  assert (Hm : (2 ^ (d + lg) mod 2 ^ lg = 0)%N).
  { rewrite N.pow_add_r. apply N.mod_mul; auto. }
  assert (M : forall x, In x l -> (x < 2 ^ (d + lg))%N -> In x dec).
  { intros x Hx Hlt. apply Ed. apply (kept_below (2 ^ lg) (2 ^ (d + lg)) l); auto. }
  assert (B : below (2 ^ (d + lg)) dec).
  { assert (Bs : below (2 ^ (d + lg)) s).
    { eapply kept_range; [| |eauto].
      - apply N.neq_0_lt_0, N.pow_nonzero. discriminate.
      - apply Forall_map, Forall_forall. intros. apply N.mod_lt. auto. }
    unfold below in *. rewrite Forall_forall in *. intros x Hx. apply Bs, Ed. auto. }
  split; [auto|]. split; [auto|]. split.
  - intros <-. auto.
  - intros Bl. rewrite wrapped_below in K by auto.
    assert (s = l).
    { apply (kept_in_order (2 ^ lg)); auto. unfold words_in_order. clear -Hi Hw.
      induction Hi; cbn [map]; constructor; auto. apply Forall_map.
      eapply Forall_impl; [|eauto]. cbn. intros y Hy. apply N.div_le_mono; auto. lia. }
    subst s. apply (is_set_of_unique l); [split; auto|apply is_set_of_self; auto].
Qed.

Lemma rounded_split : forall u lw, fast_universe u lw -> exists d, rounded u = (2 ^ (d + N.of_nat lw))%N.
Proof.
  intros u lw (Hlw & Hu & _). exists (N.log2_up u - N.of_nat lw)%N. unfold rounded. f_equal.
  assert (N.of_nat lw <= N.log2_up u)%N; [|lia].
  destruct lw as [|lw]; [lia|]. rewrite Nat2N.inj_succ, N.pow_succ_r' in Hu.
  assert (H := N.pow_nonzero 2 (N.of_nat lw)).
  assert (N.of_nat lw < N.log2_up u)%N by (apply N.log2_up_lt_pow2; lia). lia.
Qed.

Theorem flat_outside : forall u s, (3 <= u <= 2 ^ 48)%N -> s <> [] -> shorter 32 s -> increasing s ->
  exists t r, flat_build s u = Ok t /\ flat_decode t [] = Ok r /\
    (forall x, In x s -> (x < rounded u)%N -> In x r) /\ below (rounded u) r /\
    (r = s <-> below (rounded u) s).
Proof.
  intros u l Hu Hne Hl Hi. destruct (flat_any_list u l Hu Hne Hl) as (t & s & r & K & Ht & _ & Hd & Hs).
  exists t, r. split; [auto|]. split; [auto|].
  apply (outside 0 (N.log2_up u) _ l s); auto. unfold rounded. rewrite N.add_0_r. auto.
Qed.

Theorem level_outside : forall il u s, (2 <= u <= 2 ^ 48)%N -> s <> [] -> shorter 64 s -> increasing s ->
  exists t r, level_build il s u = Ok t /\ level_decode t [] = Ok r /\
    (forall x, In x s -> (x < rounded u)%N -> In x r) /\ below (rounded u) r /\
    (r = s <-> below (rounded u) s).
Proof.
  intros il u l Hu Hne Hl Hi.
  destruct (level_any_list il u l Hu Hne Hl) as (t & s & r & K & Ht & _ & Hd & Hs).
  exists t, r. split; [auto|]. split; [auto|].
  apply (outside 0 (N.log2_up u) _ l s); auto. unfold rounded. rewrite N.add_0_r. auto.
Qed.

Theorem fast_outside : forall lw jh je u s, fast_universe u lw -> s <> [] -> shorter 32 s -> increasing s ->
  exists t r, fast_build lw jh je s u = Ok t /\ fast_decode t [] = Ok r /\
    (forall x, In x s -> (x < rounded u)%N -> In x r) /\ below (rounded u) r /\
    (r = s <-> below (rounded u) s).
Proof.
  intros lw jh je u l Hu Hne Hl Hi.
  destruct (fast_any_list lw jh je u l Hu Hne Hl) as (t & s & r & K & Ht & _ & Hd & Hs).
  destruct (rounded_split u lw Hu) as (d & Ed).
  exists t, r. split; [auto|]. split; [auto|].
  apply (outside (N.of_nat lw) d _ l s); auto.
Qed.

Lemma kept_example : kept 1 0 [5; 2; 7]%N [5; 6; 7]%N.
Proof.
  assert (L : forall p x y, (p <= y)%N -> N.land x y = x ->
    (forall z, In z (nrange p (N.to_nat (y - p))) -> N.land x z <> x) -> least_cover p x y).
  { intros p x y H1 H2 H3. split; [auto|]. split; [exact H2|]. intros z Hz Hc.
    destruct (N.lt_ge_cases z y); auto. exfalso. apply (H3 z); auto. apply In_nrange. lia. }
  apply (kept_cons 1 0 5 _ 5).
  { apply (L 0 5 5)%N; [discriminate|reflexivity|]. clear L. intros z H. vm_compute in H.
    repeat (destruct H as [<-|H]; [vm_compute; discriminate|]); destruct H. }
  apply (kept_cons 1 5 2 _ 6).
  { apply (L 5 2 6)%N; [discriminate|reflexivity|]. clear L. intros z H. vm_compute in H.
    repeat (destruct H as [<-|H]; [vm_compute; discriminate|]); destruct H. }
  apply (kept_cons 1 6 7 _ 7).
  { apply (L 6 7 7)%N; [discriminate|reflexivity|]. clear L. intros z H. vm_compute in H.
    repeat (destruct H as [<-|H]; [vm_compute; discriminate|]); destruct H. }
  constructor.
Qed.

Lemma any_order_fails : exists (u : N) (l : list N) t r,
  (3 <= u <= 2 ^ 48)%N /\ l <> [] /\ shorter 32 l /\ NoDup l /\ below u l /\
  flat_build l u = Ok t /\ flat_decode t [] = Ok r /\ ~ is_set_of l r.
Proof.
  exists 8%N, [5; 2; 7]%N. eexists. exists [5; 6; 7]%N.
  split; [split; discriminate|]. split; [discriminate|]. split; [reflexivity|].
  split; [repeat constructor; cbn; intuition discriminate|].
  split; [repeat constructor|]. split; [vm_compute; reflexivity|]. split; [vm_compute; reflexivity|].
  intros (_ & E). assert (H : In 6%N [5; 2; 7]%N) by (apply E; cbn; auto).
  cbn in H. intuition discriminate.
Qed.

Lemma outside_fails : exists (u : N) (s : list N) t r x,
  (3 <= u <= 2 ^ 48)%N /\ s <> [] /\ shorter 32 s /\ increasing s /\
  flat_build s u = Ok t /\ flat_decode t [] = Ok r /\ In x r /\ (x < u)%N /\ ~ In x s.
Proof.
  exists 12%N, [2; 17]%N. eexists. exists [2; 3]%N, 3%N.
  split; [split; discriminate|]. split; [discriminate|]. split; [reflexivity|].
  split; [repeat constructor|]. split; [vm_compute; reflexivity|]. split; [vm_compute; reflexivity|].
  split; [cbn; auto|]. split; [reflexivity|]. cbn. intuition discriminate.
Qed.
