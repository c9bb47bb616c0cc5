(** Decoding what the constructors build. *)

From Verif Require Import Base Split FlatTrie LevelTrie FastTrie Facts Tree Groups Reps Layout
  BuildFlat BuildLevel BuildFast WordBits DecodeFast Spec.

Lemma height_of_spec : forall u, (2 <= u <= 2 ^ 48)%N ->
  exists h, height_of u = Ok h /\ 1 <= h <= 48 /\ (u <= pow2 h)%N /\ ((3 <= u)%N -> 2 <= h) /\
            (forall k, (pow2 k < u)%N -> k < h).
Proof.
  intros u Hu. unfold height_of.
  replace (u =? 1)%N with false by (symmetry; apply N.eqb_neq; lia).
  replace (u =? 0)%N with false by (symmetry; apply N.eqb_neq; lia).
  replace (2 ^ 48 <? u)%N with false by (symmetry; apply N.ltb_ge; lia).
  eexists; split; [reflexivity|].
  assert (L : (2 ^ N.log2 (u - 1) <= u - 1 < 2 ^ N.succ (N.log2 (u - 1)))%N)
    by (apply N.log2_spec; lia).
  assert (L48 : (N.log2 (u - 1) < 48)%N) by (apply N.log2_lt_pow2; [lia|]; lia).
  unfold pow2. rewrite N2Nat.id. repeat split; try lia.
  - intros H. assert (1 <= N.log2 (u - 1))%N; [|lia].
    apply (N.log2_le_mono 2 (u - 1)). lia.
  - intros k Hk. assert (N.of_nat k <= N.log2 (u - 1))%N; [|lia].
    apply N.log2_le_pow2; lia.
Qed.

Lemma height_of_2 : height_of 2 = Ok 1.
Proof. reflexivity. Qed.

Lemma below_within : forall u s k, (u <= pow2 k)%N -> below u s -> within 0 k s.
Proof.
  intros u s k Hu Hb. unfold below, within in *. eapply Forall_impl; [|eauto]. cbn. intros; lia.
Qed.

Lemma unit_leaf_spec : forall s p x, s <> [] -> aligned 0 p -> within p 0 s ->
  (p <= x < p + pow2 0)%N -> (umem (unit_leaf s) x = true <-> In x s).
Proof.
  intros s p x Hne _ Hw Hx. rewrite pow2_0 in *. unfold umem. split; auto. intros _.
  destruct s as [|y s]; [congruence|]. unfold within in Hw. inversion Hw as [|? ? Hy]; subst. left.
  rewrite pow2_0 in Hy. lia.
Qed.

(** The list decoded from the tree of a nondecreasing list. *)
Definition distinct (h : nat) (s : list N) : list N := sel umem h (tree_of unit_leaf 0 h s) 0.
Definition distinct_fast (lw d : nat) (s : list N) : list N :=
  sel (wmem lw) (d + lw) (tree_of (word_of lw) lw d s) 0.

Lemma distinct_set : forall h s, s <> [] -> nondecreasing s -> within 0 h s ->
  is_set_of s (distinct h s).
Proof.
  intros h s Hne Hs Hw. unfold distinct. split.
  - apply sel_sorted.
  - intros x. replace (sel umem h) with (sel umem (h + 0)) by (f_equal; lia).
    apply sel_tree_of_In; auto.
    + apply unit_leaf_spec.
    + rewrite Nat.add_0_r; auto.
Qed.

Lemma distinct_fast_set : forall lw d s, s <> [] -> nondecreasing s -> within 0 (d + lw) s ->
  is_set_of s (distinct_fast lw d s).
Proof.
  intros lw d s Hne Hs Hw. unfold distinct_fast. split.
  - apply sel_sorted.
  - intros x. apply sel_tree_of_In; auto. apply word_leaf_spec.
Qed.

Lemma is_set_of_unique : forall s r r', is_set_of s r -> is_set_of s r' -> r = r'.
Proof.
  intros s r r' (S1 & H1) (S2 & H2). apply sorted_unique; auto. intros x. rewrite H1, H2. tauto.
Qed.

Lemma is_set_of_self : forall s, increasing s -> is_set_of s s.
Proof. intros; split; auto. tauto. Qed.

Lemma increasing_nondecreasing : forall s, increasing s -> nondecreasing s.
Proof. apply sorted_lt_le. Qed.

(** * Decoding from the layout *)

Lemma flat_decode_plain : forall t h T dec, flat_layout t h T -> plain T -> h <= 64 ->
  f_runs_encoded t = false -> flat_decode t dec = Ok (dec ++ sel umem h T 0).
Proof.
  intros t h T dec L Hp Hh Hr. unfold flat_decode. rewrite Hr.
  assert (R := flat_reps _ _ _ L). destruct L as (H2 & Hwf & EH & _). rewrite EH.
  apply recursiveDecode_spec; auto. apply aligned_0.
Qed.

Lemma level_decode_plain : forall t h T dec, level_layout t h T -> plain T -> h <= 64 ->
  l_runs_encoded t = false -> level_decode t dec = Ok (dec ++ sel umem h T 0).
Proof.
  intros t h T dec L Hp Hh Hr. unfold level_decode. rewrite Hr.
  assert (R := level_reps _ _ _ L). assert (EH := level_height _ _ _ L).
  destruct L as (H2 & Hwf & _). rewrite EH.
  apply recursiveDecode_spec; auto. apply aligned_0.
Qed.

Lemma fast_decode_plain : forall t lw d T dec, fast_layout t (S d) T -> x_lw t = lw -> plain T ->
  all_leaves (fun w => w < 2 ^ pow2 lw)%N T ->
  lw <= 6 -> x_height_u t = d + lw -> d + lw <= 64 ->
  x_runs_encoded t = false -> fast_decode t dec = Ok (dec ++ sel (wmem lw) (d + lw) T 0).
Proof.
  intros t lw d T dec L <- Hp Hl Hlw Hhu H64 Hr. unfold fast_decode. rewrite Hr.
  assert (R := fast_reps _ _ _ L).
  destruct L as (H2 & Hwf & EH & _). rewrite EH. rewrite Nat.sub_succ, Nat.sub_0_r in Hwf.
  apply fast_recursiveDecode_spec; auto; try lia. apply aligned_0.
Qed.

(** * Round trips *)

Theorem flat_round_trip : forall u s, (3 <= u <= 2 ^ 48)%N -> s <> [] ->
  nondecreasing s -> below u s -> shorter 32 s ->
  exists t r, flat_build s u = Ok t /\ is_set_of s r /\
    forall v, flat_decode t v = Ok (v ++ r).
Proof.
  intros u s Hu Hne Hs Hb Hl.
  destruct (height_of_spec u ltac:(lia)) as (h & Hh & Hr & Hp & H2 & _).
  destruct (flat_build_layout s u h Hh) as (t & Ht & L & Hre & _); auto; try lia.
  exists t, (distinct h s). split; [auto|]. split.
  - apply distinct_set; auto. eapply below_within; eauto.
  - intros v. apply flat_decode_plain; auto; try lia. apply tree_of_plain.
Qed.

Theorem level_round_trip : forall il u s, (2 <= u <= 2 ^ 48)%N -> s <> [] ->
  nondecreasing s -> below u s -> shorter 64 s ->
  exists t r, level_build il s u = Ok t /\ is_set_of s r /\
    forall v, level_decode t v = Ok (v ++ r).
Proof.
  intros il u s Hu Hne Hs Hb Hl.
  destruct (height_of_spec u ltac:(lia)) as (h & Hh & Hr & Hp & H2 & _).
  destruct (level_build_layout il s u h Hh) as (t & Ht & L & Hre & _); auto; try lia.
  exists t, (distinct h s). split; [auto|]. split.
  - apply distinct_set; auto. eapply below_within; eauto.
  - intros v. apply level_decode_plain; auto; try lia. apply tree_of_plain.
Qed.

Theorem level_round_trip_empty : forall il u, (2 <= u <= 2 ^ 48)%N ->
  exists t, level_build il [] u = Ok t /\ forall v, level_decode t v = Ok v.
Proof.
  intros il u Hu.
  destruct (height_of_spec u ltac:(lia)) as (h & Hh & Hr & Hp & H2 & _).
  destruct (N.eq_dec u 2) as [->|Hn].
  - exists (mkLevel il 0 false false [[false; false]] []).
    split; [apply level_build_empty1|]. intros v. destruct il; reflexivity.
  - exists (mkLevel il 0 false false (empty_levels h) (firstn (h - 1) (empty_levels h))).
    split; [apply level_build_empty; auto; lia|].
    intros v. unfold level_decode, level_getHeight. cbn [l_runs_encoded l_bTrie].
    unfold empty_levels at 1 2 3. rewrite map_length, seq_length.
    destruct h as [|h]; [lia|]. cbn [recursiveDecode Nat.eqb].
    unfold level_getNode, empty_levels. cbn [l_bTrie seq map].
    reflexivity.
Qed.

Theorem fast_round_trip : forall lw jh je u s, lw <= 6 ->
  (2 <= u <= 2 ^ 48)%N -> (pow2 lw < 2 * u)%N -> s <> [] ->
  nondecreasing s -> below u s -> shorter 32 s ->
  exists t r, fast_build lw jh je s u = Ok t /\ is_set_of s r /\
    forall v, fast_decode t v = Ok (v ++ r).
Proof.
  intros lw jh je u s Hlw Hu Hw Hne Hs Hb Hl.
  destruct (height_of_spec u ltac:(lia)) as (h & Hh & Hr & Hp & H2 & Hk).
  assert (Hlh : lw <= h).
  { destruct lw as [|lw]; [lia|]. rewrite pow2_S in Hw. assert (lw < h) by (apply Hk; lia). lia. }
  destruct (fast_build_layout lw jh je s u h Hh) as (t & Ht & L & E1 & E2 & Hre & _); auto; try lia.
  exists t, (distinct_fast lw (h - lw) s). split; [auto|]. split.
  - apply distinct_fast_set; auto. replace (h - lw + lw) with h by lia. eapply below_within; eauto.
  - intros v. apply fast_decode_plain; auto; try lia.
    + apply tree_of_plain.
    + apply all_leaves_tree_of. apply word_of_bound.
Qed.
