(** Fast tries over universes that fit in half a word: the constructor has no defined result. *)

From Verif Require Import Base Facts Split FlatTrie FastTrie Spec SpecTries Layout Groups BuildFlat BuildFast
  RoundTrip RoundTripFacts EdgeFacts.

Section Zero.
  Variables (set : list N) (lw hu : nat).
  Hypothesis Hset : set <> [].
  Hypothesis Hlen : (N.of_nat (length set) < 2 ^ 64)%N.
  Hypothesis Hh : hu <= 64.

  (** Above the last level of a trie of single values, a step does not depend on the height. *)
  Lemma step_zero : forall sg q st, xb_level st < hu ->
    xb_step lw set 0 hu sg q st = xb_step 0 set (S hu) hu sg q st.
  Proof.
    intros [[l r] n] q st L. unfold xb_step.
    replace (S (xb_level st) =? S hu) with false by (symmetry; apply Nat.eqb_neq; lia). reflexivity.
  Qed.

  Lemma loop_zero_in : forall R P i fuel, i < hu -> P ++ R = groups 0 hu i set -> R <> [] -> length R <= fuel ->
    xb_loop fuel lw set 0 hu (xst set 0 hu hu i P R) =
    xb_loop (fuel - length R) lw set 0 hu (xbegin set 0 hu hu (S i)).
  Proof.
    induction R as [|g R IH]; intros P i fuel Hi E Hne Hf; [congruence|].
    destruct fuel as [|fuel]; [cbn in Hf; lia|]. cbn [length] in *.
    cbn [xb_loop]. unfold xst at 1. cbn [xb_q tups app].
    rewrite step_zero by exact Hi.
    rewrite (xstep set 0 hu hu) by (auto; lia). cbn [bind].
    assert (E' : (P ++ [g]) ++ R = groups 0 hu i set) by (rewrite <- app_assoc; auto).
    destruct R as [|g' R].
    - rewrite app_nil_r in E'. rewrite E', (xend_done set 0 hu hu) by (auto; lia).
      replace (xb_level _ =? 0) with false.
      + cbn [length]. replace (S fuel - 1) with fuel by lia. reflexivity.
      + unfold xbegin. destruct (Nat.eqb_spec (S i) hu); symmetry; apply Nat.eqb_neq; cbn; lia.
    - rewrite xend_more by (auto; lia).
      assert (0 < i).
      { destruct i; [exfalso|lia]. apply (f_equal (@length _)) in E. rewrite app_length in E. cbn in E. lia. }
      replace (xb_level _ =? 0) with false by (symmetry; apply Nat.eqb_neq; cbn; lia).
      rewrite IH; auto; try discriminate; try lia.
  Qed.

  (** On the last level the shift count is negative. *)
  Lemma loop_zero : forall n i fuel, i + n = hu -> S n * length set <= fuel ->
    xb_loop fuel lw set 0 hu (xbegin set 0 hu hu i) = UB BadShift.
  Proof.
    assert (Hl : forall i, length (groups 0 hu i set) <= length set) by (intros; apply groups_len; auto).
    assert (Hp : 0 < length set) by (destruct set; [congruence|cbn [length]; lia]).
    induction n as [|n IH]; intros i fuel E Hf; unfold xbegin.
    - replace i with hu by lia. rewrite Nat.eqb_refl. destruct fuel as [|fuel]; [lia|].
      destruct (groups 0 hu hu set) as [|g G] eqn:EG; [destruct (xG_ne set 0 hu Hset hu EG)|].
      cbn [xb_loop xlast xb_q tups]. unfold xb_step, tup. cbn [xb_level xlast Nat.eqb].
      rewrite Nat.sub_diag. reflexivity.
    - replace (i =? hu) with false by (symmetry; apply Nat.eqb_neq; lia).
      specialize (Hl i). rewrite loop_zero_in; auto; try lia; try apply (xG_ne set 0 hu Hset).
      apply IH; lia.
  Qed.
End Zero.

Lemma height_low : forall u h, (2 <= u)%N -> height_of u = Ok h -> 1 <= h /\ (pow2 (h - 1) < u)%N.
Proof.
  intros u h Hu. unfold height_of.
  destruct (u =? 1)%N; [discriminate|]. destruct (u =? 0)%N; [discriminate|].
  destruct (2 ^ 48 <? u)%N; [discriminate|]. intros E. assert (F : h = N.to_nat (N.succ (N.log2 (u - 1)))) by congruence.
  clear E. subst h. split; [lia|]. rewrite Nnat.N2Nat.inj_succ. cbn [Nat.sub]. rewrite Nat.sub_0_r.
  unfold pow2. rewrite Nnat.N2Nat.id. assert (L := N.log2_spec (u - 1) ltac:(lia)). lia.
Qed.

Lemma pow2_lt_inv : forall a b, (pow2 a < pow2 b)%N -> a < b.
Proof. unfold pow2. intros a b H. apply N.pow_lt_mono_r_iff in H; lia. Qed.

Theorem half_word : forall lw jh je u s, In lw [3; 4; 5; 6] -> (2 <= u)%N -> (2 * u <= 2 ^ N.of_nat lw)%N ->
  shorter 32 s -> s <> [] ->
  fast_build lw jh je s u = UB (if (2 ^ N.of_nat lw <? 4 * u)%N then BadShift else BadCast).
Proof.
  intros lw jh je u s Hlw Hu Hw Hs Hne. apply In_lw in Hlw.
  assert (P6 : (2 ^ N.of_nat lw <= 2 ^ 6)%N) by (apply N.pow_le_mono_r; lia).
  change (2 ^ 6)%N with 64%N in P6.
  destruct (height_of_spec u ltac:(lia)) as (h & Hh & Hr & Hp & H2 & Hk).
  destruct (height_low u h Hu Hh) as (H1 & Hl).
  assert (E1 : pow2 h = (2 * pow2 (h - 1))%N) by (rewrite <- pow2_S; f_equal; lia).
  fold (pow2 lw) in *.
  assert (Lh : h < lw) by (apply pow2_lt_inv; lia).
  assert (E2 : pow2 lw = (2 * pow2 (lw - 1))%N) by (rewrite <- pow2_S; f_equal; lia).
  unfold fast_build. rewrite Hh. cbn [bind].
  destruct (N.ltb_spec (pow2 lw) (4 * u)) as [C|C].
  - assert (h = lw - 1).
    { assert (lw - 2 < h); [|lia]. apply pow2_lt_inv.
      assert (E3 : pow2 (lw - 1) = (2 * pow2 (lw - 2))%N) by (rewrite <- pow2_S; f_equal; lia). lia. }
    replace (h + 1 <? lw) with false by (symmetry; apply Nat.ltb_ge; lia).
    replace (h + 1 - lw) with 0 by lia.
    replace (xb_loop (S h * S (length s)) lw s 0 h (xb_init s h)) with (@UB xb_state BadShift); [reflexivity|].
    symmetry. rewrite <- (loop_zero s lw h Hne ltac:(unfold shorter in Hs; lia) ltac:(lia) h 0 (S h * S (length s)));
      [|lia|nia].
    unfold xbegin, xst, xlast, xb_init. destruct (first_seg32_at s Hne ltac:(unfold shorter in Hs; lia)) as (n & ->).
    cbn [groups tups concat length flat_map app off prebits Nat.mul Nat.add map].
    unfold bv_make, xcap, tup. rewrite !Nat.sub_0_r. cbn [Nat.add].
    replace (N.of_nat (length s - 1)) with (N.of_nat (length s) - 1)%N by lia.
    destruct (Nat.eqb_spec 0 h) as [E|E]; [lia|]. apply xb_loop_count.
  - replace (h + 1 <? lw) with true; [reflexivity|]. symmetry. apply Nat.ltb_lt.
    assert (h < lw - 1); [|lia]. apply pow2_lt_inv. lia.
Qed.
