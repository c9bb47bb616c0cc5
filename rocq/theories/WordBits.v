(** Enumeration of the ones of a word: the loop that isolates the lowest one. *)

From Verif Require Import Base FastTrie Facts Tree Groups BuildFast.

Lemma ctz_loop_spec : forall fuel w j k,
  (j <= k < j + N.of_nat fuel)%N ->
  (forall i, (i < k)%N -> N.testbit w i = false) -> N.testbit w k = true ->
  ctz_loop fuel w j = k.
Proof.
  induction fuel as [|fuel IH]; intros w j k Hk Hlow Hbit; [lia|].
  cbn [ctz_loop]. destruct (N.eq_dec j k) as [->|Hne].
  - rewrite Hbit. auto.
  - rewrite Hlow by lia. apply IH; auto. lia.
Qed.

Lemma land_twos_complement : forall W w k, (w < 2 ^ W)%N ->
  (forall i, (i < k)%N -> N.testbit w i = false) -> N.testbit w k = true ->
  N.land w (2 ^ W - w) = (2 ^ k)%N.
Proof.
  intros W w k Hw Hlow Hbit.
  assert (HkW : (k < W)%N).
  { destruct (N.lt_ge_cases k W) as [H|H]; auto.
    rewrite N.testbit_eqb in Hbit. rewrite N.div_small in Hbit; [discriminate|].
    assert (2 ^ W <= 2 ^ k)%N by (apply N.pow_le_mono_r; lia). lia. }
  set (m := (w / 2 ^ (k + 1))%N).
  assert (Ew : w = (2 ^ k * (2 * m + 1))%N).
  { apply N.bits_inj. intros i. destruct (N.lt_ge_cases i k) as [Hi|Hi].
    - rewrite Hlow by auto. rewrite N.mul_comm, N.mul_pow2_bits_low; auto.
    - replace i with (i - k + k)%N by lia.
      rewrite (N.mul_comm (2 ^ k)), N.mul_pow2_bits_add.
      destruct (N.eq_dec i k) as [->|Hn].
      + rewrite N.sub_diag. cbn [N.add]. rewrite N.testbit_odd_0. auto.
      + replace (i - k)%N with (N.succ (i - k - 1)) by lia.
        rewrite N.testbit_odd_succ by lia. unfold m.
        rewrite N.div_pow2_bits. f_equal. lia. }
  set (n := (W - k - 1)%N).
  assert (EW : (2 ^ W = 2 ^ k * (2 * 2 ^ n))%N).
  { rewrite <- N.pow_succ_r'. rewrite <- N.pow_add_r. f_equal. lia. }
  assert (Hm : (m < 2 ^ n)%N).
  { rewrite Ew, EW in Hw. apply N.mul_lt_mono_pos_l in Hw; [lia|].
    apply N.neq_0_lt_0, N.pow_nonzero. discriminate. }
  assert (E2 : (2 ^ W - w = 2 ^ k * (2 * (N.ones n - m) + 1))%N).
  { rewrite Ew at 1. rewrite EW, <- N.mul_sub_distr_l. f_equal. rewrite N.ones_equiv. lia. }
  rewrite E2. rewrite Ew at 1.
  assert (Hand : N.land m (N.ones n - m) = 0%N).
  { destruct (N.eq_dec m 0) as [->|Hm0]; [reflexivity|].
    assert (N.log2 m < n)%N by (apply N.log2_lt_pow2; lia).
    rewrite <- N.lnot_sub_low by auto. apply N.land_lnot_diag_low; auto. }
  apply N.bits_inj. intros i. rewrite N.land_spec, N.pow2_bits_eqb.
  destruct (N.lt_ge_cases i k) as [Hi|Hi].
  - rewrite N.mul_comm, N.mul_pow2_bits_low by auto. symmetry. apply N.eqb_neq. lia.
  - replace i with (i - k + k)%N by lia.
    rewrite !(N.mul_comm (2 ^ k)), !N.mul_pow2_bits_add.
    destruct (N.eq_dec i k) as [->|Hn].
    + rewrite N.sub_diag. rewrite !N.testbit_odd_0. rewrite N.add_0_l, N.eqb_refl. auto.
    + replace (i - k)%N with (N.succ (i - k - 1)) by lia.
      rewrite !N.testbit_odd_succ by lia.
      rewrite <- N.land_spec, Hand, N.bits_0. symmetry. apply N.eqb_neq. lia.
Qed.

Lemma testbit_big : forall w W i, (w < 2 ^ W)%N -> (W <= i)%N -> N.testbit w i = false.
Proof.
  intros w W i Hw Hi. rewrite N.testbit_eqb. rewrite N.div_small; [reflexivity|].
  assert (2 ^ W <= 2 ^ i)%N by (apply N.pow_le_mono_r; lia). lia.
Qed.

Lemma bits_bound : forall w W, (forall i, (W <= i)%N -> N.testbit w i = false) -> (w < 2 ^ W)%N.
Proof.
  intros w W H. replace w with (w mod 2 ^ W)%N.
  - apply N.mod_lt. apply N.pow_nonzero. discriminate.
  - apply N.bits_inj. intros i. destruct (N.lt_ge_cases i W).
    + apply N.mod_pow2_bits_low; auto.
    + rewrite N.mod_pow2_bits_high by auto. symmetry; auto.
Qed.

Lemma word_bits_from : forall n k lw w base v fuel, lw <= 6 ->
  (k + N.of_nat n = pow2 lw)%N -> (w < 2 ^ pow2 lw)%N ->
  (forall i, (i < k)%N -> N.testbit w i = false) -> n <= fuel ->
  word_bits fuel lw w base v =
  Ok (v ++ map (fun e => e + base)%N (filter (N.testbit w) (nrange k n))).
Proof.
  induction n as [|n IH]; intros k lw w base v fuel Hlw Hk Hw Hlow Hf.
  - assert (w = 0%N).
    { apply N.bits_inj_0. intros i. destruct (N.lt_ge_cases i k); auto.
      apply testbit_big with (W := pow2 lw); auto. lia. }
    subst w. destruct fuel; cbn; rewrite app_nil_r; auto.
  - cbn [nrange filter]. destruct (N.testbit w k) eqn:Hbit.
    + assert (Hw0 : w <> 0%N) by (intros ->; rewrite N.bits_0 in Hbit; discriminate).
      destruct fuel as [|fuel]; [lia|]. cbn [word_bits].
      replace (w =? 0)%N with false by (symmetry; apply N.eqb_neq; auto).
      assert (H64 : (pow2 lw <= 64)%N).
      { change 64%N with (2 ^ 6)%N. apply N.pow_le_mono_r; lia. }
      assert (Hc : ctzll w = k).
      { unfold ctzll. apply ctz_loop_spec; auto. lia. }
      assert (Ht : N.land w (N.modulo (wmax lw - w + 1) (2 ^ wbits lw)) = (2 ^ k)%N).
      { unfold wmax. rewrite N.ones_equiv. rewrite wbits_pow2.
        replace (N.pred (2 ^ pow2 lw) - w + 1)%N with (2 ^ pow2 lw - w)%N by lia.
        rewrite N.mod_small by lia. apply land_twos_complement; auto. }
      rewrite Hc, Ht.
      assert (Hx : forall i, N.testbit (N.lxor w (2 ^ k)) i =
                             if N.eqb i k then false else N.testbit w i).
      { intros i. rewrite N.lxor_spec, N.pow2_bits_eqb, N.eqb_sym.
        destruct (N.eqb_spec i k) as [->|]; [rewrite Hbit; auto | apply xorb_false_r]. }
      rewrite (IH (k + 1)%N); auto; try lia.
      * cbn [map]. rewrite <- app_assoc. cbn [app]. do 4 f_equal.
        replace (N.succ k) with (k + 1)%N by lia.
        apply filter_ext_in. intros i Hi. apply In_nrange in Hi. rewrite Hx.
        destruct (N.eqb_spec i k); [lia|]. auto.
      * apply bits_bound. intros i Hi. rewrite Hx. destruct (N.eqb_spec i k); auto.
        apply testbit_big with (W := pow2 lw); auto.
      * intros i Hi. rewrite Hx. destruct (N.eqb_spec i k); auto. apply Hlow. lia.
    + replace (N.succ k) with (k + 1)%N by lia.
      apply IH; auto; try lia.
      intros i Hi. destruct (N.eq_dec i k) as [->|]; auto. apply Hlow. lia.
Qed.

(** All the ones of a word, shifted to the block that starts at [p]. *)
Theorem word_bits_spec : forall lw w p v, lw <= 6 -> (w < 2 ^ pow2 lw)%N -> aligned lw p ->
  word_bits (word_fuel lw) lw w p v = Ok (v ++ filter (wmem lw w) (nrange p (2 ^ lw))).
Proof.
  intros lw w p v Hlw Hw Ha. rewrite (word_bits_from (2 ^ lw) 0); auto.
  - do 2 f_equal.
    assert (H : forall n k, filter (wmem lw w) (nrange (k + p) n) =
              map (fun e => e + p)%N (filter (fun e => wmem lw w (e + p)) (nrange k n))).
    { induction n; intros; cbn [nrange filter map]; auto.
      replace (N.succ (k + p)) with (N.succ k + p)%N by lia. rewrite IHn.
      destruct (wmem lw w (k + p)); reflexivity. }
    specialize (H (2 ^ lw) 0%N). cbn [N.add] in H. rewrite H. f_equal.
    apply filter_ext_in. intros e He. apply In_nrange in He.
    unfold wmem. rewrite (low_bits lw p) by (auto; rewrite of_nat_pow2 in He; lia).
    f_equal. lia.
  - rewrite of_nat_pow2. lia.
  - intros; lia.
Qed.
