(** General lemmas on the prelude: outcomes, lists, ranges, bits. *)

From Verif Require Import Base.
From Coq Require Export ZArith Sorted Permutation ZifyBool ZifyNat ZifyN.

(** * Outcomes *)

Lemma bind_Ok : forall A B (m : result A) (f : A -> result B) a,
  m = Ok a -> bind m f = f a.
Proof. intros; subst; reflexivity. Qed.

Lemma bind_inv : forall A B (m : result A) (f : A -> result B) b,
  bind m f = Ok b -> exists a, m = Ok a /\ f a = Ok b.
Proof. intros A B [a|e|] f b H; cbn in H; try discriminate; eauto. Qed.

(** * Vectors *)

Lemma vget_app_mid : forall A (l : list A) x r i,
  length l = i -> vget (l ++ x :: r) i = Ok x.
Proof.
  intros; unfold vget; subst. rewrite nth_error_app2 by lia.
  rewrite Nat.sub_diag; reflexivity.
Qed.

Lemma vget_nth : forall A (l : list A) i x, nth_error l i = Some x -> vget l i = Ok x.
Proof. intros; unfold vget; rewrite H; reflexivity. Qed.

Lemma vget_inv : forall A (l : list A) i x, vget l i = Ok x -> nth_error l i = Some x.
Proof. unfold vget; intros. destruct (nth_error l i); congruence. Qed.

Lemma vget_len : forall A (l : list A) i, length l <= i -> vget l i = UB OutOfBounds.
Proof. intros; unfold vget. rewrite (proj2 (nth_error_None l i)); auto. Qed.

Lemma vset_app_mid : forall A (l : list A) x y r i,
  length l = i -> vset (l ++ x :: r) i y = Ok (l ++ y :: r).
Proof.
  intros; unfold vset; subst. rewrite app_length; cbn [length].
  replace (length l <? length l + S (length r)) with true
    by (symmetry; apply Nat.ltb_lt; lia).
  rewrite firstn_app, firstn_all, Nat.sub_diag. cbn [firstn]. rewrite app_nil_r.
  replace (skipn (S (length l)) (l ++ x :: r)) with r; auto.
  rewrite skipn_app. rewrite skipn_all2 by lia.
  replace (S (length l) - length l) with 1 by lia. reflexivity.
Qed.

Lemma split_at : forall A (l : list A) i x, nth_error l i = Some x ->
  exists a b, l = a ++ x :: b /\ length a = i.
Proof. intros. apply nth_error_split in H. auto. Qed.

Lemma vset_spec : forall A (l : list A) i y, i < length l ->
  exists l', vset l i y = Ok l' /\ length l' = length l /\
    forall j, nth_error l' j = if j =? i then Some y else nth_error l j.
Proof.
  intros A l i y H. destruct (nth_error l i) eqn:E.
  - apply split_at in E. destruct E as (l1 & l2 & -> & <-).
    exists (l1 ++ y :: l2). rewrite vset_app_mid by auto. split; [auto|]. split.
    + rewrite !app_length; reflexivity.
    + intros j. destruct (Nat.eqb_spec j (length l1)).
      * subst. rewrite nth_error_app2, Nat.sub_diag by lia. reflexivity.
      * destruct (Nat.lt_ge_cases j (length l1)).
        { rewrite !nth_error_app1 by auto. reflexivity. }
        rewrite !nth_error_app2 by auto.
        replace (j - length l1) with (S (j - length l1 - 1)) by lia. reflexivity.
  - apply nth_error_None in E. lia.
Qed.

Lemma aget_Some : forall A (l : list (option A)) i x,
  nth_error l i = Some (Some x) -> aget l i = Ok x.
Proof. intros; unfold aget. erewrite vget_nth by eassumption. reflexivity. Qed.

(** * Counted loops *)

Lemma for_loop_inv : forall S (P : nat -> S -> Prop) (f : nat -> S -> result S) n i s,
  P i s ->
  (forall j s, i <= j < i + n -> P j s -> exists s', f j s = Ok s' /\ P (Datatypes.S j) s') ->
  exists s', for_loop n i f s = Ok s' /\ P (i + n) s'.
Proof.
  intros S P f n; induction n; intros i s H0 Hs; cbn [for_loop].
  - rewrite Nat.add_0_r; eauto.
  - destruct (Hs i s) as (s' & -> & H'); try lia; auto. cbn [bind].
    destruct (IHn (Datatypes.S i) s' H') as (s'' & -> & H'').
    + intros; apply Hs; auto; lia.
    + exists s''; split; auto. replace (i + Datatypes.S n) with (Datatypes.S i + n) by lia. auto.
Qed.

Lemma for_loop_ext : forall S (f g : nat -> S -> result S) n i s,
  (forall j s, i <= j < i + n -> f j s = g j s) ->
  for_loop n i f s = for_loop n i g s.
Proof.
  intros S f g n; induction n; intros i s H; cbn [for_loop]; auto.
  rewrite H by lia. destruct (g i s); cbn [bind]; auto. apply IHn; intros; apply H; lia.
Qed.

Lemma for_loop_app : forall S (f : nat -> S -> result S) a b i s,
  for_loop (a + b) i f s = bind (for_loop a i f s) (for_loop b (i + a) f).
Proof.
  intros S f a; induction a; intros b i s; cbn [for_loop Nat.add bind].
  - rewrite Nat.add_0_r. destruct (for_loop b i f s); reflexivity.
  - destruct (f i s); cbn [bind]; auto. rewrite IHa.
    replace (Datatypes.S i + a) with (i + Datatypes.S a) by lia. reflexivity.
Qed.

(** * Bit vectors *)

Lemma count_true_app : forall a b, count_true (a ++ b) = count_true a + count_true b.
Proof. induction a as [|[] a IH]; intros; cbn; rewrite ?IH; auto. Qed.

Lemma count_true_false : forall n, count_true (repeat false n) = 0.
Proof. induction n; auto. Qed.

Lemma count_true_le : forall l, count_true l <= length l.
Proof. induction l as [|[] l IH]; cbn; lia. Qed.

Lemma rank1_app : forall a b i, i = length a -> rank1 (a ++ b) i = Ok (count_true a).
Proof.
  intros; subst; unfold rank1. rewrite app_length.
  replace (_ <=? _) with true by (symmetry; apply Nat.leb_le; lia).
  rewrite firstn_app, Nat.sub_diag, firstn_all. cbn [firstn]. rewrite app_nil_r. auto.
Qed.

Lemma bv_resize_app : forall a b n, n = length a -> bv_resize (a ++ b) n = a.
Proof.
  intros; subst; unfold bv_resize. rewrite firstn_app, Nat.sub_diag, firstn_all.
  cbn [firstn]. rewrite !app_nil_r, app_length.
  replace (length a - (length a + length b)) with 0 by lia. cbn. apply app_nil_r.
Qed.

(** * Ranges *)

Lemma nrange_length : forall n p, length (nrange p n) = n.
Proof. induction n; intros; cbn; auto. Qed.

Lemma nrange_app : forall a b p, nrange p (a + b) = nrange p a ++ nrange (p + N.of_nat a) b.
Proof.
  induction a; intros; cbn [nrange Nat.add app].
  - rewrite N.add_0_r; auto.
  - rewrite IHa. do 3 f_equal. lia.
Qed.

Lemma In_nrange : forall n p x, In x (nrange p n) <-> (p <= x < p + N.of_nat n)%N.
Proof.
  induction n; intros; cbn [nrange In].
  - lia.
  - rewrite IHn. lia.
Qed.

Lemma nrange_sorted : forall n p, StronglySorted N.lt (nrange p n).
Proof.
  induction n; intros; cbn; constructor; auto.
  apply Forall_forall. intros x H. apply In_nrange in H. lia.
Qed.

Lemma filter_sorted : forall A (R : A -> A -> Prop) f l,
  StronglySorted R l -> StronglySorted R (filter f l).
Proof.
  induction 1; cbn; [constructor|]. destruct (f a); auto. constructor; auto.
  rewrite Forall_forall in *. intros x Hx. apply filter_In in Hx. apply H0; tauto.
Qed.

Lemma sorted_unique : forall a b,
  StronglySorted N.lt a -> StronglySorted N.lt b ->
  (forall x, In x a <-> In x b) -> a = b.
Proof.
  intros a b Ha; revert b. induction Ha as [|x a Ha IH Hx]; intros b Hb E.
  - destruct b; auto. exfalso. apply (E n). left; auto.
  - destruct Hb as [|y b Hb Hy].
    + exfalso. apply (E x). left; auto.
    + rewrite Forall_forall in Hx, Hy.
      assert (x = y).
      { assert (In x (y :: b)) by (apply E; left; auto).
        assert (In y (x :: a)) by (apply E; left; auto).
        destruct H; auto. destruct H0; auto. apply Hx in H0. apply Hy in H. lia. }
      subst y. f_equal. apply IH; auto. intros z; split; intros Hz.
      * assert (In z (x :: b)) by (apply E; right; auto). destruct H; auto.
        subst. apply Hx in Hz. lia.
      * assert (In z (x :: a)) by (apply E; right; auto). destruct H; auto.
        subst. apply Hy in Hz. lia.
Qed.

Lemma filter_none : forall A (f : A -> bool) l,
  (forall x, In x l -> f x = false) -> filter f l = [].
Proof.
  induction l; intros; cbn; auto. rewrite H by (left; auto). apply IHl; intros; apply H; right; auto.
Qed.

Lemma filter_all : forall A (f : A -> bool) l,
  (forall x, In x l -> f x = true) -> filter f l = l.
Proof.
  induction l; intros; cbn; auto. rewrite H by (left; auto).
  f_equal. apply IHl; intros; apply H; right; auto.
Qed.

Lemma filter_ext_in' : forall A (f g : A -> bool) l,
  (forall x, In x l -> f x = g x) -> filter f l = filter g l.
Proof.
  induction l; intros; cbn; auto. rewrite H by (left; auto). rewrite IHl; auto.
  intros; apply H; right; auto.
Qed.

(** * Powers of two and aligned prefixes *)

Definition pow2 (k : nat) : N := (2 ^ N.of_nat k)%N.

Lemma pow2_S : forall k, pow2 (S k) = (2 * pow2 k)%N.
Proof. intros; unfold pow2. rewrite Nat2N.inj_succ, N.pow_succ_r'. auto. Qed.

Lemma pow2_0 : pow2 0 = 1%N.
Proof. reflexivity. Qed.

Lemma pow2_pos : forall k, (0 < pow2 k)%N.
Proof. induction k; [cbn; lia|]. rewrite pow2_S. lia. Qed.

Lemma pow2_nz : forall k, pow2 k <> 0%N.
Proof. intros; generalize (pow2_pos k); lia. Qed.

Lemma of_nat_pow2 : forall k, N.of_nat (2 ^ k) = pow2 k.
Proof. induction k; [auto|]. rewrite pow2_S. cbn [Nat.pow]. lia. Qed.

Lemma pow2_add : forall a b, pow2 (a + b) = (pow2 a * pow2 b)%N.
Proof. intros; unfold pow2. rewrite Nat2N.inj_add, N.pow_add_r. auto. Qed.

Definition aligned (k : nat) (p : N) : Prop := (p mod pow2 k = 0)%N.

Lemma aligned_0 : forall k, aligned k 0.
Proof. intros; unfold aligned. apply N.mod_0_l, pow2_nz. Qed.

Lemma aligned_ex : forall k p, aligned k p <-> exists q, p = (q * pow2 k)%N.
Proof.
  intros; unfold aligned. generalize (pow2_nz k); intros. split.
  - intros E. exists (p / pow2 k)%N. rewrite (N.div_mod' p (pow2 k)) at 1. lia.
  - intros (q & ->). apply N.mod_mul; auto.
Qed.

Lemma aligned_S : forall k p, aligned (S k) p -> aligned k p.
Proof.
  intros k p H. apply aligned_ex in H. destruct H as (q & ->). apply aligned_ex.
  exists (2 * q)%N. rewrite pow2_S. lia.
Qed.

Lemma aligned_le : forall j k p, j <= k -> aligned k p -> aligned j p.
Proof. induction 1; auto. intros; apply IHle, aligned_S; auto. Qed.

Lemma aligned_right : forall k p, aligned (S k) p -> aligned k (p + pow2 k).
Proof.
  intros k p H. apply aligned_ex in H. destruct H as (q & ->). apply aligned_ex.
  exists (2 * q + 1)%N. rewrite pow2_S. lia.
Qed.

Lemma testbit_div : forall x k, N.testbit x (N.of_nat k) = N.odd (x / pow2 k).
Proof.
  intros. rewrite <- N.bit0_odd. unfold pow2. rewrite N.div_pow2_bits. f_equal.
Qed.

Lemma testbit_left : forall k p x,
  aligned (S k) p -> (p <= x < p + pow2 k)%N -> N.testbit x (N.of_nat k) = false.
Proof.
  intros k p x H Hx. apply aligned_ex in H. destruct H as (q & ->).
  rewrite testbit_div. rewrite pow2_S in *.
  replace (x / pow2 k)%N with (2 * q)%N.
  - rewrite N.odd_mul. reflexivity.
  - apply N.div_unique with (r := (x - q * (2 * pow2 k))%N); lia.
Qed.

Lemma testbit_right : forall k p x,
  aligned (S k) p -> (p + pow2 k <= x < p + pow2 (S k))%N -> N.testbit x (N.of_nat k) = true.
Proof.
  intros k p x H Hx. apply aligned_ex in H. destruct H as (q & ->).
  rewrite testbit_div. rewrite pow2_S in *.
  replace (x / pow2 k)%N with (2 * q + 1)%N.
  - rewrite N.odd_add, N.odd_mul. reflexivity.
  - apply N.div_unique with (r := (x - q * (2 * pow2 k) - pow2 k)%N); lia.
Qed.

Lemma land_low_0 : forall k p y,
  aligned k p -> (y < pow2 k)%N -> N.land p y = 0%N.
Proof.
  intros k p y H Hy. apply aligned_ex in H. destruct H as (q & ->).
  apply N.bits_inj. intros i. rewrite N.bits_0, N.land_spec.
  destruct (N.lt_ge_cases i (N.of_nat k)).
  - unfold pow2. rewrite N.mul_pow2_bits_low by auto. reflexivity.
  - destruct (N.eq_dec y 0) as [->|Hnz]. { rewrite N.bits_0. apply andb_false_r. }
    rewrite (N.bits_above_log2 y i). { apply andb_false_r. }
    apply N.log2_lt_pow2 in Hy; lia.
Qed.

Lemma lor_low : forall k p y,
  aligned k p -> (y < pow2 k)%N -> N.lor p y = (p + y)%N.
Proof.
  intros k p y H Hy. generalize (land_low_0 k p y H Hy); intros E.
  rewrite <- N.lxor_lor by auto. symmetry. apply N.add_nocarry_lxor. auto.
Qed.

Lemma shl1_pow2 : forall k, k < 64 -> shl1 k = Ok (pow2 k).
Proof.
  intros; unfold shl1. rewrite (proj2 (Nat.ltb_lt _ _) H).
  rewrite N.shiftl_1_l. reflexivity.
Qed.

Lemma lor_right : forall k p, aligned (S k) p -> N.lor p (pow2 k) = (p + pow2 k)%N.
Proof.
  intros. apply lor_low with (k := S k); auto. rewrite pow2_S. generalize (pow2_pos k); lia.
Qed.

Lemma push_range_aligned : forall k p v, aligned k p ->
  push_range v p (N.lor p (pow2 k - 1)) = v ++ nrange p (2 ^ k).
Proof.
  intros k p v H. unfold push_range. generalize (pow2_pos k); intros.
  rewrite (lor_low k) by (auto; lia). do 2 f_equal.
  generalize (of_nat_pow2 k). lia.
Qed.

Lemma nrange_halves : forall k p,
  nrange p (2 ^ S k) = nrange p (2 ^ k) ++ nrange (p + pow2 k) (2 ^ k).
Proof.
  intros. replace (2 ^ S k) with (2 ^ k + 2 ^ k) by (cbn [Nat.pow]; lia).
  rewrite nrange_app, of_nat_pow2. reflexivity.
Qed.

Lemma In_half : forall k p x, In x (nrange p (2 ^ k)) <-> (p <= x < p + pow2 k)%N.
Proof. intros; rewrite In_nrange, of_nat_pow2. tauto. Qed.

(** * Miscellaneous list facts *)

Lemma flat_map_app' : forall A B (f : A -> list B) a b,
  flat_map f (a ++ b) = flat_map f a ++ flat_map f b.
Proof. induction a; intros; cbn; auto. rewrite IHa, app_assoc. auto. Qed.

Lemma nth_error_firstn_skipn : forall A (l : list A) k x,
  nth_error l k = Some x -> l = firstn k l ++ x :: skipn (S k) l.
Proof.
  induction l; intros [|k] x H; cbn in *; try discriminate.
  - congruence.
  - f_equal. apply IHl; auto.
Qed.

Lemma repeat_S_app : forall A (x : A) n, repeat x (S n) = x :: repeat x n.
Proof. reflexivity. Qed.
