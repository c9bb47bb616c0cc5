(** The constructors on arbitrary lists: the trie of a list is the trie of the sorted list
    of the values it keeps. *)

From Coq Require Import Permutation.
From Verif Require Import Base Facts Tree Groups BuildFlat BuildFast WordBits Spec SpecOrder.

(** Place [x] in the subtree of height [d] (words of 2^lg values) after the value [p]. *)
Fixpoint place (lg d : nat) (p x : N) : N :=
  match d with
  | O => (x mod pow2 lg)%N
  | S d' =>
    if N.testbit p (N.of_nat (d' + lg)) then (pow2 (d' + lg) + place lg d' p x)%N
    else if N.testbit x (N.of_nat (d' + lg)) then (pow2 (d' + lg) + x mod pow2 (d' + lg))%N
    else place lg d' p x
  end.

Fixpoint scan (lg d : nat) (p : N) (l : list N) : list N :=
  match l with
  | [] => []
  | x :: l' => place lg d p x :: scan lg d (place lg d p x) l'
  end.

Lemma pow2_pos : forall k, (0 < pow2 k)%N.
Proof. intros. assert (H := pow2_nz k). lia. Qed.

Lemma pow2_mono : forall a b, a <= b -> (pow2 a <= pow2 b)%N.
Proof. intros. unfold pow2. apply N.pow_le_mono_r; lia. Qed.

Lemma place_lt : forall lg d p x, (place lg d p x < pow2 (d + lg))%N.
Proof.
  induction d; intros; cbn [place].
  - apply N.mod_lt, pow2_nz.
  - cbn [Nat.add]. rewrite pow2_S. specialize (IHd p x).
    assert (H := N.mod_lt x _ (pow2_nz (d + lg))).
    destruct (N.testbit p _); [lia|]. destruct (N.testbit x _); lia.
Qed.

Lemma scan_lt : forall lg d l p, Forall (fun y => y < pow2 (d + lg))%N (scan lg d p l).
Proof. induction l; intros; cbn [scan]; constructor; auto. apply place_lt. Qed.

Lemma scan_length : forall lg d l p, length (scan lg d p l) = length l.
Proof. induction l; intros; cbn [scan length]; auto. Qed.

(** Only the low bits count. *)
Lemma place_low : forall lg d p p' x x',
  (forall i, (i < N.of_nat (d + lg))%N -> N.testbit p i = N.testbit p' i) ->
  (forall i, (i < N.of_nat (d + lg))%N -> N.testbit x i = N.testbit x' i) ->
  place lg d p x = place lg d p' x'.
Proof.
  induction d; intros p p' x x' Hp Hx; cbn [place].
  - apply N.bits_inj. intros i. unfold pow2. destruct (N.lt_ge_cases i (N.of_nat lg)).
    + rewrite !N.mod_pow2_bits_low by auto. apply Hx. lia.
    + rewrite !N.mod_pow2_bits_high by auto. auto.
  - rewrite (Hp (N.of_nat (d + lg))) by lia. rewrite (Hx (N.of_nat (d + lg))) by lia.
    rewrite (IHd p p' x x') by (intros; (apply Hp || apply Hx); lia).
    destruct (N.testbit p' _); auto. destruct (N.testbit x' _); auto. f_equal.
    apply N.bits_inj. intros i. unfold pow2. destruct (N.lt_ge_cases i (N.of_nat (d + lg))).
    + rewrite !N.mod_pow2_bits_low by auto. apply Hx. lia.
    + rewrite !N.mod_pow2_bits_high by auto. auto.
Qed.

Lemma scan_low : forall lg d l p p',
  (forall i, (i < N.of_nat (d + lg))%N -> N.testbit p i = N.testbit p' i) ->
  scan lg d p l = scan lg d p' l.
Proof.
  intros lg d [|x l] p p' H; cbn [scan]; auto.
  rewrite (place_low lg d p p' x x); auto.
Qed.

Lemma scan_map_low : forall lg d f l p,
  (forall x i, (i < N.of_nat (d + lg))%N -> N.testbit (f x) i = N.testbit x i) ->
  scan lg d p (map f l) = scan lg d p l.
Proof.
  induction l; intros p H; cbn [scan map]; auto.
  rewrite (place_low lg d p p (f a) a) by auto. rewrite IHl; auto.
Qed.

Lemma testbit_plus_pow2 : forall k z, (z < pow2 k)%N ->
  N.testbit (pow2 k + z) (N.of_nat k) = true /\
  forall i, (i < N.of_nat k)%N -> N.testbit (pow2 k + z) i = N.testbit z i.
Proof.
  intros k z Hz.
  assert (L : N.land (pow2 k) z = 0%N).
  { apply N.bits_inj_0. intros i. rewrite N.land_spec. unfold pow2. rewrite N.pow2_bits_eqb.
    destruct (N.eqb_spec (N.of_nat k) i) as [<-|]; auto. cbn [andb].
    apply testbit_big with (W := N.of_nat k); auto. lia. }
  split; [|intros i Hi]; rewrite N.add_nocarry_lxor by auto; rewrite N.lxor_spec; unfold pow2;
    rewrite N.pow2_bits_eqb.
  - rewrite N.eqb_refl. rewrite testbit_big with (W := N.of_nat k); auto. lia.
  - destruct (N.eqb_spec (N.of_nat k) i); [lia|]. apply xorb_false_l.
Qed.

Lemma place_zero : forall lg d x, place lg d 0 x = (x mod pow2 (d + lg))%N.
Proof.
  induction d; intros; cbn [place]; auto. rewrite N.bits_0.
  assert (E : (x mod pow2 (S d + lg) = (if N.testbit x (N.of_nat (d + lg)) then pow2 (d + lg) else 0)
               + x mod pow2 (d + lg))%N).
  { cbn [Nat.add]. rewrite pow2_S, N.mul_comm. rewrite N.mod_mul_r by (try apply pow2_nz; lia).
    rewrite N.add_comm. f_equal. rewrite N.testbit_eqb. fold (pow2 (d + lg)).
    assert (H : ((x / pow2 (d + lg)) mod 2 < 2)%N) by (apply N.mod_lt; lia).
    revert H. generalize ((x / pow2 (d + lg)) mod 2)%N. intros m Hm.
    destruct (N.eqb_spec m 1) as [->|n]; [lia|]. replace m with 0%N by lia. lia. }
  rewrite E, IHd. destruct (N.testbit x _); lia.
Qed.

(** Everything after a value in the right half goes to the right half. *)
Lemma scan_right : forall lg d l p, N.testbit p (N.of_nat (d + lg)) = true ->
  scan lg (S d) p l = map (N.add (pow2 (d + lg))) (scan lg d p l).
Proof.
  induction l; intros p Hp; cbn [scan map]; auto.
  assert (E : place lg (S d) p a = (pow2 (d + lg) + place lg d p a)%N)
    by (cbn [place]; rewrite Hp; auto).
  rewrite E. f_equal. assert (L := place_lt lg d p a).
  destruct (testbit_plus_pow2 _ _ L) as (B1 & B2). rewrite IHl by auto. f_equal.
  apply scan_low. intros. apply B2. auto.
Qed.

Lemma scan_split : forall lg d l p, N.testbit p (N.of_nat (d + lg)) = false ->
  scan lg (S d) p l = scan lg d p (lefts (d + lg) l)
                      ++ map (N.add (pow2 (d + lg))) (scan lg d 0 (rights (d + lg) l)).
Proof.
  induction l; intros p Hp; cbn [scan lefts rights]; auto.
  destruct (N.testbit a (N.of_nat (d + lg))) eqn:Ha.
  - assert (E : place lg (S d) p a = (pow2 (d + lg) + place lg d 0 a)%N).
    { rewrite place_zero. cbn [place]. rewrite Hp, Ha. auto. }
    rewrite E. cbn [app scan map]. f_equal. assert (L := place_lt lg d 0 a).
    destruct (testbit_plus_pow2 _ _ L) as (B1 & B2). rewrite scan_right by auto. f_equal.
    apply scan_low. intros. apply B2. auto.
  - assert (E : place lg (S d) p a = place lg d p a) by (cbn [place]; rewrite Hp, Ha; auto).
    rewrite E. cbn [app scan]. f_equal. apply IHl.
    apply testbit_big with (W := N.of_nat (d + lg)); [apply place_lt|lia].
Qed.

Lemma lefts_app_small : forall k a b, Forall (fun y => y < pow2 k)%N a ->
  Forall (fun y => N.testbit y (N.of_nat k) = true) b ->
  lefts k (a ++ b) = a /\ rights k (a ++ b) = b.
Proof.
  induction 1; intros Hb; cbn [app].
  - destruct b as [|y b]; cbn; auto. inversion Hb; subst. rewrite H1. auto.
  - cbn [lefts rights]. rewrite testbit_big with (W := N.of_nat k) by (auto; lia).
    destruct (IHForall Hb) as (-> & ->). auto.
Qed.

Section Trees.
  Context {A : Type}.
  Variable mkleaf : list N -> A.
  Variable lg : nat.
  Hypothesis leaf_low : forall f s, (forall x i, (i < N.of_nat lg)%N -> N.testbit (f x) i = N.testbit x i) ->
    mkleaf (map f s) = mkleaf s.

  Lemma lefts_map_low : forall b f s,
    (forall x, N.testbit (f x) (N.of_nat b) = N.testbit x (N.of_nat b)) ->
    lefts b (map f s) = map f (lefts b s) /\ rights b (map f s) = map f (rights b s).
  Proof.
    clear. induction s; intros H; cbn [map lefts rights]; auto. rewrite H.
    destruct (N.testbit a _); auto. destruct (IHs H) as (-> & ->). auto.
  Qed.

  Lemma tree_of_low : forall d f s,
    (forall x i, (i < N.of_nat (d + lg))%N -> N.testbit (f x) i = N.testbit x i) ->
    tree_of mkleaf lg d (map f s) = tree_of mkleaf lg d s.
  Proof.
    induction d; intros f s H; cbn [tree_of].
    - rewrite leaf_low; auto.
    - destruct (lefts_map_low (d + lg) f s) as (-> & ->).
      { intros. apply H. lia. }
      assert (H' : forall x i, (i < N.of_nat (d + lg))%N -> N.testbit (f x) i = N.testbit x i).
      { intros. apply H. lia. }
      destruct (lefts (d + lg) s) as [|y ys] eqn:EL, (rights (d + lg) s) as [|z zs] eqn:ER; cbn [map];
        change (f z :: map f zs) with (map f (z :: zs)) || idtac;
        change (f y :: map f ys) with (map f (y :: ys)) || idtac;
        rewrite ?(IHd f (y :: ys) H'), ?(IHd f (z :: zs) H'); auto.
  Qed.

  (** The tree of a list is the tree of the values kept. *)
  Theorem tree_of_scan : forall d l, tree_of mkleaf lg d (scan lg d 0 l) = tree_of mkleaf lg d l.
  Proof.
    induction d; intros l.
    - cbn [tree_of]. f_equal. transitivity (mkleaf (map (fun x => x mod pow2 lg)%N l)).
      + f_equal. generalize 0%N. induction l; intros; cbn [scan map place]; f_equal; auto.
      + apply leaf_low. intros. unfold pow2. apply N.mod_pow2_bits_low. auto.
    - rewrite scan_split by apply N.bits_0.
      set (k := d + lg). set (g := scan lg d 0 (rights k l)).
      assert (Hg : Forall (fun y => y < pow2 k)%N g) by apply scan_lt.
      assert (Hb : Forall (fun y => N.testbit y (N.of_nat k) = true) (map (N.add (pow2 k)) g)).
      { apply Forall_forall. intros y Hy. apply in_map_iff in Hy. destruct Hy as (z & <- & Hz).
        rewrite Forall_forall in Hg. apply testbit_plus_pow2. auto. }
      cbn [tree_of]. fold k.
      destruct (lefts_app_small k (scan lg d 0 (lefts k l)) _ (scan_lt _ _ _ _) Hb) as (-> & ->).
      assert (ER : tree_of mkleaf lg d (map (N.add (pow2 k)) g) = tree_of mkleaf lg d (rights k l)).
      { rewrite <- (IHd (rights k l)). fold g.
        set (f := fun y => if (y <? pow2 k)%N then (pow2 k + y)%N else y).
        replace (map (N.add (pow2 k)) g) with (map f g).
        - apply tree_of_low. intros x i Hi. unfold f. destruct (N.ltb_spec x (pow2 k)); auto.
          apply testbit_plus_pow2; auto.
        - apply map_ext_in. intros y Hy. rewrite Forall_forall in Hg. apply Hg in Hy.
          unfold f. apply N.ltb_lt in Hy. rewrite Hy. auto. }
      assert (EL := IHd (lefts k l)).
      unfold g in *. clear g Hg Hb.
      destruct (lefts k l) as [|y ys]; destruct (rights k l) as [|z zs];
        cbn [scan map] in *; rewrite ?EL, ?ER; auto.
  Qed.
End Trees.

Lemma unit_leaf_low : forall f s, (forall x i, (i < N.of_nat 0)%N -> N.testbit (f x) i = N.testbit x i) ->
  unit_leaf (map f s) = unit_leaf s.
Proof. reflexivity. Qed.

Lemma word_of_low : forall lw f s, (forall x i, (i < N.of_nat lw)%N -> N.testbit (f x) i = N.testbit x i) ->
  word_of lw (map f s) = word_of lw s.
Proof.
  intros lw f s H. unfold word_of. generalize 0%N. induction s; intros w; cbn [map fold_left]; auto.
  rewrite IHs. f_equal. unfold word_step.
  assert (E : N.land (f a) (N.ones (N.of_nat lw)) = N.land a (N.ones (N.of_nat lw))).
  { apply N.bits_inj. intros i. rewrite !N.land_spec. destruct (N.lt_ge_cases i (N.of_nat lw)).
    - rewrite H by auto. auto.
    - rewrite N.ones_spec_high by auto. rewrite !andb_false_r. auto. }
  rewrite E. auto.
Qed.

(** * The values kept *)

Lemma covers_bits : forall y x, covers y x <-> forall i, N.testbit x i = true -> N.testbit y i = true.
Proof.
  unfold covers. intros y x. split.
  - intros E i Hi. rewrite <- E in Hi. rewrite N.land_spec in Hi. apply andb_true_iff in Hi. tauto.
  - intros H. apply N.bits_inj. intros i. rewrite N.land_spec. specialize (H i).
    destruct (N.testbit x i); auto.
Qed.

Lemma covers_refl : forall x, covers x x.
Proof. intros. apply N.land_diag. Qed.

Lemma covers_le : forall y x, covers y x -> (x <= y)%N.
Proof.
  intros y x H. apply N.ldiff_le. apply N.bits_inj_0. intros i. rewrite N.ldiff_spec.
  rewrite covers_bits in H. specialize (H i). destruct (N.testbit x i); auto. rewrite H by auto. auto.
Qed.

Lemma least_cover_unique : forall p x y y', least_cover p x y -> least_cover p x y' -> y = y'.
Proof.
  intros p x y y' (A & B & C) (A' & B' & C'). assert (y <= y')%N by auto. assert (y' <= y)%N by auto. lia.
Qed.

Lemma least_cover_self : forall p x, (p <= x)%N -> least_cover p x x.
Proof. intros. split; auto. split; [apply covers_refl|]. intros. apply covers_le; auto. Qed.

Lemma kept_unique : forall w p l s s', kept w p l s -> kept w p l s' -> s = s'.
Proof.
  intros w p l s s' H; revert s'. induction H; intros s' H'; inversion H'; subst; auto.
  match goal with L : least_cover p (x / w) ?q' |- _ =>
    assert (q = q') by (eapply least_cover_unique; eauto) end.
  subst. f_equal. apply IHkept. auto.
Qed.

Lemma split_top : forall d x, (x < pow2 (S d))%N -> N.testbit x (N.of_nat d) = true ->
  x = (pow2 d + x mod pow2 d)%N.
Proof.
  intros d x Hx Hb. rewrite pow2_S in Hx. rewrite N.testbit_eqb in Hb. fold (pow2 d) in Hb.
  assert (Hp := pow2_nz d). rewrite (N.div_mod x (pow2 d)) at 1 by auto.
  assert (x / pow2 d < 2)%N by (apply N.div_lt_upper_bound; auto; lia).
  apply N.eqb_eq in Hb. rewrite N.mod_small in Hb by auto. rewrite Hb. lia.
Qed.

Lemma bit_clear_lt : forall d x, (x < pow2 (S d))%N -> N.testbit x (N.of_nat d) = false -> (x < pow2 d)%N.
Proof.
  intros d x Hx Hb. apply bits_bound. intros i Hi.
  destruct (N.eq_dec i (N.of_nat d)) as [->|]; auto.
  apply testbit_big with (W := N.of_nat (S d)); auto. lia.
Qed.

Lemma covers_high : forall d y x, (y < pow2 d)%N -> (x < pow2 (S d))%N ->
  (covers (pow2 d + y) x <-> covers y (x mod pow2 d)).
Proof.
  intros d y x Hy Hx. rewrite !covers_bits.
  destruct (testbit_plus_pow2 d y Hy) as (B1 & B2). split; intros H i Hi.
  - destruct (N.lt_ge_cases i (N.of_nat d)).
    + rewrite <- B2 by auto. apply H. unfold pow2 in Hi. rewrite N.mod_pow2_bits_low in Hi; auto.
    + unfold pow2 in Hi. rewrite N.mod_pow2_bits_high in Hi by auto. discriminate.
  - destruct (N.lt_trichotomy i (N.of_nat d)) as [L|[->|L]]; auto.
    + rewrite B2 by auto. apply H. unfold pow2. rewrite N.mod_pow2_bits_low; auto.
    + rewrite testbit_big with (W := N.of_nat (S d)) in Hi; auto; lia.
Qed.

Lemma place_least : forall d p x, (p < pow2 d)%N -> (x < pow2 d)%N -> least_cover p x (place 0 d p x).
Proof.
  induction d; intros p x Hp Hx.
  - rewrite pow2_0 in *. replace p with 0%N by lia. replace x with 0%N by lia.
    apply least_cover_self. lia.
  - cbn [place]. rewrite Nat.add_0_r.
    assert (Hd := pow2_nz d).
    destruct (N.testbit p (N.of_nat d)) eqn:Bp.
    + rewrite (place_low 0 d p (p mod pow2 d) x (x mod pow2 d)).
      2,3: intros i Hi; rewrite Nat.add_0_r in Hi; unfold pow2; rewrite N.mod_pow2_bits_low; auto.
      destruct (IHd (p mod pow2 d) (x mod pow2 d))%N as (A & B & C); try (apply N.mod_lt; auto).
      assert (Ly := place_lt 0 d (p mod pow2 d) (x mod pow2 d)). rewrite Nat.add_0_r in Ly.
      set (y := place 0 d (p mod pow2 d) (x mod pow2 d)) in *.
      assert (Ep := split_top d p Hp Bp).
      split; [lia|]. split; [apply covers_high; auto|].
      intros z Hz Cz. destruct (N.lt_ge_cases z (pow2 (S d))) as [Lz|Lz].
      2:{ rewrite pow2_S in Lz. lia. }
      rewrite pow2_S in Lz. replace z with (pow2 d + (z - pow2 d))%N in Cz by lia.
      apply covers_high in Cz; auto; [|lia]. assert (y <= z - pow2 d)%N by (apply C; auto; lia). lia.
    + assert (Lp := bit_clear_lt d p Hp Bp).
      destruct (N.testbit x (N.of_nat d)) eqn:Bx.
      * rewrite <- (split_top d x Hx Bx). apply least_cover_self.
        assert (Ex := split_top d x Hx Bx). lia.
      * apply IHd; auto. apply bit_clear_lt; auto.
Qed.

Lemma place_words : forall lg d p x, (p < pow2 (d + lg))%N -> (x < pow2 (d + lg))%N ->
  place lg d p x = (place 0 d (p / pow2 lg) (x / pow2 lg) * pow2 lg + x mod pow2 lg)%N.
Proof.
  assert (TB : forall lg d z, N.testbit (z / pow2 lg) (N.of_nat (d + 0)) = N.testbit z (N.of_nat (d + lg))).
  { intros. rewrite Nat.add_0_r. unfold pow2. rewrite N.div_pow2_bits. f_equal. lia. }
  assert (ADD : forall a b, pow2 (a + b) = (pow2 a * pow2 b)%N).
  { intros. unfold pow2. rewrite <- N.pow_add_r. f_equal. lia. }
  intros lg. assert (Hw := pow2_nz lg).
  induction d; intros p x Hp Hx.
  - cbn [place Nat.add] in *. rewrite pow2_0, N.mod_1_r. lia.
  - cbn [place]. rewrite !TB.
    assert (LOW : forall z, ((z mod pow2 (d + lg)) / pow2 lg = (z / pow2 lg) mod pow2 d)%N).
    { intros z. rewrite ADD, (N.mul_comm (pow2 d)).
      rewrite N.mod_mul_r by (auto using pow2_nz).
      rewrite (N.mul_comm (pow2 lg)). rewrite N.div_add by auto.
      rewrite N.div_small by (apply N.mod_lt; auto). lia. }
    assert (LOW2 : forall z, ((z mod pow2 (d + lg)) mod pow2 lg = z mod pow2 lg)%N).
    { intros z. rewrite ADD, (N.mul_comm (pow2 d)).
      rewrite N.mod_mul_r by (auto using pow2_nz).
      rewrite (N.mul_comm (pow2 lg)). rewrite N.mod_add by auto. apply N.mod_mod; auto. }
    assert (E : place lg d p x = (place 0 d (p / pow2 lg) (x / pow2 lg) * pow2 lg + x mod pow2 lg)%N).
    { rewrite (place_low lg d p (p mod pow2 (d + lg)) x (x mod pow2 (d + lg))).
      2,3: intros i Hi; unfold pow2; rewrite N.mod_pow2_bits_low; auto.
      rewrite IHd by (apply N.mod_lt, pow2_nz). rewrite !LOW, LOW2. do 2 f_equal.
      apply place_low; intros i Hi; rewrite Nat.add_0_r in Hi; unfold pow2;
        rewrite N.mod_pow2_bits_low; auto. }
    rewrite E. rewrite Nat.add_0_r. rewrite ADD.
    destruct (N.testbit p _); [lia|]. destruct (N.testbit x _); auto.
    rewrite <- ADD. rewrite <- LOW.
    rewrite (N.div_mod (x mod pow2 (d + lg)) (pow2 lg)) at 1 by auto. rewrite LOW2, ADD. lia.
Qed.

Theorem scan_kept : forall lg d l p, (p < pow2 (d + lg))%N -> Forall (fun x => x < pow2 (d + lg))%N l ->
  kept (pow2 lg) (p / pow2 lg) l (scan lg d p l).
Proof.
  intros lg d l. assert (Hw := pow2_nz lg). induction l as [|x l IH]; intros p Hp Hl; [constructor|].
  inversion Hl; subst. cbn [scan].
  assert (E := place_words lg d p x Hp H1). set (q := place 0 d (p / pow2 lg) (x / pow2 lg)) in *.
  assert (EQ : (place lg d p x / pow2 lg = q)%N).
  { rewrite E. rewrite N.div_add_l by auto. rewrite N.div_small by (apply N.mod_lt; auto). lia. }
  rewrite E at 1. constructor.
  - apply place_least; apply N.div_lt_upper_bound; auto;
      rewrite N.mul_comm; unfold pow2 in *; rewrite <- N.pow_add_r;
      replace (N.of_nat d + N.of_nat lg)%N with (N.of_nat (d + lg)) by lia; auto.
  - rewrite <- EQ. apply IH; auto. apply place_lt.
Qed.

(** Values that come in order are kept as they are. *)
Lemma kept_app : forall w a b p s, kept w p (a ++ b) s -> w <> 0%N ->
  nondecreasing (map (fun x => x / w)%N a) -> Forall (fun x => p <= x / w)%N a ->
  exists q s', s = a ++ s' /\ kept w q b s'.
Proof.
  intros w a b p s H Hw; revert p s H. induction a as [|x a IH]; intros p s H Hs Hp.
  - exists p, s. auto.
  - cbn [app] in H. inversion H; subst. inversion Hs; subst. inversion Hp; subst.
    assert (q = x / w)%N by (eapply least_cover_unique; eauto using least_cover_self). subst q.
    match goal with F : Forall _ (map _ _) |- _ => rewrite Forall_map in F end.
    match goal with K : kept _ _ (a ++ b) _ |- _ => destruct (IH _ _ K) as (q & s' & -> & K') end; auto.
    exists q, s'. split; auto. cbn [app]. f_equal. rewrite N.mul_comm. symmetry. apply N.div_mod; auto.
Qed.

Lemma kept_in_order : forall w l s, w <> 0%N -> words_in_order w l -> kept w 0 l s -> s = l.
Proof.
  intros w l s Hw Ho H. rewrite <- (app_nil_r l) in H.
  destruct (kept_app w l [] 0 s H Hw) as (q & s' & -> & K); auto.
  - apply Forall_forall. intros y _. apply N.le_0_l.
  - inversion K. apply app_nil_r.
Qed.

Lemma kept_from : forall w p l s, w <> 0%N -> kept w p l s -> Forall (fun y => p <= y / w)%N s.
Proof.
  intros w p l s Hw H. induction H; constructor.
  - rewrite N.div_add_l by auto. rewrite (N.div_small (x mod w)) by (apply N.mod_lt; auto).
    destruct H. lia.
  - eapply Forall_impl; [|eauto]. cbn. intros y Hy. destruct H. lia.
Qed.

Lemma kept_ordered : forall w p l s, w <> 0%N -> kept w p l s -> words_in_order w s.
Proof.
  intros w p l s Hw H. unfold words_in_order. induction H; cbn [map]; constructor; auto.
  apply Forall_map. rewrite N.div_add_l by auto.
  rewrite (N.div_small (x mod w)) by (apply N.mod_lt; auto).
  eapply Forall_impl; [|eapply kept_from; eauto]. cbn. intros; lia.
Qed.

(** No value is kept as a smaller one. *)
Lemma kept_up : forall w p l s, w <> 0%N -> kept w p l s -> Forall2 N.le l s.
Proof.
  intros w p l s Hw H. induction H; constructor; auto.
  rewrite (N.div_mod x w) at 1 by auto. destruct H as (_ & C & _). apply covers_le in C. nia.
Qed.

Definition total (l : list N) : N := fold_right N.add 0%N l.

Lemma total_perm : forall l s, Permutation l s -> total l = total s.
Proof. unfold total. induction 1; cbn [fold_right]; congruence || lia. Qed.

Lemma total_le : forall l s, Forall2 N.le l s -> (total l <= total s)%N.
Proof. unfold total. induction 1; cbn [fold_right]; lia. Qed.

Lemma total_eq : forall l s, Forall2 N.le l s -> total l = total s -> l = s.
Proof.
  induction 1; intros E; auto. apply total_le in H0 as H1. unfold total in *.
  cbn [fold_right] in E. f_equal; [lia|]. apply IHForall2. lia.
Qed.

(** Distinct values are kept as they are only if their words come in order. *)
Theorem kept_exactly : forall w l s, w <> 0%N -> NoDup l -> kept w 0 l s ->
  ((forall x, In x s <-> In x l) <-> words_in_order w l).
Proof.
  intros w l s Hw Hn K. split.
  - intros E. assert (F := kept_up _ _ _ _ Hw K).
    assert (HL : length l = length s) by (clear -F; induction F; cbn; congruence).
    assert (Hs : NoDup s).
    { apply NoDup_incl_NoDup with (l := l); auto; [lia|]. intros x. apply E. }
    assert (P : Permutation l s) by (apply NoDup_Permutation; auto; intros; symmetry; apply E).
    rewrite (total_eq _ _ F (total_perm _ _ P)). eapply kept_ordered; eauto.
  - intros O. rewrite (kept_in_order w l s); auto. tauto.
Qed.

(** * Membership *)

Section Members.
  Context {A : Type}.
  Variable mkleaf : list N -> A.
  Variable lmem : A -> N -> bool.
  Variable lg : nat.
  Hypothesis leaf_mem : forall s x, s <> [] -> (x < pow2 lg)%N ->
    (lmem (mkleaf s) x = true <-> In x (map (fun y => y mod pow2 lg)%N s)).
  Hypothesis lmem_low : forall a x x',
    (forall i, (i < N.of_nat lg)%N -> N.testbit x i = N.testbit x' i) -> lmem a x = lmem a x'.

  Lemma mem_low : forall d (t : tree A) x x', wf d t ->
    (forall i, (i < N.of_nat (d + lg))%N -> N.testbit x i = N.testbit x' i) ->
    mem lmem (d + lg) t x = mem lmem (d + lg) t x'.
  Proof.
    clear leaf_mem mkleaf. induction d; intros t x x' W H.
    - destruct t; cbn in W; try lia. apply lmem_low. auto.
    - cbn [Nat.add].
      assert (Hb := H (N.of_nat (d + lg)) ltac:(lia)).
      assert (IH : forall t, wf d t -> mem lmem (d + lg) t x = mem lmem (d + lg) t x').
      { intros. apply IHd; auto. intros. apply H. lia. }
      destruct t; cbn [wf pred] in W; cbn [mem pred]; try discriminate; auto;
        rewrite ?Hb; try (rewrite !IH by tauto); auto.
  Qed.

  Theorem tree_of_scan_mem : forall d s x, s <> [] -> (x < pow2 (d + lg))%N ->
    (mem lmem (d + lg) (tree_of mkleaf lg d s) x = true <-> In x (scan lg d 0 s)).
  Proof.
    induction d; intros s x Hne Hx.
    - cbn [tree_of mem Nat.add]. rewrite leaf_mem by auto.
      replace (scan lg 0 0 s) with (map (fun y => y mod pow2 lg)%N s); [tauto|].
      generalize 0%N. clear. induction s; intros; cbn [scan map place]; f_equal; auto.
    - rewrite scan_split by apply N.bits_0. rewrite in_app_iff.
      cbn [Nat.add] in *. set (k := d + lg) in *.
      assert (NL : forall l z, In z (scan lg d 0 l) -> (z < pow2 k)%N).
      { intros l z Hz. assert (F := scan_lt lg d l 0). rewrite Forall_forall in F. auto. }
      assert (Rest : mem lmem (S k) (tree_of mkleaf lg (S d) s) x =
        if N.testbit x (N.of_nat k)
        then match rights k s with [] => false | r => mem lmem k (tree_of mkleaf lg d r) x end
        else match lefts k s with [] => false | l => mem lmem k (tree_of mkleaf lg d l) x end).
      { cbn [tree_of]. fold k. generalize (lefts_rights k s).
        destruct (lefts k s), (rights k s); cbn [mem pred app]; intros E;
          try congruence; destruct (N.testbit x (N.of_nat k)); auto. }
      rewrite Rest. clear Rest. destruct (N.testbit x (N.of_nat k)) eqn:B.
      + assert (E := split_top k x Hx B). set (x' := (x mod pow2 k)%N) in *.
        assert (Hx' : (x' < pow2 k)%N) by (apply N.mod_lt, pow2_nz).
        transitivity (In x' (scan lg d 0 (rights k s))).
        * destruct (rights k s) as [|z r]; [cbn; intuition discriminate|].
          rewrite <- IHd by (auto; discriminate).
          unfold k at 1 2. rewrite (mem_low d _ x x'); [reflexivity|apply tree_of_wf|].
          intros i Hi. unfold x', pow2. rewrite N.mod_pow2_bits_low; auto.
        * rewrite in_map_iff. split.
          -- intros H. right. exists x'. auto.
          -- intros [H|(z & Ez & H)].
             ++ apply NL in H. rewrite E in H. lia.
             ++ replace x' with z by lia. auto.
      + assert (Hx' := bit_clear_lt k x Hx B).
        transitivity (In x (scan lg d 0 (lefts k s))).
        * destruct (lefts k s) as [|z r]; [cbn; intuition discriminate|].
          apply IHd; auto. discriminate.
        * rewrite in_map_iff. split; [auto|]. intros [H|(z & Ez & H)]; auto. lia.
  Qed.

  Corollary sel_scan : forall d s, s <> [] ->
    is_set_of (scan lg d 0 s) (sel lmem (d + lg) (tree_of mkleaf lg d s) 0).
  Proof.
    intros d s Hne. split; [apply sel_sorted|]. intros x. unfold sel.
    rewrite filter_In, In_half. split.
    - intros (Hx & Hm). apply tree_of_scan_mem in Hm; auto. lia.
    - intros Hx. assert (F := scan_lt lg d s 0). rewrite Forall_forall in F. apply F in Hx as Hl.
      split; [lia|]. apply tree_of_scan_mem; auto.
  Qed.
End Members.

Lemma unit_leaf_mem : forall s x, s <> [] -> (x < pow2 0)%N ->
  (Reps.umem (unit_leaf s) x = true <-> In x (map (fun y => y mod pow2 0)%N s)).
Proof.
  intros [|y s] x Hne Hx; [congruence|]. rewrite pow2_0 in *. cbn [map In]. rewrite N.mod_1_r.
  split; auto. left. lia.
Qed.

Lemma word_leaf_mem : forall lw s x, s <> [] -> (x < pow2 lw)%N ->
  (wmem lw (word_of lw s) x = true <-> In x (map (fun y => y mod pow2 lw)%N s)).
Proof.
  intros lw s x _ Hx. unfold wmem. rewrite N.land_ones. fold (pow2 lw).
  rewrite N.mod_small by auto. rewrite testbit_word_of by auto.
  rewrite existsb_exists, in_map_iff.
  split; intros (y & A & B); exists y; rewrite N.land_ones in *; fold (pow2 lw) in *.
  - apply N.eqb_eq in B. auto.
  - split; auto. apply N.eqb_eq. auto.
Qed.

Lemma wmem_low : forall lw a x x', (forall i, (i < N.of_nat lw)%N -> N.testbit x i = N.testbit x' i) ->
  wmem lw a x = wmem lw a x'.
Proof.
  intros lw a x x' H. unfold wmem. f_equal. apply N.bits_inj. intros i. rewrite !N.land_spec.
  destruct (N.lt_ge_cases i (N.of_nat lw)).
  - rewrite H by auto. auto.
  - rewrite N.ones_spec_high by auto. rewrite !andb_false_r. auto.
Qed.
