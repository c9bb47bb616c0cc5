(** Printed averages are right to six parts in a million. *)

From Coq Require Import QArith Qabs Qpower Lqa Lia.
From Verif Require Import Base Facts Text Table Report Stats SpecText TableThms Average SpecAverage.

(* Rounding to an integer. *)
Lemma round_div_spec : forall n d, (0 < d)%N ->
  (2 * (d * round_div n d) <= 2 * n + d /\ 2 * n <= 2 * (d * round_div n d) + d /\
   (2 * (d * round_div n d) = 2 * n + d \/ 2 * n = 2 * (d * round_div n d) + d ->
    N.even (round_div n d) = true))%N.
Proof.
  intros n d Hd. unfold round_div. assert (D := N.div_mod n d ltac:(lia)).
  assert (L := N.mod_lt n d ltac:(lia)). set (q := (n / d)%N) in *. set (r := (n mod d)%N) in *. clearbody q r.
  destruct (N.compare_spec (2 * r) d) as [H|H|H].
  - destruct (N.even q) eqn:E; (split; [nia|split; [nia|]]); intros _; auto.
    rewrite N.even_add, E. reflexivity.
  - split; [nia|]. split; [nia|]. intros K. exfalso. nia.
  - split; [nia|]. split; [nia|]. intros K. exfalso. nia.
Qed.

Lemma of_N_add : forall a b, of_N (a + b) == of_N a + of_N b.
Proof. intros. unfold of_N. rewrite N2Z.inj_add, inject_Z_plus. reflexivity. Qed.
Lemma of_N_mul : forall a b, of_N (a * b) == of_N a * of_N b.
Proof. intros. unfold of_N. rewrite N2Z.inj_mul, inject_Z_mult. reflexivity. Qed.
Lemma of_N_le : forall a b, (a <= b)%N <-> of_N a <= of_N b.
Proof. intros. unfold of_N. rewrite <- Zle_Qle. lia. Qed.
Lemma of_N_lt : forall a b, (a < b)%N <-> of_N a < of_N b.
Proof. intros. unfold of_N. rewrite <- Zlt_Qlt. lia. Qed.
Lemma of_N_pos : forall a, (0 < a)%N -> 0 < of_N a.
Proof. intros a H. apply of_N_lt in H. exact H. Qed.
Lemma of_N_nonneg : forall a, 0 <= of_N a.
Proof. intros a. change 0 with (of_N 0). apply of_N_le. lia. Qed.
Lemma of_N_pow : forall b k, of_N (b ^ k) == of_N b ^ Z.of_N k.
Proof.
  intros b k. unfold of_N. rewrite N2Z.inj_pow. rewrite <- Zpower_Qpower by lia. reflexivity.
Qed.

Lemma of_N_inj : forall a b, of_N a == of_N b -> a = b.
Proof. intros a b E. unfold of_N in E. apply (proj1 (inject_Z_injective _ _)) in E. lia. Qed.

Lemma round_near : forall n d, (0 < d)%N ->
  Qabs (of_N n / of_N d - of_N (round_div n d)) <= 1 # 2 /\
  (Qabs (of_N n / of_N d - of_N (round_div n d)) == 1 # 2 -> N.even (round_div n d) = true).
Proof.
  intros n d Hd. destruct (round_div_spec n d Hd) as (A & B & C). set (m := round_div n d) in *. clearbody m.
  assert (P := of_N_pos d Hd).
  apply of_N_le in A. apply of_N_le in B.
  assert (A' : of_N n / of_N d - of_N m >= - (1 # 2)).
  { apply Qmult_le_r with (z := of_N d); [exact P|]. rewrite !of_N_add, !of_N_mul in A, B.
    change (of_N 2) with 2 in *.
    setoid_replace ((of_N n / of_N d - of_N m) * of_N d) with (of_N n - of_N m * of_N d) by (field; lra). lra. }
  assert (B' : of_N n / of_N d - of_N m <= 1 # 2).
  { apply Qmult_le_r with (z := of_N d); [exact P|]. rewrite !of_N_add, !of_N_mul in A, B.
    change (of_N 2) with 2 in *.
    setoid_replace ((of_N n / of_N d - of_N m) * of_N d) with (of_N n - of_N m * of_N d) by (field; lra). lra. }
  split; [apply Qabs_Qle_condition; lra|].
  intros E. apply C. revert E. apply Qabs_case; intros S E.
  - right. assert (K : of_N n == (of_N m + (1 # 2)) * of_N d).
    { setoid_replace (of_N m + (1 # 2)) with (of_N n / of_N d) by lra. field. lra. }
    assert (K' : of_N (2 * n) == of_N (2 * (d * m) + d)).
    { rewrite of_N_add, !of_N_mul, K. change (of_N 2) with 2. ring. }
    apply of_N_inj in K'. auto.
  - left. assert (K : of_N n == (of_N m - (1 # 2)) * of_N d).
    { setoid_replace (of_N m - (1 # 2)) with (of_N n / of_N d) by lra. field. lra. }
    assert (K' : of_N (2 * n + d) == of_N (2 * (d * m))).
    { rewrite of_N_add, !of_N_mul, K. change (of_N 2) with 2. ring. }
    apply of_N_inj in K'. auto.
Qed.

(* Scaling. *)
Lemma pow_pos : forall b e, 0 < b -> 0 < b ^ e.
Proof. intros. apply Qpower_0_lt. auto. Qed.

Lemma pow_add : forall b e f, 0 < b -> b ^ (e + f) == b ^ e * b ^ f.
Proof. intros. apply Qpower_plus. lra. Qed.

Lemma scaled_pos : forall b n d e, (0 < b)%N -> (0 < n)%N -> (0 < d)%N ->
  (0 < fst (scaled b n d e))%N /\ (0 < snd (scaled b n d e))%N.
Proof.
  intros b n d [|k|k] B Hn Hd; cbn [scaled fst snd]; auto;
    assert (P : (b ^ N.pos k <> 0)%N) by (apply N.pow_nonzero; lia); nia.
Qed.

Lemma scaled_value : forall b n d e, (0 < b)%N -> (0 < d)%N ->
  of_N (fst (scaled b n d e)) / of_N (snd (scaled b n d e)) * of_N b ^ e == of_N n / of_N d.
Proof.
  intros b n d e B Hd. assert (P := of_N_pos b B). assert (D := of_N_pos d Hd).
  assert (PP := pow_pos (of_N b) e P).
  destruct e as [|k|k]; cbn [scaled fst snd].
  - cbn [Qpower]. field. lra.
  - rewrite of_N_mul, of_N_pow. change (Z.of_N (N.pos k)) with (Z.pos k). field. split; lra.
  - rewrite of_N_mul, of_N_pow. change (Z.of_N (N.pos k)) with (Z.pos k).
    assert (Q := pow_pos (of_N b) (Z.pos k) P).
    change (of_N b ^ Z.neg k) with (of_N b ^ (- Z.pos k)). rewrite Qpower_opp. field. split; lra.
Qed.

(* The exponent. *)
Lemma abs_scale : forall x c, 0 < c -> Qabs (x * c) == Qabs x * c.
Proof. intros x c H. rewrite Qabs_Qmult, (Qabs_pos c) by lra. reflexivity. Qed.

Lemma log2_low : forall n, (0 < n)%N -> 2 ^ Z.of_N (N.log2 n) <= of_N n.
Proof.
  intros n H. change 2 with (of_N 2). rewrite <- of_N_pow. apply of_N_le. apply N.log2_spec, H.
Qed.

Lemma log2_high : forall n, (0 < n)%N -> of_N n < 2 ^ (Z.of_N (N.log2 n) + 1).
Proof.
  intros n H. change 2 with (of_N 2). change 1%Z with (Z.of_N 1). rewrite <- N2Z.inj_add, <- of_N_pow.
  apply of_N_lt. rewrite N.add_1_r. apply N.log2_spec, H.
Qed.

Lemma div_pos : forall a b, 0 < a -> 0 < b -> 0 < a / b.
Proof. intros a b A B. apply Qlt_shift_div_l; lra. Qed.

Lemma pow_mono : forall e f : Z, (e <= f)%Z -> 2 ^ e <= 2 ^ f.
Proof.
  intros e f H. replace f with (e + (f - e))%Z by lia. rewrite pow_add by lra.
  assert (P := pow_pos 2 e ltac:(lra)).
  assert (K : 1 <= 2 ^ (f - e)).
  { replace (f - e)%Z with (Z.of_N (Z.to_N (f - e))) by lia. change 2 with (of_N 2). rewrite <- of_N_pow.
    change 1 with (of_N 1). apply of_N_le. assert (2 ^ Z.to_N (f - e) <> 0)%N by (apply N.pow_nonzero; lia). lia. }
  setoid_replace (2 ^ e) with (2 ^ e * 1) at 1 by ring. apply Qmult_le_l; lra.
Qed.

(* [v] lies between the powers of two that the logarithms say. *)
Lemma quotient_bounds : forall n d, (0 < n)%N -> (0 < d)%N ->
  2 ^ (Z.of_N (N.log2 n) - Z.of_N (N.log2 d) - 1) < of_N n / of_N d /\
  of_N n / of_N d < 2 ^ (Z.of_N (N.log2 n) - Z.of_N (N.log2 d) + 1).
Proof.
  intros n d Hn Hd.
  assert (N1 := log2_low n Hn). assert (N2 := log2_high n Hn).
  assert (D1 := log2_low d Hd). assert (D2 := log2_high d Hd). assert (D := of_N_pos d Hd).
  set (a := Z.of_N (N.log2 n)) in *. set (b := Z.of_N (N.log2 d)) in *. clearbody a b. split.
  - apply Qlt_shift_div_l; [exact D|]. apply Qlt_le_trans with (2 ^ a); [|exact N1].
    replace a with ((a - b - 1) + (b + 1))%Z at 2 by lia. rewrite (pow_add 2 (a - b - 1)) by lra.
    apply Qmult_lt_l; [apply pow_pos; lra|exact D2].
  - apply Qlt_shift_div_r; [exact D|]. apply Qlt_le_trans with (2 ^ (a + 1)); [exact N2|].
    replace (a + 1)%Z with ((a - b + 1) + b)%Z by lia. rewrite (pow_add 2 (a - b + 1)) by lra.
    apply Qmult_le_l; [apply pow_pos; lra|exact D1].
Qed.

Theorem to_float_nearest : forall p n d, (1 <= p)%N -> (0 < n)%N -> (0 < d)%N ->
  nearest p (of_N n / of_N d) (fst (to_float p n d)) (snd (to_float p n d)).
Proof.
  intros p n d Hp Hn Hd. unfold to_float.
  assert (QB := quotient_bounds n d Hn Hd). destruct QB as (QL & QH).
  set (a := Z.of_N (N.log2 n)) in *. set (b := Z.of_N (N.log2 d)) in *.
  set (e0 := (a - b - Z.of_N p)%Z). set (v := of_N n / of_N d) in *.
  assert (S0 := scaled_value 2 n d e0 ltac:(lia) Hd). assert (P0 := scaled_pos 2 n d e0 ltac:(lia) Hn Hd).
  destruct (scaled 2 n d e0) as (n0, d0) eqn:E0. cbn [fst snd] in S0, P0. fold v in S0. change (of_N 2) with 2 in S0.
  set (e := if (d0 * 2 ^ p <=? n0)%N then (e0 + 1)%Z else e0).
  assert (BD : 2 ^ (Z.of_N p - 1 + e) <= v /\ v < 2 ^ (Z.of_N p + e)).
  { assert (D0 := of_N_pos d0 (proj2 P0)). assert (PE := pow_pos 2 e0 ltac:(lra)). unfold e.
    destruct (N.leb_spec (d0 * 2 ^ p) n0) as [L|L].
    - split.
      + apply of_N_le in L. rewrite of_N_mul, of_N_pow in L. change (of_N 2) with 2 in L.
        replace (Z.of_N p - 1 + (e0 + 1))%Z with (Z.of_N p + e0)%Z by lia. rewrite pow_add by lra. rewrite <- S0.
        apply Qmult_le_r; [exact PE|]. apply Qle_shift_div_l; [exact D0|]. lra.
      + eapply Qlt_le_trans; [exact QH|]. apply pow_mono. unfold e0. lia.
    - split.
      + apply Qlt_le_weak. replace (Z.of_N p - 1 + e0)%Z with (a - b - 1)%Z by (unfold e0; lia). exact QL.
      + apply of_N_lt in L. rewrite of_N_mul, of_N_pow in L. change (of_N 2) with 2 in L.
        rewrite pow_add by lra. rewrite <- S0. apply Qmult_lt_r; [exact PE|].
        apply Qlt_shift_div_r; [exact D0|]. lra. }
  clearbody e. clear e0 S0 P0 E0 n0 d0 QL QH.
  assert (S1 := scaled_value 2 n d e ltac:(lia) Hd). assert (P1 := scaled_pos 2 n d e ltac:(lia) Hn Hd).
  destruct (scaled 2 n d e) as (n1, d1) eqn:E1. cbn [fst snd] in *. fold v in S1. change (of_N 2) with 2 in S1.
  destruct (round_near n1 d1 (proj2 P1)) as (R1 & R2).
  set (m := round_div n1 d1) in *. set (w := of_N n1 / of_N d1) in *.
  assert (PE := pow_pos 2 e ltac:(lra)).
  assert (D : v - of_N m * 2 ^ e == (w - of_N m) * 2 ^ e) by (rewrite <- S1; ring).
  split; [|split].
  - exact BD.
  - rewrite D, abs_scale by exact PE. apply Qmult_le_r; [exact PE|exact R1].
  - intros E. apply R2. rewrite D, abs_scale in E by exact PE. apply Qmult_inj_r in E; [exact E|lra].
Qed.

(* Relative errors. *)
Definition within (r x v : Q) : Prop := Qabs (x - v) <= r * v.

Lemma nearest_within : forall p v m e, nearest p v m e ->
  within (2 ^ (- Z.of_N p)) (of_N m * 2 ^ e) v.
Proof.
  intros p v m e ((B & _) & A & _). unfold within. rewrite Qabs_Qminus. eapply Qle_trans; [exact A|].
  setoid_replace ((1 # 2) * 2 ^ e) with (2 ^ (- Z.of_N p) * 2 ^ (Z.of_N p - 1 + e)).
  - apply Qmult_le_l; [apply pow_pos; lra|exact B].
  - rewrite <- pow_add by lra. replace (- Z.of_N p + (Z.of_N p - 1 + e))%Z with (-(1) + e)%Z by lia.
    rewrite pow_add by lra. reflexivity.
Qed.

Lemma within_pos : forall r x v, r < 1 -> 0 < v -> within r x v -> 0 < x.
Proof. intros r x v R V W. unfold within in W. apply Qabs_Qle_condition in W. nra. Qed.

Lemma within_bounds : forall r x v, within r x v <-> (1 - r) * v <= x /\ x <= (1 + r) * v.
Proof.
  intros r x v. unfold within. rewrite Qabs_Qle_condition. split; intros (A & B); split; lra.
Qed.

(* Two errors one after the other. *)
Lemma within_trans : forall r s t x y v, 0 <= r -> 0 <= s <= 1 -> 0 < v ->
  within r y v -> within s x y -> r + s + r * s <= t -> within t x v.
Proof.
  intros r s t x y v R S V A B T. rewrite within_bounds in *. split; nra.
Qed.

Lemma within_more : forall r s x v, 0 < v -> r <= s -> within r x v -> within s x v.
Proof. intros r s x v V L W. unfold within in *. nra. Qed.

Lemma within_div : forall r a a' b b', 0 <= r <= 1 # 10 -> 0 < a -> 0 < b ->
  within r a' a -> within r b' b -> within (3 * r) (a' / b') (a / b).
Proof.
  intros r a a' b b' R A B WA WB. assert (PB : 0 < b') by (eapply within_pos; [|exact B|exact WB]; lra).
  assert (PA : 0 < a') by (eapply within_pos; [|exact A|exact WA]; lra).
  rewrite within_bounds in *. destruct WA as (A1 & A2), WB as (B1 & B2).
  assert (AB : 0 < a * b) by nra. split.
  - apply Qle_shift_div_l; [exact PB|].
    setoid_replace ((1 - 3 * r) * (a / b) * b') with ((1 - 3 * r) * a * b' / b) by (field; lra).
    apply Qle_shift_div_r; [exact B|].
    apply Qle_trans with ((1 - 3 * r) * a * ((1 + r) * b)).
    { apply Qmult_le_l; [|exact B2]. nra. }
    apply Qle_trans with ((1 - r) * a * b).
    { setoid_replace ((1 - 3 * r) * a * ((1 + r) * b)) with ((1 - 2 * r - 3 * (r * r)) * (a * b)) by ring.
      setoid_replace ((1 - r) * a * b) with ((1 - r) * (a * b)) by ring. apply Qmult_le_r; [exact AB|]. nra. }
    apply Qmult_le_r; [exact B|exact A1].
  - apply Qle_shift_div_r; [exact PB|].
    setoid_replace ((1 + 3 * r) * (a / b) * b') with ((1 + 3 * r) * a * b' / b) by (field; lra).
    apply Qle_shift_div_l; [exact B|].
    apply Qle_trans with ((1 + r) * a * b); [apply Qmult_le_r; [exact B|exact A2]|].
    apply Qle_trans with ((1 + 3 * r) * a * ((1 - r) * b)).
    { setoid_replace ((1 + 3 * r) * a * ((1 - r) * b)) with ((1 + 2 * r - 3 * (r * r)) * (a * b)) by ring.
      setoid_replace ((1 + r) * a * b) with ((1 + r) * (a * b)) by ring. apply Qmult_le_r; [exact AB|]. nra. }
    apply Qmult_le_l; [|exact B1]. nra.
Qed.

(* Conversions and the division. *)
Definition value (x : N * Z) : Q := of_N (fst x) * 2 ^ snd x.

Lemma to_float_value : forall p n d, (1 <= p)%N -> (0 < n)%N -> (0 < d)%N ->
  within (2 ^ (- Z.of_N p)) (value (to_float p n d)) (of_N n / of_N d).
Proof. intros. apply nearest_within, to_float_nearest; auto. Qed.

Lemma precise : forall p, (24 <= p)%N -> 0 < 2 ^ (- Z.of_N p) <= 1 # 16777216.
Proof.
  intros p H. split; [apply pow_pos; lra|]. change (1 # 16777216) with (2 ^ (-(24))). apply pow_mono. lia.
Qed.

Lemma float_of_value : forall p a, (1 <= p)%N -> (0 < a)%N ->
  within (2 ^ (- Z.of_N p)) (value (float_of p a)) (of_N a).
Proof.
  intros p a Hp Ha. unfold float_of. destruct (N.eqb_spec a 0); [lia|].
  assert (W := to_float_value p a 1 Hp Ha ltac:(lia)). unfold within in *.
  setoid_replace (of_N a / of_N 1) with (of_N a) in W by (change (of_N 1) with 1; field). exact W.
Qed.

Lemma value_pos : forall x, 0 < value x -> (0 < fst x)%N.
Proof.
  intros (m, e) H. unfold value in H. cbn [fst snd] in *. destruct m; [|lia]. change (of_N 0) with 0 in H. lra.
Qed.

Lemma float_div_value : forall p x y, (24 <= p)%N -> (0 < fst x)%N -> (0 < fst y)%N ->
  exists z, float_div p x y = Finite z /\ within (2 ^ (- Z.of_N p)) (value z) (value x / value y).
Proof.
  intros p (m1, e1) (m2, e2) Hp H1 H2. cbn [fst] in *. unfold float_div.
  destruct (N.eqb_spec m2 0); [lia|]. destruct (N.eqb_spec m1 0); [lia|].
  assert (S := scaled_value 2 m1 m2 (e2 - e1) ltac:(lia) H2).
  assert (P := scaled_pos 2 m1 m2 (e2 - e1) ltac:(lia) H1 H2).
  destruct (scaled 2 m1 m2 (e2 - e1)) as (n1, d1). cbn [fst snd] in *. change (of_N 2) with 2 in S.
  eexists. split; [reflexivity|].
  assert (W := to_float_value p n1 d1 ltac:(lia) (proj1 P) (proj2 P)). unfold within in *.
  assert (P1 := pow_pos 2 e1 ltac:(lra)). assert (P2 := pow_pos 2 e2 ltac:(lra)).
  assert (M2 := of_N_pos m2 H2).
  setoid_replace (value (m1, e1) / value (m2, e2)) with (of_N n1 / of_N d1); [exact W|].
  unfold value. cbn [fst snd].
  setoid_replace (of_N m1 * 2 ^ e1 / (of_N m2 * 2 ^ e2)) with (of_N m1 / of_N m2 * 2 ^ e1 / 2 ^ e2) by (field; lra).
  rewrite <- S. replace e2 with ((e2 - e1) + e1)%Z at 2 by lia. rewrite pow_add by lra.
  assert (P3 := pow_pos 2 (e2 - e1) ltac:(lra)). assert (D1 := of_N_pos d1 (proj2 P)). field. lra.
Qed.

(* The decimal exponent. *)
Lemma ten_pos : forall e, 0 < 10 ^ e.
Proof. intros. apply pow_pos. lra. Qed.

Lemma ten_add : forall e f, 10 ^ (e + f) == 10 ^ e * 10 ^ f.
Proof. intros. apply pow_add. lra. Qed.

Lemma up_spec : forall fuel n d x, (0 < d)%N -> (d <= n)%N -> (n < d * 10 ^ N.of_nat (S fuel))%N ->
  exists y, exponent_up fuel n d x = Ok y /\ 10 ^ (y - x) <= of_N n / of_N d /\ of_N n / of_N d < 10 ^ (y - x + 1).
Proof.
  induction fuel as [|fuel IH]; intros n d x Hd L U; cbn [exponent_up].
  - change (10 ^ N.of_nat 1)%N with 10%N in U. destruct (N.ltb_spec n (10 * d)); [|lia]. exists x.
    split; [reflexivity|]. replace (x - x)%Z with 0%Z by lia. change (10 ^ 0) with 1. change (10 ^ (0 + 1)) with 10.
    apply of_N_le in L. apply of_N_lt in H. rewrite of_N_mul in H. change (of_N 10) with 10 in H.
    assert (D := of_N_pos d Hd). split; [apply Qle_shift_div_l; lra|apply Qlt_shift_div_r; lra].
  - destruct (N.ltb_spec n (10 * d)) as [H|H].
    + exists x. split; [reflexivity|]. replace (x - x)%Z with 0%Z by lia. change (10 ^ 0) with 1. change (10 ^ (0 + 1)) with 10.
      apply of_N_le in L. apply of_N_lt in H. rewrite of_N_mul in H. change (of_N 10) with 10 in H.
      assert (D := of_N_pos d Hd). split; [apply Qle_shift_div_l; lra|apply Qlt_shift_div_r; lra].
    + destruct (IH n (10 * d)%N (x + 1)%Z) as (y & E & Y1 & Y2); [lia|lia| |].
      { rewrite (Nat2N.inj_succ (S fuel)), N.pow_succ_r' in U. clear - U. lia. }
      exists y. split; [exact E|]. assert (D := of_N_pos d Hd).
      assert (Q : of_N n / of_N d == of_N n / of_N (10 * d) * 10).
      { rewrite of_N_mul. change (of_N 10) with 10. field. lra. }
      rewrite Q. replace (y - x)%Z with (y - (x + 1) + 1)%Z by lia. rewrite !ten_add. change (10 ^ 1) with 10.
      rewrite ten_add in Y2. change (10 ^ 1) with 10 in Y2. split; lra.
Qed.

Lemma down_spec : forall fuel n d x, (0 < n)%N -> (0 < d)%N -> (n < 10 * d)%N -> (d <= n * 10 ^ N.of_nat fuel)%N ->
  exists y, exponent_down fuel n d x = Ok y /\ 10 ^ (y - x) <= of_N n / of_N d /\ of_N n / of_N d < 10 ^ (y - x + 1).
Proof.
  assert (B : forall n d x, (0 < d)%N -> (n < 10 * d)%N -> (d <= n)%N ->
    10 ^ (x - x) <= of_N n / of_N d /\ of_N n / of_N d < 10 ^ (x - x + 1)).
  { intros n d x Hd H L. replace (x - x)%Z with 0%Z by lia. change (10 ^ 0) with 1. change (10 ^ (0 + 1)) with 10.
    apply of_N_le in L. apply of_N_lt in H. rewrite of_N_mul in H. change (of_N 10) with 10 in H.
    assert (D := of_N_pos d Hd). split; [apply Qle_shift_div_l; lra|apply Qlt_shift_div_r; lra]. }
  induction fuel as [|fuel IH]; intros n d x Hn Hd U L; cbn [exponent_down].
  - change (10 ^ N.of_nat 0)%N with 1%N in L. destruct (N.leb_spec d n); [|lia]. exists x. auto.
  - destruct (N.leb_spec d n) as [H|H]; [exists x; auto|].
    destruct (IH (10 * n)%N d (x - 1)%Z) as (y & E & Y1 & Y2); [lia|lia|lia| |].
    { rewrite Nat2N.inj_succ, N.pow_succ_r' in L. clear - L. lia. }
    exists y. split; [exact E|]. assert (D := of_N_pos d Hd).
    assert (Q : of_N (10 * n) / of_N d == of_N n / of_N d * 10).
    { rewrite of_N_mul. change (of_N 10) with 10. field. lra. }
    rewrite Q in Y1, Y2. replace (y - (x - 1))%Z with (y - x + 1)%Z in Y1, Y2 by lia.
    rewrite !ten_add in *. change (10 ^ 1) with 10 in *. split; lra.
Qed.

Lemma exponent10_spec : forall n d, (0 < n)%N -> (0 < d)%N ->
  exists x, exponent10 n d = Ok x /\ 10 ^ x <= of_N n / of_N d /\ of_N n / of_N d < 10 ^ (x + 1).
Proof.
  intros n d Hn Hd. unfold exponent10.
  assert (T : forall a k, (0 < a)%N -> (0 < k)%N -> (a <= k * 10 ^ N.succ (N.log2 a))%N /\ (a < k * 10 ^ N.succ (N.log2 a))%N).
  { intros a k Ha Hk. assert (L := proj2 (N.log2_spec a Ha)).
    assert (M : (2 ^ N.succ (N.log2 a) <= 10 ^ N.succ (N.log2 a))%N) by (apply N.pow_le_mono_l; lia).
    set (z := (10 ^ N.succ (N.log2 a))%N) in *. clearbody z. nia. }
  destruct (N.leb_spec d n) as [H|H].
  - destruct (up_spec (N.to_nat (N.log2 n)) n d 0 Hd H) as (y & E & Y).
    { rewrite Nat2N.inj_succ, N2Nat.id. apply T; auto. }
    exists y. rewrite Z.sub_0_r in Y. auto.
  - destruct (down_spec (S (N.to_nat (N.log2 d))) n d 0 Hn Hd) as (y & E & Y); [lia| |].
    { rewrite Nat2N.inj_succ, N2Nat.id. apply T; auto. }
    exists y. rewrite Z.sub_0_r in Y. auto.
Qed.

(* Six digits. *)
Lemma to_decimal_spec : forall n d, (0 < n)%N -> (0 < d)%N ->
  exists m x, to_decimal n d = Ok (m, x) /\ (10 ^ 5 <= m < 10 ^ 6)%N /\
    within (5 # 1000000) (of_N m * 10 ^ (x - 5)) (of_N n / of_N d).
Proof.
  intros n d Hn Hd. unfold to_decimal. destruct (exponent10_spec n d Hn Hd) as (x & -> & X1 & X2). cbn [bind].
  assert (S := scaled_value 10 n d (x - 5) ltac:(lia) Hd). assert (P := scaled_pos 10 n d (x - 5) ltac:(lia) Hn Hd).
  destruct (scaled 10 n d (x - 5)) as (n1, d1). cbn [fst snd] in *. change (of_N 10) with 10 in S.
  destruct (round_near n1 d1 (proj2 P)) as (R & _). set (m := round_div n1 d1) in *.
  set (w := of_N n1 / of_N d1) in *. set (v := of_N n / of_N d) in *.
  assert (T := ten_pos (x - 5)).
  assert (W1 : 100000 <= w).
  { apply (Qmult_le_r _ _ (10 ^ (x - 5))); [exact T|]. rewrite S. change 100000 with (10 ^ 5). rewrite <- ten_add.
    replace (5 + (x - 5))%Z with x by lia. exact X1. }
  assert (W2 : w < 1000000).
  { apply (Qmult_lt_r _ _ (10 ^ (x - 5))); [exact T|]. rewrite S. change 1000000 with (10 ^ 6). rewrite <- ten_add.
    replace (6 + (x - 5))%Z with (x + 1)%Z by lia. exact X2. }
  apply Qabs_Qle_condition in R.
  assert (M : (10 ^ 5 <= m <= 10 ^ 6)%N).
  { assert (K1 : of_N (10 ^ 5) < of_N (m + 1)).
    { rewrite of_N_add. change (of_N 1) with 1. change (of_N (10 ^ 5)) with 100000. lra. }
    assert (K2 : of_N m < of_N (10 ^ 6 + 1)).
    { change (of_N (10 ^ 6 + 1)) with 1000001. lra. }
    apply of_N_lt in K1. apply of_N_lt in K2. lia. }
  assert (WI : within (5 # 1000000) (of_N m * 10 ^ (x - 5)) v).
  { rewrite within_bounds, <- S. split; nra. }
  destruct (N.eqb_spec m (10 ^ 6)) as [E|E].
  - exists (10 ^ 5)%N, (x + 1)%Z. split; [reflexivity|]. split; [split; reflexivity|]. rewrite E in WI. unfold within in *.
    setoid_replace (of_N (10 ^ 5) * 10 ^ (x + 1 - 5)) with (of_N (10 ^ 6) * 10 ^ (x - 5)); [exact WI|].
    replace (x + 1 - 5)%Z with ((x - 5) + 1)%Z by lia. rewrite ten_add. change (10 ^ 1) with 10.
    change (of_N (10 ^ 5)) with 100000. change (of_N (10 ^ 6)) with 1000000. ring.
  - exists m, x. split; [reflexivity|]. split; [lia|exact WI].
Qed.
