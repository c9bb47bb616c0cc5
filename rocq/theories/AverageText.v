(** The text of an average denotes its six digits. *)

From Coq Require Import QArith Qabs Qpower Lqa Lia DecimalFacts DecimalN.
From Verif Require Import Base Facts Text Table Report Stats SpecText TableThms Average SpecAverage AverageThms.

Lemma value_acc : forall w a,
  (fold_left (fun a c => a * 10 + (c - 48))%N w a = a * 10 ^ N.of_nat (length w) + decimal_value w)%N.
Proof.
  unfold decimal_value. induction w as [|c w IH]; intros a; cbn [fold_left length].
  - change (10 ^ N.of_nat 0)%N with 1%N. lia.
  - rewrite IH, (IH (0 * 10 + (c - 48))%N), Nat2N.inj_succ, N.pow_succ_r'. lia.
Qed.

Lemma value_app : forall a b, (decimal_value (a ++ b) = decimal_value a * 10 ^ N.of_nat (length b) + decimal_value b)%N.
Proof. intros. unfold decimal_value at 1. rewrite fold_left_app. apply value_acc. Qed.

Lemma value_cons : forall c w, (decimal_value (c :: w) = (c - 48) * 10 ^ N.of_nat (length w) + decimal_value w)%N.
Proof. intros. unfold decimal_value at 1. cbn [fold_left]. rewrite value_acc. reflexivity. Qed.

Lemma value_below : forall w, Forall (fun c => 48 <= c <= 57)%N w -> (decimal_value w < 10 ^ N.of_nat (length w))%N.
Proof.
  intros w F. induction F as [|c w H F IH]; [reflexivity|]. rewrite value_cons. cbn [length].
  rewrite Nat2N.inj_succ, N.pow_succ_r'. set (z := (10 ^ N.of_nat (length w))%N) in *. clearbody z. nia.
Qed.

(* Numbers are printed without zeros before them. *)
Lemma print_head : forall n, (0 < n)%N -> exists c w, print_number n = c :: w /\ (49 <= c)%N.
Proof.
  intros n H. unfold print_number. assert (U := DecimalN.Unsigned.to_of (N.to_uint n)).
  rewrite DecimalN.Unsigned.of_to in U. unfold Decimal.unorm in U.
  assert (Z := nzhead_nonzero (N.to_uint n)).
  destruct (Decimal.nzhead (N.to_uint n)) eqn:E.
  - exfalso. assert (V := DecimalN.Unsigned.of_to n). rewrite U in V. cbn in V. lia.
  - exfalso. apply (Z u). reflexivity.
  - rewrite U. do 2 eexists. split; [reflexivity|lia].
  - rewrite U. do 2 eexists. split; [reflexivity|lia].
  - rewrite U. do 2 eexists. split; [reflexivity|lia].
  - rewrite U. do 2 eexists. split; [reflexivity|lia].
  - rewrite U. do 2 eexists. split; [reflexivity|lia].
  - rewrite U. do 2 eexists. split; [reflexivity|lia].
  - rewrite U. do 2 eexists. split; [reflexivity|lia].
  - rewrite U. do 2 eexists. split; [reflexivity|lia].
  - rewrite U. do 2 eexists. split; [reflexivity|lia].
Qed.

Lemma six_digits : forall m, (10 ^ 5 <= m < 10 ^ 6)%N -> length (print_number m) = 6%nat.
Proof.
  intros m (L & H). destruct (print_head m ltac:(lia)) as (c & w & E & C).
  assert (V := print_value m). assert (D := print_decimal m). destruct D as (_ & D).
  assert (B := value_below _ D). rewrite V in B. rewrite E in V, B |- *. rewrite value_cons in V. cbn [length] in *.
  assert (K1 : (10 ^ N.of_nat (length w) < 10 ^ 6)%N).
  { set (z := (10 ^ N.of_nat (length w))%N) in *. clearbody z. nia. }
  apply N.pow_lt_mono_r_iff in K1; [|lia].
  assert (K2 : (10 ^ 5 < 10 ^ N.of_nat (S (length w)))%N) by lia.
  apply N.pow_lt_mono_r_iff in K2; [|lia]. lia.
Qed.

(* Zeros at the end. *)
Lemma strip_split : forall l, exists k, l = strip_zeros l ++ repeat 48%N k.
Proof.
  induction l as [|c l (k & IH)]; [exists 0%nat; reflexivity|]. cbn [strip_zeros].
  destruct (strip_zeros l) as [|d s] eqn:E.
  - cbn [app] in IH. destruct (N.eqb_spec c 48) as [->|D].
    + exists (S k). cbn [repeat app]. rewrite IH. reflexivity.
    + exists k. cbn [app]. rewrite IH at 1. reflexivity.
  - exists k. rewrite IH at 1. reflexivity.
Qed.

Lemma value_zeros : forall k, decimal_value (repeat 48%N k) = 0%N.
Proof. induction k as [|k IH]; [reflexivity|]. cbn [repeat]. rewrite value_cons, IH. reflexivity. Qed.

Lemma strip_value : forall ip l, point_value ip (strip_zeros l) == point_value ip l.
Proof.
  intros ip l. destruct (strip_split l) as (k & E). unfold point_value.
  remember (strip_zeros l) as s eqn:ES. clear ES. subst l.
  rewrite app_assoc, (value_app (ip ++ s)), value_zeros, N.add_0_r, of_N_mul, of_N_pow, repeat_length.
  change (of_N 10) with 10. rewrite app_length, repeat_length, Nat2Z.inj_add, nat_N_Z.
  replace (- (Z.of_nat (length s) + Z.of_nat k))%Z with (- Z.of_nat (length s) + - Z.of_nat k)%Z by lia.
  rewrite ten_add. rewrite <- (Qmult_1_r (of_N (decimal_value (ip ++ s)) * _)) at 1.
  setoid_replace 1 with (10 ^ Z.of_nat k * 10 ^ (- Z.of_nat k)) at 1; [ring|].
  rewrite <- ten_add. replace (Z.of_nat k + - Z.of_nat k)%Z with 0%Z by lia. reflexivity.
Qed.

Lemma strip_digits : forall l, Forall (fun c => 48 <= c <= 57)%N l -> Forall (fun c => 48 <= c <= 57)%N (strip_zeros l).
Proof. intros l F. destruct (strip_split l) as (k & E). rewrite E in F. apply Forall_app in F. apply F. Qed.

Lemma fraction_text : forall ip l, ip ++ print_fraction l = with_point ip (strip_zeros l).
Proof. intros ip l. unfold print_fraction, with_point. destruct (strip_zeros l); [apply app_nil_r|reflexivity]. Qed.

Lemma exponent_text : forall x, exists ep, decimal ep /\ decimal_value ep = Z.to_N (Z.abs x) /\
  print_exponent x = 101%N :: (if (x <? 0)%Z then 45%N else 43%N) :: ep.
Proof.
  intros x. unfold print_exponent. set (n := Z.to_N (Z.abs x)).
  assert (D := print_decimal n). assert (V := print_value n).
  destruct (length (print_number n) <? 2)%nat.
  - eexists. split; [|split; [|reflexivity]].
    + split; [discriminate|]. constructor; [lia|apply D].
    + rewrite value_cons, V. lia.
  - eexists. split; [exact D|]. split; [exact V|reflexivity].
Qed.

Theorem decimal_text : forall m x, (10 ^ 5 <= m < 10 ^ 6)%N ->
  exists v, denotes (print_six m x) v /\ v == of_N m * 10 ^ (x - 5).
Proof.
  intros m x M. unfold print_six. assert (L := six_digits m M). assert (V := print_value m).
  assert (D := print_decimal m). destruct D as (_ & D). set (ds := print_number m) in *. clearbody ds.
  assert (DF : forall k, Forall (fun c => 48 <= c <= 57)%N (firstn k ds) /\ Forall (fun c => 48 <= c <= 57)%N (skipn k ds)).
  { intros k. apply Forall_app. rewrite firstn_skipn. exact D. }
  assert (NE : forall k, (0 < k)%nat -> decimal (firstn k ds)).
  { intros k K. split; [|apply DF]. destruct ds; [discriminate|]. destruct k; [lia|discriminate]. }
  assert (PV : forall k, point_value (firstn k ds) (skipn k ds) == of_N m * 10 ^ (- Z.of_nat (6 - k))).
  { intros k. unfold point_value. rewrite firstn_skipn, V, skipn_length, L. reflexivity. }
  destruct (Z.ltb_spec x (-4)) as [A|A]; [|destruct (Z.leb_spec 6 x) as [B|B]]; cbn [orb].
  - destruct (exponent_text x) as (ep & E1 & E2 & ->). destruct (Z.ltb_spec x 0); [|lia].
    rewrite app_assoc, fraction_text. eexists. split.
    + apply denotes_small; [apply NE; lia|apply strip_digits, DF|exact E1].
    + rewrite strip_value, PV, E2, <- Qmult_assoc, <- ten_add.
      replace (- Z.of_nat (6 - 1) + - Z.of_N (Z.to_N (Z.abs x)))%Z with (x - 5)%Z by lia. reflexivity.
  - destruct (exponent_text x) as (ep & E1 & E2 & ->). destruct (Z.ltb_spec x 0); [lia|].
    rewrite app_assoc, fraction_text. eexists. split.
    + apply denotes_large; [apply NE; lia|apply strip_digits, DF|exact E1].
    + rewrite strip_value, PV, E2, <- Qmult_assoc, <- ten_add.
      replace (- Z.of_nat (6 - 1) + Z.of_N (Z.to_N (Z.abs x)))%Z with (x - 5)%Z by lia. reflexivity.
  - destruct (Z.ltb_spec x 0) as [C|C].
    + change (48%N :: ?l) with ([48%N] ++ l). rewrite fraction_text. eexists. split.
      * apply denotes_plain; [split; [discriminate|constructor; [lia|constructor]]|]. apply strip_digits.
        apply Forall_app. split; [|exact D]. apply Forall_forall. intros c I. apply repeat_spec in I. lia.
      * rewrite strip_value. unfold point_value. rewrite app_assoc, (value_app _ ds), V.
        change ([48%N] ++ repeat 48%N (Z.to_nat (- x - 1))) with (repeat 48%N (S (Z.to_nat (- x - 1)))).
        rewrite value_zeros, N.mul_0_l, N.add_0_l, app_length, repeat_length, L.
        replace (- Z.of_nat (Z.to_nat (- x - 1) + 6))%Z with (x - 5)%Z by lia. reflexivity.
    + rewrite fraction_text. eexists. split.
      * apply denotes_plain; [apply NE; lia|apply strip_digits, DF].
      * rewrite strip_value, PV. replace (- Z.of_nat (6 - Z.to_nat (x + 1)))%Z with (x - 5)%Z by lia. reflexivity.
Qed.

Theorem print_value_near : forall m e, (0 < m)%N ->
  exists w v, print_quotient (Finite (m, e)) = Ok (Some w) /\ denotes w v /\ within (5 # 1000000) v (value (m, e)).
Proof.
  intros m e M. unfold print_quotient. destruct (N.eqb_spec m 0); [lia|].
  assert (S := scaled_value 2 m 1 (- e) ltac:(lia) ltac:(lia)). assert (P := scaled_pos 2 m 1 (- e) ltac:(lia) M ltac:(lia)).
  destruct (scaled 2 m 1 (- e)) as (n1, d1). cbn [fst snd] in *. change (of_N 2) with 2 in S. change (of_N 1) with 1 in S.
  destruct (to_decimal_spec n1 d1 (proj1 P) (proj2 P)) as (ds & x & -> & B & W). cbn [bind].
  destruct (decimal_text ds x B) as (v & D & E). exists (print_six ds x), v. split; [reflexivity|].
  split; [exact D|]. unfold within in *. rewrite E.
  setoid_replace (value (m, e)) with (of_N n1 / of_N d1); [exact W|]. unfold value. cbn [fst snd].
  assert (T := pow_pos 2 (- e) ltac:(lra)). assert (T' := pow_pos 2 e ltac:(lra)). assert (D1 := of_N_pos d1 (proj2 P)).
  assert (K : 2 ^ (- e) * 2 ^ e == 1) by (rewrite <- pow_add by lra; replace (- e + e)%Z with 0%Z by lia; reflexivity).
  setoid_replace (of_N m) with (of_N n1 / of_N d1 * 2 ^ (- e)) by (rewrite S; field).
  rewrite <- Qmult_assoc, K. ring.
Qed.

Lemma quotient_near : forall p x y a b, (24 <= p)%N -> 0 < a -> 0 < b ->
  within (2 ^ (- Z.of_N p)) (value x) a -> within (2 ^ (- Z.of_N p)) (value y) b ->
  exists w v, print_quotient (float_div p x y) = Ok (Some w) /\ denotes w v /\ about v (a / b).
Proof.
  intros p x y a b Hp A B WX WY. assert (R := precise p Hp). set (r := 2 ^ (- Z.of_N p)) in *.
  assert (X : (0 < fst x)%N) by (apply value_pos; eapply within_pos; [|exact A|exact WX]; lra).
  assert (Y : (0 < fst y)%N) by (apply value_pos; eapply within_pos; [|exact B|exact WY]; lra).
  destruct (float_div_value p x y Hp X Y) as ((m, e) & -> & W).
  assert (D := within_div r a (value x) b (value y) ltac:(lra) A B WX WY).
  assert (P := div_pos a b A B). assert (P' : 0 < value x / value y) by (eapply within_pos; [|exact P|exact D]; lra).
  assert (Z : 0 < value (m, e)) by (eapply within_pos; [|exact P'|exact W]; fold r; lra).
  destruct (print_value_near m e (value_pos _ Z)) as (w & v & E & DE & WV).
  exists w, v. split; [exact E|]. split; [exact DE|]. unfold about.
  assert (T1 : within (4 * r + 3 * r * r) (value (m, e)) (a / b)).
  { apply (within_trans (3 * r) r _ _ (value x / value y)); auto; nra. }
  assert (RR : r * r <= (1 # 16777216) * r) by nra.
  apply (within_trans (4 * r + 3 * r * r) (5 # 1000000) _ v (value (m, e)) (a / b)); auto; nra.
Qed.

(* The averages. *)
Theorem average_right : forall p a b, (24 <= p)%N -> (0 < b)%N ->
  exists text, average p a b = Ok text /\ prints_average a b text.
Proof.
  intros p a b Hp Hb. unfold average, prints_average. destruct (N.eq_dec a 0) as [->|Ha].
  - assert (Y := float_of_value p b ltac:(lia) Hb). assert (R := precise p Hp).
    assert (PB := of_N_pos b Hb).
    assert (P : (0 < fst (float_of p b))%N) by (apply value_pos; eapply within_pos; [|exact PB|exact Y]; lra).
    exists (Some [48%N]). split.
    + change (float_of p 0) with (0%N, 0%Z). unfold float_div. destruct (float_of p b) as (m, e). cbn [fst] in P.
      destruct (N.eqb_spec m 0); [lia|]. reflexivity.
    + exists [48%N], (point_value [48%N] []). split; [reflexivity|]. split.
      * apply (denotes_plain [48%N] []); [split; [discriminate|constructor; [lia|constructor]]|constructor].
      * unfold about. change (point_value [48%N] []) with 0. change (of_N 0) with 0.
        setoid_replace (0 / of_N b) with 0 by (field; lra). discriminate.
  - destruct (quotient_near p (float_of p a) (float_of p b) (of_N a) (of_N b)) as (w & v & E & D & W);
      auto using of_N_pos; try (apply of_N_pos; lia); try (apply float_of_value; lia).
    exists (Some w). split; [exact E|]. exists w, v. auto.
Qed.

Theorem average_bytes_right : forall p a b, (24 <= p)%N -> (0 < b)%N ->
  exists text, average_bytes p a b = Ok text /\ prints_average (8 * a) b text.
Proof.
  intros p a b Hp Hb. destruct (N.eq_dec a 0) as [->|Ha].
  - destruct (average_right p 0 b Hp Hb) as (text & E & A). exists text. split; [|exact A].
    rewrite <- E. unfold average_bytes, average. change (float_of p 0) with (0%N, 0%Z). unfold float_div.
    destruct (float_of p b) as (m, e). reflexivity.
  - unfold average_bytes, prints_average.
    assert (W := float_of_value p a ltac:(lia) ltac:(lia)).
    destruct (float_of p a) as (m, e) eqn:EF.
    destruct (quotient_near p (m, (e + 3)%Z) (float_of p b) (of_N (8 * a)) (of_N b)) as (w & v & E & D & WW);
      auto using of_N_pos; try (apply of_N_pos; lia); try (apply float_of_value; lia).
    { unfold within, value in *. cbn [fst snd] in *. rewrite of_N_mul, pow_add by lra. change (of_N 8) with 8.
      change (2 ^ 3) with 8.
      setoid_replace (of_N m * (2 ^ e * 8) - 8 * of_N a) with ((of_N m * 2 ^ e - of_N a) * 8) by ring.
      rewrite abs_scale by lra. lra. }
    exists (Some w). split; [exact E|]. exists w, v. auto.
Qed.

(** Without things to count nothing that is a number is printed. *)
Theorem average_none : forall p a, (1 <= p)%N -> average p a 0 = Ok None.
Proof.
  intros p a Hp. unfold average, float_div. change (float_of p 0) with (0%N, 0%Z).
  destruct (float_of p a) as (m, e). cbn [N.eqb]. destruct (m =? 0)%N; reflexivity.
Qed.

(* A text denotes one number. *)
Definition digit (c : N) : Prop := (48 <= c <= 57)%N.

Fixpoint span (w : list N) : list N * list N :=
  match w with
  | [] => ([], [])
  | c :: w' => if is_digit c then let (a, b) := span w' in (c :: a, b) else ([], w)
  end.

Lemma digit_is : forall c, digit c -> is_digit c = true.
Proof. intros c (A & B). unfold is_digit. apply andb_true_intro. split; apply N.leb_le; auto. Qed.

Lemma span_digits : forall a b, Forall digit a -> (forall c b', b = c :: b' -> is_digit c = false) -> span (a ++ b) = (a, b).
Proof.
  intros a b F H. induction F as [|c a C F IH]; cbn [app span].
  - destruct b as [|c b]; [reflexivity|]. cbn [span]. rewrite (H c b eq_refl). reflexivity.
  - rewrite digit_is, IH by auto. reflexivity.
Qed.

Definition parse (w : list N) : Q :=
  let (ip, r) := span w in
  let (fp, r) := match r with
                 | 46%N :: r' => span r'
                 | _ => ([], r)
                 end in
  match r with
  | 101%N :: 43%N :: ep => point_value ip fp * 10 ^ Z.of_N (decimal_value ep)
  | 101%N :: 45%N :: ep => point_value ip fp * 10 ^ (- Z.of_N (decimal_value ep))
  | _ => point_value ip fp
  end.

Lemma parse_point : forall ip fp r, decimal ip -> Forall digit fp -> (forall c r', r = c :: r' -> c = 101%N) ->
  (let (ip, r) := span (with_point ip fp ++ r) in
   let (fp, r) := match r with
                  | 46%N :: r' => span r'
                  | _ => ([], r)
                  end in (ip, fp, r)) = (ip, fp, r).
Proof.
  intros ip fp r (_ & I) F R.
  assert (NR : forall c r', r = c :: r' -> is_digit c = false) by (intros c r' E; rewrite (R c r' E); reflexivity).
  unfold with_point. destruct fp as [|c fp].
  - rewrite span_digits by auto. destruct r as [|c r]; [reflexivity|]. rewrite (R c r eq_refl). reflexivity.
  - rewrite <- app_assoc. rewrite span_digits by (auto; intros c' r' E; injection E as <- _; reflexivity).
    cbn [app]. change (c :: fp ++ r) with ((c :: fp) ++ r). rewrite span_digits by auto. reflexivity.
Qed.

Lemma denotes_parse : forall w x, denotes w x -> parse w = x.
Proof.
  intros w x D. unfold parse. destruct D as [ip fp I F|ip fp ep I F E|ip fp ep I F E].
  - assert (P := parse_point ip fp [] I F ltac:(discriminate)). rewrite app_nil_r in P.
    destruct (span (with_point ip fp)) as (a, r).
    destruct (match r with 46%N :: r' => span r' | _ => ([], r) end) as (b, r'). injection P as -> -> ->. reflexivity.
  - assert (P := parse_point ip fp (101 :: 43 :: ep)%N I F ltac:(intros c r' Q; injection Q as <- _; reflexivity)).
    destruct (span (with_point ip fp ++ 101%N :: 43%N :: ep)) as (a, r).
    destruct (match r with 46%N :: r' => span r' | _ => ([], r) end) as (b, r'). injection P as -> -> ->. reflexivity.
  - assert (P := parse_point ip fp (101 :: 45 :: ep)%N I F ltac:(intros c r' Q; injection Q as <- _; reflexivity)).
    destruct (span (with_point ip fp ++ 101%N :: 45%N :: ep)) as (a, r).
    destruct (match r with 46%N :: r' => span r' | _ => ([], r) end) as (b, r'). injection P as -> -> ->. reflexivity.
Qed.

Theorem denotes_one : forall w x y, denotes w x -> denotes w y -> x = y.
Proof. intros w x y A B. apply denotes_parse in A. apply denotes_parse in B. congruence. Qed.
