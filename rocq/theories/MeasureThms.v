(** Proofs about the size measures. *)

From Verif Require Import Base Facts FlatTrie Spec Measures SpecMeasures NodeCount.

Lemma floor_log2_ok : forall g, (0 < g <= 2 ^ 48)%N -> floor_log2 g = Ok (N.log2 g).
Proof.
  intros g Hg. unfold floor_log2. destruct (N.eqb_spec g 0); [lia|].
  destruct (N.ltb_spec (2 ^ 48) g); [lia|]. auto.
Qed.

Lemma width_log2 : forall g, width g = (N.log2 (if N.eqb g 0 then 1 else g) + 1)%N.
Proof.
  intros g. unfold width. destruct (N.eqb_spec g 0) as [->|H]; [reflexivity|].
  rewrite N.max_r by lia. rewrite N.size_log2 by auto. lia.
Qed.

Lemma sub64_ge : forall a b, (b <= a < 2 ^ 64)%N -> sub64 a b = (a - b)%N.
Proof.
  intros a b H. unfold sub64. replace (a + 2 ^ 64 - b)%N with (a - b + 1 * 2 ^ 64)%N by lia.
  rewrite N.mod_add by discriminate. apply N.mod_small. lia.
Qed.

Lemma nz_pos : forall g, (g < 2 ^ 48)%N -> (0 < (if N.eqb g 0 then 1 else g) <= 2 ^ 48)%N.
Proof. intros g H. destruct (N.eqb_spec g 0); lia. Qed.

(** * Gap *)

Lemma gap_loop_spec : forall v x acc, increasing (x :: v) -> below (2 ^ 48) (x :: v) ->
  gap_loop x v acc = Ok (acc + sumN (map width (gaps_after x v)))%N.
Proof.
  induction v as [|y v IH]; intros x acc Hs Hb; cbn [gap_loop gaps_after map sumN fold_right].
  - f_equal. lia.
  - inversion Hs as [|? ? Hs' Hx]; subst. inversion Hx as [|? ? Hxy _]; subst.
    inversion Hb as [|? ? Hb0 Hb']; subst. inversion Hb' as [|? ? Hby _]; subst.
    rewrite (sub64_ge y x) by lia. rewrite sub64_ge by lia.
    rewrite floor_log2_ok by (apply nz_pos; lia). cbn [bind]. rewrite IH by auto.
    f_equal. rewrite <- width_log2. unfold sumN. lia.
Qed.

Theorem gap_spec : forall v, v <> [] -> increasing v -> below (2 ^ 48) v ->
  Gap v = Ok (sumN (map width (gaps v))).
Proof.
  intros [|x v] Hne Hs Hb; [congruence|]. unfold Gap.
  inversion Hb as [|? ? Hb0 Hb']; subst.
  replace (if (x <=? 0)%N then 1%N else x) with (if N.eqb x 0 then 1%N else x)
    by (destruct (N.eqb_spec x 0), (N.leb_spec x 0); lia).
  rewrite floor_log2_ok by (apply nz_pos; auto). cbn [bind]. rewrite gap_loop_spec by auto.
  f_equal. rewrite <- width_log2. cbn. unfold sumN. lia.
Qed.

(** * Rle *)

Lemma rle_run : forall n v x r acc, (x + N.of_nat n < 2 ^ 64)%N ->
  rle_loop (consecutive (x + 1) n ++ v) x r acc = rle_loop v (x + N.of_nat n) (r + N.of_nat n) acc.
Proof.
  induction n; intros v x r acc Hx; cbn [consecutive app rle_loop].
  - f_equal; lia.
  - rewrite (sub64_ge (x + 1) x) by lia. replace (x + 1 - x)%N with 1%N by lia. rewrite N.eqb_refl.
    rewrite IHn by lia. f_equal; lia.
Qed.

Lemma consecutive_length : forall n x, length (consecutive x n) = n.
Proof. induction n; cbn; auto. Qed.

Lemma from_runs_eq : forall x n rest, from_runs x n rest =
  consecutive x n ++ match rest with [] => [] | (g, m) :: rest' => from_runs (x + N.of_nat n + g) m rest' end.
Proof. destruct rest as [|(g, m) rest]; reflexivity. Qed.


Lemma rle_gaps : forall rest x r acc,
  (x < 2 ^ 48)%N -> (0 < r <= 2 ^ 48)%N -> runs_ok rest ->
  match rest with [] => True | (g, m) :: rest' => below (2 ^ 48) (from_runs (x + 1 + g) m rest') end ->
  rle_loop (match rest with [] => [] | (g, m) :: rest' => from_runs (x + 1 + g) m rest' end) x r acc
  = Ok (acc + gap_costs rest
        + match rest with [] => 0 | _ => width (r - 1) + run_costs (removelast (map snd rest)) end)%N.
Proof.
  induction rest as [|(g, m) rest IH]; intros x r acc Hx Hr Hk Hb.
  - cbn. f_equal. lia.
  - inversion Hk as [|? ? (Hg & Hm) Hk']; subst. cbn [fst snd] in *.
    destruct m as [|m]; [lia|].
    assert (Hlast : (x + 1 + g + N.of_nat m < 2 ^ 48)%N).
    { assert (In (x + 1 + g + N.of_nat m)%N (from_runs (x + 1 + g) (S m) rest)).
      { rewrite from_runs_eq. apply in_or_app. left. clear. generalize (x + 1 + g)%N as y. induction m; intros y.
        - left. lia.
        - right. replace (y + N.of_nat (S m))%N with (y + 1 + N.of_nat m)%N by lia. apply IHm. }
      unfold below in Hb. rewrite Forall_forall in Hb. auto. }
    rewrite from_runs_eq. cbn [consecutive app rle_loop].
    rewrite (sub64_ge (x + 1 + g) x) by lia. replace (x + 1 + g - x)%N with (g + 1)%N by lia.
    destruct (N.eqb_spec (g + 1) 1); [lia|].
    rewrite (sub64_ge (g + 1)) by lia. rewrite sub64_ge by lia. rewrite (sub64_ge r) by lia.
    replace (g + 1 - 1 - 1)%N with (g - 1)%N by lia.
    rewrite floor_log2_ok by (apply nz_pos; lia). cbn [bind].
    rewrite floor_log2_ok by (apply nz_pos; lia). cbn [bind].
    rewrite rle_run by lia. rewrite <- !width_log2.
    replace (match rest with [] => [] | (g0, m0) :: rest' => from_runs (x + 1 + g + N.of_nat (S m) + g0) m0 rest' end)
      with (match rest with [] => [] | (g0, m0) :: rest' =>
              from_runs (x + 1 + g + N.of_nat m + 1 + g0) m0 rest' end)
      by (destruct rest as [|(g0, m0) rest']; auto; f_equal; lia).
    rewrite IH; auto; try lia.
    + f_equal. unfold gap_costs. cbn [map sumN fold_right fst]. fold (sumN (map (fun gm : N * nat => width (fst gm - 1)) rest)).
      replace (1 + N.of_nat m - 1)%N with (N.of_nat (S m) - 1)%N by lia.
      destruct rest as [|(g0, m0) rest'].
      * cbn. lia.
      * cbn [map snd]. change (removelast (S m :: m0 :: map snd rest')) with (S m :: removelast (m0 :: map snd rest')).
        unfold run_costs at 2. cbn [map sumN fold_right]. fold (run_costs (removelast (m0 :: map snd rest'))).
        unfold run_costs, sumN. lia.
    + destruct rest as [|(g0, m0) rest']; auto. rewrite from_runs_eq in Hb.
      unfold below in Hb. apply Forall_app in Hb. destruct Hb as (_ & Hb).
      replace (x + 1 + g + N.of_nat (S m) + g0)%N with (x + 1 + g + N.of_nat m + 1 + g0)%N in Hb by lia. auto.
Qed.

Theorem rle_spec : forall n rest, 0 < n -> runs_ok rest -> below (2 ^ 48) (from_runs 0 n rest) ->
  Rle (from_runs 0 n rest) = Ok (gap_costs rest + run_costs (removelast (n :: map snd rest)))%N.
Proof.
  intros n rest Hn Hk Hb. destruct n as [|n]; [lia|].
  assert (Hlast : (N.of_nat n < 2 ^ 48)%N).
  { assert (In (0 + N.of_nat n)%N (from_runs 0 (S n) rest)).
    { rewrite from_runs_eq. apply in_or_app. left. clear. generalize 0%N as y. induction n; intros y.
      - left. lia.
      - right. replace (y + N.of_nat (S n))%N with (y + 1 + N.of_nat n)%N by lia. apply IHn. }
    unfold below in Hb. rewrite Forall_forall in Hb. apply Hb in H. lia. }
  rewrite from_runs_eq. cbn [consecutive app Rle N.eqb].
  change 1%N with (0 + 1)%N at 1. rewrite rle_run by lia. rewrite !N.add_0_l.
  replace (match rest with [] => [] | (g0, m0) :: rest' => from_runs (N.of_nat (S n) + g0) m0 rest' end)
    with (match rest with [] => [] | (g0, m0) :: rest' => from_runs (N.of_nat n + 1 + g0) m0 rest' end)
    by (destruct rest as [|(g0, m0) rest']; auto; f_equal; lia).
  rewrite rle_gaps; auto; try lia.
  - f_equal. destruct rest as [|(g, m) rest]; [reflexivity|]. cbn [map snd].
    change (removelast (S n :: m :: map snd rest)) with (S n :: removelast (m :: map snd rest)).
    unfold run_costs at 2. cbn [map sumN fold_right]. fold (run_costs (removelast (m :: map snd rest))).
    replace (1 + N.of_nat n - 1)%N with (N.of_nat (S n) - 1)%N by lia. unfold run_costs, sumN. lia.
  - destruct rest as [|(g0, m0) rest']; auto. rewrite from_runs_eq in Hb.
    unfold below in Hb. apply Forall_app in Hb. destruct Hb as (_ & Hb).
    replace (0 + N.of_nat (S n) + g0)%N with (N.of_nat n + 1 + g0)%N in Hb by lia. auto.
Qed.

(** Zero is treated as a member. *)
Theorem rle_zero : forall x v, x <> 0%N -> Rle (x :: v) = Rle (0%N :: x :: v).
Proof. intros x v H. unfold Rle. destruct (N.eqb_spec x 0); [congruence|]. reflexivity. Qed.

(** Values appended to the last run do not count. *)
Theorem rle_last_run : forall v x n, Forall (fun y => y < 2 ^ 64)%N (v ++ [x]) -> (x + N.of_nat n < 2 ^ 64)%N ->
  Rle ((v ++ [x]) ++ consecutive (x + 1) n) = Rle (v ++ [x]).
Proof.
  intros v x n Hb Hn.
  assert (H : forall w y r acc, rle_loop ((w ++ [x]) ++ consecutive (x + 1) n) y r acc = rle_loop (w ++ [x]) y r acc).
  { intros w. induction w as [|z w IH]; intros y r acc; cbn [app rle_loop].
    - assert (Z : forall r acc, rle_loop (consecutive (x + 1) n) x r acc = Ok acc).
      { intros r0 a0. rewrite <- (app_nil_r (consecutive (x + 1) n)). rewrite rle_run by auto. reflexivity. }
      destruct (N.eqb _ _); [apply Z|]. destruct (floor_log2 _); cbn [bind]; auto.
      destruct (floor_log2 _); cbn [bind]; auto.
    - destruct (N.eqb _ _); [apply IH|]. destruct (floor_log2 _); cbn [bind]; auto.
      destruct (floor_log2 _); cbn [bind]; auto. }
  destruct v as [|y v]; cbn [app].
  - unfold Rle. destruct (N.eqb_spec x 0) as [->|].
    + assert (Z : forall r acc, rle_loop (consecutive (0 + 1) n) 0 r acc = Ok acc).
      { intros r0 a0. rewrite <- (app_nil_r (consecutive _ n)). rewrite rle_run by auto. reflexivity. }
      rewrite Z. reflexivity.
    + apply (H []).
  - unfold Rle. destruct (N.eqb y 0).
    + apply H.
    + apply (H (y :: v)).
Qed.

(** * prefixOf *)

Lemma bit_eqb : forall x y i, N.eqb (N.land (N.shiftr x i) 1) (N.land (N.shiftr y i) 1)
  = Bool.eqb (N.testbit x i) (N.testbit y i).
Proof.
  intros x y i.
  assert (H : forall z, N.land (N.shiftr z i) 1 = if N.testbit z i then 1%N else 0%N).
  { intros z. change 1%N with (N.ones 1) at 1. rewrite N.land_ones.
    rewrite N.testbit_eqb, N.shiftr_div_pow2.
    assert (L := N.mod_lt (z / 2 ^ i) 2 ltac:(discriminate)). change (2 ^ 1)%N with 2%N.
    revert L. generalize ((z / 2 ^ i) mod 2)%N. intros m L. destruct (N.eqb_spec m 1); lia. }
  rewrite !H. destruct (N.testbit x i), (N.testbit y i); reflexivity.
Qed.

Lemma prefixOf_loop_spec : forall i x y shift, shift + i = 64 -> (x < 2 ^ 64)%N ->
  (x / 2 ^ N.of_nat i = y / 2 ^ N.of_nat i)%N -> x <> y ->
  exists k, 1 <= k <= i /\ (x / 2 ^ N.of_nat k = y / 2 ^ N.of_nat k)%N /\
    (x / 2 ^ N.of_nat (k - 1) <> y / 2 ^ N.of_nat (k - 1))%N /\
    prefixOf_loop i x y shift = Ok (x mod 2 ^ N.of_nat k)%N.
Proof.
  induction i as [|i IH]; intros x y shift Hs Hx E Hne.
  - change (2 ^ N.of_nat 0)%N with 1%N in E. rewrite !N.div_1_r in E. congruence.
  - cbn [prefixOf_loop]. rewrite bit_eqb.
    assert (B : forall z, (z / 2 ^ N.of_nat i = 2 * (z / 2 ^ N.of_nat (S i)) + N.b2n (N.testbit z (N.of_nat i)))%N).
    { intros z. rewrite Nat2N.inj_succ, N.pow_succ_r', (N.mul_comm 2 (2 ^ N.of_nat i)).
      rewrite <- (N.div_div z (2 ^ N.of_nat i) 2) by (try apply N.pow_nonzero; discriminate).
      rewrite <- N.shiftr_div_pow2.
      assert (Q := N.div2_odd (N.shiftr z (N.of_nat i))). rewrite N.div2_div in Q.
      rewrite <- N.bit0_odd, N.shiftr_spec', N.add_0_l in Q. exact Q. }
    destruct (N.testbit x (N.of_nat i)) eqn:Ex, (N.testbit y (N.of_nat i)) eqn:Ey; cbn [Bool.eqb].
    1, 4: assert (E' : (x / 2 ^ N.of_nat i = y / 2 ^ N.of_nat i)%N) by (rewrite (B x), (B y), Ex, Ey, E; reflexivity);
      destruct (IH x y (S shift) ltac:(lia) Hx E' Hne) as (k & Hk & H1 & H2 & H3);
      exists k; split; [lia|]; split; [exact H1|]; split; [exact H2|exact H3].
    all: destruct (Nat.leb_spec 64 shift) as [Hsh|Hsh]; [lia|]; exists (S i); split; [lia|]; split; [exact E|]; split;
      [ replace (S i - 1) with i by lia; rewrite (B x), (B y), Ex, Ey, E; cbn [N.b2n];
        generalize (y / 2 ^ N.of_nat (S i))%N; intros; lia | ];
      f_equal; change (2 ^ 64 - 1)%N with (N.ones 64);
      rewrite N.shiftr_div_pow2, N.ones_div_pow2 by lia;
      replace (64 - N.of_nat shift)%N with (N.of_nat (S i)) by lia; apply N.land_ones.
Qed.

Theorem prefixOf_spec : forall x y, (x < 2 ^ 64)%N -> (y < 2 ^ 64)%N -> x <> y ->
  exists k, 1 <= k <= 64 /\ (x / 2 ^ N.of_nat k = y / 2 ^ N.of_nat k)%N /\
    (x / 2 ^ N.of_nat (k - 1) <> y / 2 ^ N.of_nat (k - 1))%N /\
    prefixOf x y 64 = Ok (x mod 2 ^ N.of_nat k)%N.
Proof.
  intros x y Hx Hy Hne. unfold prefixOf. cbn [Nat.ltb Nat.leb].
  apply prefixOf_loop_spec; auto. rewrite !N.div_small; auto.
Qed.

Theorem prefixOf_same : forall x, prefixOf x x 64 = Ok x.
Proof.
  intros x. unfold prefixOf. change (64 <? 64) with false. cbv iota.
  assert (H : forall i s, prefixOf_loop i x x s = Ok x).
  { induction i; intros s; auto. cbn [prefixOf_loop]. rewrite N.eqb_refl. auto. }
  apply H.
Qed.

(** The suffix of a larger value is positive, so its logarithm is defined. *)
Lemma prefixOf_pos : forall x y, (y < x < 2 ^ 64)%N ->
  exists r, prefixOf x y 64 = Ok r /\ (0 < r <= x)%N.
Proof.
  intros x y H. destruct (prefixOf_spec x y) as (k & Hk & E1 & E2 & E); try lia.
  exists (x mod 2 ^ N.of_nat k)%N. split; auto.
  assert (Z : (2 ^ N.of_nat k)%N <> 0%N) by (apply N.pow_nonzero; discriminate).
  assert (D1 := N.div_mod x _ Z). assert (D2 := N.div_mod y _ Z). rewrite <- E1 in D2.
  split; [|apply N.mod_le; auto]. clear - H D1 D2. revert D1 D2.
  generalize (2 ^ N.of_nat k * (x / 2 ^ N.of_nat k))%N, (x mod 2 ^ N.of_nat k)%N, (y mod 2 ^ N.of_nat k)%N.
  intros a b c D1 D2. lia.
Qed.

Theorem pom_list_spec : forall x v, (0 < x)%N -> increasing (x :: v) -> below (2 ^ 48) (x :: v) ->
  exists sp, pom_list (x :: v) = Ok (x :: sp, (sumN (map (fun y => 2 * N.log2 y + 1) (x :: sp)))%N) /\
    Forall2 (fun yz r => prefixOf (snd yz) (fst yz) 64 = Ok r) (combine (x :: v) v) sp.
Proof.
  intros x v Hx Hs Hb. unfold pom_list. cbn [pom_loop bind].
  inversion Hb as [|? ? Hb0 Hb']; subst. rewrite floor_log2_ok by lia. cbn [bind app].
  assert (H : forall v y sp bits, increasing (y :: v) -> below (2 ^ 48) (y :: v) ->
    exists sp', pom_loop (Some y) v sp bits = Ok (sp ++ sp', (bits + sumN (map (fun y => 2 * N.log2 y + 1) sp'))%N) /\
      Forall2 (fun yz r => prefixOf (snd yz) (fst yz) 64 = Ok r) (combine (y :: v) v) sp').
  { clear. induction v as [|z v IH]; intros y sp bits Hs Hb.
    - exists []. cbn. rewrite app_nil_r, N.add_0_r. split; auto.
    - inversion Hs as [|? ? Hs' Hy]; subst. inversion Hy; subst. inversion Hb as [|? ? ? Hb']; subst.
      inversion Hb'; subst. destruct (prefixOf_pos z y) as (r & E & Hr); [lia|].
      cbn [pom_loop]. rewrite E. cbn [bind]. rewrite floor_log2_ok by lia. cbn [bind].
      destruct (IH z (sp ++ [r]) (bits + (2 * N.log2 r + 1))%N) as (sp' & E' & F); auto.
      exists (r :: sp'). rewrite E'. split.
      + rewrite <- app_assoc. cbn [app map sumN fold_right]. do 2 f_equal. unfold sumN. lia.
      + cbn [combine]. constructor; auto. }
  destruct (H v x [x] (0 + (2 * N.log2 x + 1))%N) as (sp & E & F); auto.
  exists sp. split; auto.
Qed.

Lemma rle_refuted : ~ (forall n rest, 0 < n -> runs_ok rest -> below (2 ^ 48) (from_runs 0 n rest) ->
  Rle (from_runs 0 n rest) = Ok (gap_costs rest + run_costs (n :: map snd rest))%N).
Proof.
  intros H. specialize (H 1 [] ltac:(lia) (Forall_nil _)).
  assert (B : below (2 ^ 48) (from_runs 0 1 [])) by (constructor; [reflexivity|constructor]).
  specialize (H B). discriminate.
Qed.

Lemma prefixOf_narrow_refuted : ~ (forall n x y, 1 <= n <= 64 -> (x < 2 ^ N.of_nat n)%N -> (y < 2 ^ N.of_nat n)%N -> x <> y ->
  exists k, 1 <= k <= n /\ (x / 2 ^ N.of_nat k = y / 2 ^ N.of_nat k)%N /\
    (x / 2 ^ N.of_nat (k - 1) <> y / 2 ^ N.of_nat (k - 1))%N /\
    prefixOf x y n = Ok (x mod 2 ^ N.of_nat k)%N).
Proof.
  intros H. destruct (H 3 5%N 4%N) as (k & Hk & E1 & E2 & E); try lia.
  assert (C : k = 1 \/ k = 2 \/ k = 3) by lia. destruct C as [-> | [-> | ->]].
  - discriminate E.
  - discriminate E.
  - apply E2. reflexivity.
Qed.

Theorem trie_measure_spec : forall u s,
  (3 <= u <= 2 ^ 48)%N -> s <> [] -> increasing s -> below u s -> shorter 32 s ->
  (exists ns, Trie s u false = Ok (list_sum ns) /\
     Forall2 (fun k n => counts (prefix_of_member s k) n) (seq 0 (digits u)) ns) /\
  (exists ns, Trie s u true = Ok (list_sum ns) /\
     Forall2 (fun k n => counts (prefix_outside_runs s k) n) (seq 0 (digits u)) ns).
Proof.
  intros u s Hu Hne Hs Hb Hl. unfold Trie. split.
  - destruct (flat_measure u s Hu Hne Hs Hb Hl) as (t & ns & Ht & Hm & Hc).
    exists ns. rewrite Ht. cbn [bind]. auto.
  - destruct (flat_measure_runs u s Hu Hne Hs Hb Hl) as (t & t' & ns & Ht & Ht' & Hm & Hc).
    exists ns. rewrite Ht. cbn [bind]. rewrite Ht'. cbn [bind]. auto.
Qed.
