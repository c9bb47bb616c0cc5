(** The size of a trie is the size of its set with shared prefixes omitted. *)

From Verif Require Import Base Spec SpecTries SpecMeasures SpecLayout SpecOmission FlatTrie LevelTrie FastTrie Measures
  Facts NodeCount MeasureThms LayoutThms LayoutFast SpaceThms.

Lemma same_above : forall x y j j', j <= j' -> (x / 2 ^ N.of_nat j = y / 2 ^ N.of_nat j)%N ->
  (x / 2 ^ N.of_nat j' = y / 2 ^ N.of_nat j')%N.
Proof.
  intros x y j j' L E. replace j' with (j + (j' - j)) by (clear - L; lia). rewrite Nat2N.inj_add, N.pow_add_r.
  rewrite <- !N.div_div by (apply N.pow_nonzero; discriminate). rewrite E. reflexivity.
Qed.

Lemma parted_at : forall y x k, parted y x k -> forall j,
  ((x / 2 ^ N.of_nat j = y / 2 ^ N.of_nat j)%N <-> k <= j).
Proof.
  intros y x k (K & E & D) j. split; intros H.
  - destruct (Nat.le_gt_cases k j) as [|L]; auto. exfalso. apply D. apply (same_above x y j); auto. clear - L. lia.
  - apply (same_above x y k); auto.
Qed.

Lemma parted_exists : forall y x h, (x / 2 ^ N.of_nat h = y / 2 ^ N.of_nat h)%N -> x <> y ->
  exists k, k <= h /\ parted y x k.
Proof.
  intros y x. induction h as [|h IH]; intros E D.
  - exfalso. apply D. change (2 ^ N.of_nat 0)%N with 1%N in E. rewrite !N.div_1_r in E. auto.
  - destruct (N.eq_dec (x / 2 ^ N.of_nat h) (y / 2 ^ N.of_nat h)) as [Q|Q].
    + destruct (IH Q D) as (k & K & P). exists k. split; auto.
    + exists (S h). split; auto. split; [clear; lia|]. split; auto. replace (S h - 1) with h by (clear; lia). auto.
Qed.

Lemma parted_unique : forall y x k k', parted y x k -> parted y x k' -> k = k'.
Proof.
  intros y x k k' P P'. assert (A := proj1 (parted_at _ _ _ P k') (proj1 (proj2 P'))).
  assert (B := proj1 (parted_at _ _ _ P' k) (proj1 (proj2 P))). clear - A B. lia.
Qed.

Lemma partings_exist : forall h s, increasing s -> (forall x, In x s -> (x < 2 ^ N.of_nat h)%N) ->
  exists ks, partings s ks /\ Forall (fun k => k <= h) ks.
Proof.
  intros h. induction s as [|x s IH]; intros I B; [exists []; split; constructor|].
  destruct s as [|y s]; [exists []; split; constructor|].
  apply StronglySorted_inv in I. destruct I as (I & F). destruct IH as (ks & P & L); auto.
  { intros z Z. apply B. right. auto. }
  inversion F as [|? ? XY _]; subst. destruct (parted_exists x y h) as (k & K & Q); [|clear - XY; lia|].
  { rewrite !N.div_small; auto; apply B; cbn; auto. }
  exists (k :: ks). split; constructor; auto.
Qed.

Lemma between : forall x y z w, w <> 0%N -> (x <= y)%N -> (y <= z)%N -> (z / w = x / w)%N -> (y / w = x / w)%N.
Proof.
  intros x y z w W A B E. assert (C := N.div_le_mono x y w W A). assert (D := N.div_le_mono y z w W B).
  rewrite E in D. apply N.le_antisymm; assumption.
Qed.

Definition apart (j k : nat) : nat := if j <? k then 1 else 0.

Lemma prefixes_count : forall s ks j, s <> [] -> increasing s -> partings s ks ->
  length (prefixes s j) = S (list_sum (map (apart j) ks)).
Proof.
  induction s as [|x s IH]; intros ks j NE I P; [contradiction|]. destruct s as [|y s].
  - inversion P; subst. reflexivity.
  - inversion P as [|? k ? ks' Q P']; subst. cbn [fst snd] in Q.
    apply StronglySorted_inv in I. destruct I as (I & F).
    specialize (IH ks' j ltac:(discriminate) I P'). assert (A := parted_at _ _ _ Q j). clear P P' Q.
    unfold prefixes in IH |- *. set (q := fun z => (z / 2 ^ N.of_nat j)%N) in *.
    change (map q (x :: y :: s)) with (q x :: map q (y :: s)).
    change (list_sum (map (apart j) (k :: ks'))) with (apart j k + list_sum (map (apart j) ks')).
    change (nodup N.eq_dec (q x :: map q (y :: s)))
      with (if in_dec N.eq_dec (q x) (map q (y :: s)) then nodup N.eq_dec (map q (y :: s))
            else q x :: nodup N.eq_dec (map q (y :: s))).
    unfold apart at 1. destruct (Nat.ltb_spec j k) as [L|L].
    + destruct (in_dec N.eq_dec (q x) (map q (y :: s))) as [E|E]; [|cbn [length]; clear - IH; lia].
      exfalso. assert (q y = q x); [|apply A in H; clear - H L; lia].
      apply in_map_iff in E. destruct E as (z & Ez & Z).
      assert (x < y)%N by (inversion F; auto). assert (Y : (y <= z)%N).
      { clear - Z I. destruct Z as [<-|Z]; [apply N.le_refl|]. apply StronglySorted_inv in I. destruct I as (_ & G). rewrite Forall_forall in G.
        apply N.lt_le_incl. apply G. exact Z. }
      apply (between x y z); [apply N.pow_nonzero; discriminate|apply N.lt_le_incl; assumption|assumption|exact Ez].
    + destruct (in_dec N.eq_dec (q x) (map q (y :: s))) as [E|E]; [clear - IH; lia|].
      exfalso. apply E. left. apply A. auto.
Qed.

Lemma sum_exchange : forall A (f : A -> nat -> nat) ks L,
  list_sum (map (fun l => S (list_sum (map (f l) ks))) L)
  = length L + list_sum (map (fun k => list_sum (map (fun l => f l k) L)) ks).
Proof.
  intros A f ks. induction L as [|l L IH].
  - cbn. induction ks; cbn; auto.
  - change (list_sum (map (fun l => S (list_sum (map (f l) ks))) (l :: L)))
      with (S (list_sum (map (f l) ks)) + list_sum (map (fun l => S (list_sum (map (f l) ks))) L)).
    rewrite IH. cbn [length].
    assert (E : list_sum (map (fun k => list_sum (map (fun l => f l k) (l :: L))) ks)
                = list_sum (map (f l) ks) + list_sum (map (fun k => list_sum (map (fun l => f l k) L)) ks)); [|lia].
    clear IH. induction ks as [|k ks IH]; [reflexivity|].
    change (list_sum (map (fun k => list_sum (map (fun l => f l k) (l :: L))) (k :: ks)))
      with (f l k + list_sum (map (fun l => f l k) L) + list_sum (map (fun k => list_sum (map (fun l => f l k) (l :: L))) ks)).
    change (list_sum (map (f l) (k :: ks))) with (f l k + list_sum (map (f l) ks)).
    change (list_sum (map (fun k => list_sum (map (fun l => f l k) L)) (k :: ks)))
      with (list_sum (map (fun l => f l k) L) + list_sum (map (fun k => list_sum (map (fun l => f l k) L)) ks)).
    lia.
Qed.

Lemma sum_up : forall k h, k <= h -> list_sum (map (fun j => apart j k) (seq 0 h)) = k.
Proof.
  intros k h K. assert (H : forall n, list_sum (map (fun j => apart j k) (seq 0 n)) = Nat.min k n); [|rewrite H; lia].
  induction n as [|n IH]; [cbn; lia|]. rewrite seq_S, map_app, list_sum_app, IH. cbn [map list_sum fold_right Nat.add].
  unfold apart. destruct (Nat.ltb_spec n k); lia.
Qed.

Lemma sum_down : forall k h n, k <= h -> n <= h ->
  list_sum (map (fun l => apart (h - l) k) (seq 0 n)) = k - 1 - (h - n).
Proof.
  intros k h. induction n as [|n IH]; intros K L; [cbn; lia|].
  rewrite seq_S, map_app, list_sum_app, IH by lia. cbn [map list_sum fold_right Nat.add].
  unfold apart. destruct (Nat.ltb_spec (h - n) k); lia.
Qed.

Lemma sum_ext : forall A (f g : A -> nat) l, (forall x, In x l -> f x = g x) -> list_sum (map f l) = list_sum (map g l).
Proof. intros A f g l H. f_equal. apply map_ext_in. auto. Qed.

Lemma levels_length : forall h s n ks, n <= h -> s <> [] -> increasing s -> partings s ks -> Forall (fun k => k <= h) ks ->
  length (concat (map (fun l => level_bits s (h - l)) (seq 0 n)))
  = 2 * (n + list_sum (map (fun k => k - 1 - (h - n)) ks)).
Proof.
  intros h s n ks L NE I P B. rewrite length_concat, map_map.
  rewrite (sum_ext _ _ (fun l => 2 * S (list_sum (map (fun k => apart (h - l) k) ks)))).
  - rewrite list_sum_double. f_equal. rewrite (sum_exchange _ (fun l k => apart (h - l) k)), seq_length. f_equal.
    apply sum_ext. intros k K. rewrite Forall_forall in B. apply sum_down; auto.
  - intros l _. rewrite level_bits_length. f_equal. apply prefixes_count; auto.
Qed.

Lemma minus_zero : forall ks h, list_sum (map (fun k => k - 1 - (h - h)) ks) = list_sum (map (fun k => k - 1) ks).
Proof. intros. apply sum_ext. intros. lia. Qed.

Lemma counted : forall P n n', counts P n -> counts P n' -> n = n'.
Proof.
  intros P n n' (l & N1 & <- & H) (l' & N2 & <- & H'). apply Nat.le_antisymm; apply NoDup_incl_length; auto;
    intros q Q; [apply H', H; auto|apply H, H'; auto].
Qed.

Lemma counts_prefixes : forall s k, counts (prefix_of_member s k) (length (prefixes s k)).
Proof.
  intros s k. exists (prefixes s k). split; [apply NoDup_nodup|]. split; auto. intros q.
  unfold prefixes. rewrite nodup_In, in_map_iff. unfold prefix_of_member. split; intros (x & A & B); eauto.
Qed.

Theorem flat_exact : forall u s, (3 <= u <= 2 ^ 48)%N -> s <> [] -> increasing s -> below u s -> shorter 32 s ->
  exists t ks, flat_build s u = Ok t /\ partings s ks /\
    flat_trieMeasure t = Ok (digits u + list_sum ks) /\
    length (f_bTrie t) + length (f_lastLevel t) = 2 * (digits u + list_sum (map (fun k => k - 1) ks)).
Proof.
  intros u s U NE I B S32. assert (D : forall x, In x s -> (x < 2 ^ N.of_nat (digits u))%N) by (apply digits_small_members; auto; lia).
  destruct (partings_exist (digits u) s I D) as (ks & P & L).
  destruct (flat_stored u s U NE I B S32) as (t & E & _ & T1 & T2). exists t, ks. split; [exact E|]. split; [exact P|].
  split.
  - destruct (flat_measure u s U NE I B S32) as (t' & ns & E' & M & C). rewrite E in E'. injection E' as <-. rewrite M. f_equal.
    assert (N' : ns = map (fun k => S (list_sum (map (apart k) ks))) (seq 0 (digits u))).
    { clear - C P NE I. induction C as [|k n l ns H C IH]; [reflexivity|]. cbn [map]. f_equal; auto.
      rewrite <- (prefixes_count s ks k NE I P). exact (counted _ _ _ H (counts_prefixes s k)). }
    rewrite N', sum_exchange, seq_length. f_equal. rewrite <- (map_id ks) at 2. apply sum_ext. intros k K.
    rewrite Forall_forall in L. apply sum_up. auto.
  - rewrite T1, T2, concat_last. unfold set_levels. rewrite (levels_length _ _ _ ks) by auto. rewrite minus_zero. reflexivity.
Qed.

Theorem level_exact : forall il u s, (2 <= u <= 2 ^ 48)%N -> s <> [] -> increasing s -> below u s ->
  exists t ks, level_build il s u = Ok t /\ partings s ks /\
    length (concat (l_bTrie t)) = 2 * (digits u + list_sum (map (fun k => k - 1) ks)).
Proof.
  intros il u s U NE I B. assert (D : forall x, In x s -> (x < 2 ^ N.of_nat (digits u))%N) by (apply digits_small_members; auto; lia).
  destruct (partings_exist (digits u) s I D) as (ks & P & L).
  destruct (level_stored il u s U NE I B) as (t & E & T). exists t, ks. split; [exact E|]. split; [exact P|].
  rewrite T. unfold set_levels. rewrite (levels_length _ _ _ ks) by auto. rewrite minus_zero. reflexivity.
Qed.

Theorem fast_exact : forall lw jh je u s, In lw [3; 4; 5; 6] -> (2 ^ N.of_nat lw < 2 * u <= 2 * 2 ^ 48)%N ->
  s <> [] -> increasing s -> below u s -> shorter 32 s ->
  exists t ks, fast_build lw jh je s u = Ok t /\ partings s ks /\
    length (x_bTrie t) = 2 * (digits u - lw + list_sum (map (fun k => k - 1 - lw) ks)) /\
    length (x_lastLevel t) = 1 + length (filter (fun k => lw <? k) ks).
Proof.
  intros lw jh je u s LW U NE I B S32. assert (1 <= u)%N by (clear - U; lia).
  assert (D : forall x, In x s -> (x < 2 ^ N.of_nat (digits u))%N) by (apply digits_small_members; auto).
  destruct (partings_exist (digits u) s I D) as (ks & P & L).
  destruct (fast_stored lw jh je u s LW U NE I B S32) as (t & E & T & F). exists t, ks. split; [exact E|]. split; [exact P|].
  assert (LD : lw <= digits u).
  { clear - U. assert (H : (N.of_nat lw < N.succ (N.log2_up u))%N); [|unfold digits; lia].
    apply (N.pow_lt_mono_r_iff 2); [reflexivity|]. rewrite N.pow_succ_r'.
    destruct (N.eq_dec u 1) as [->|NE]; [exact (proj1 U)|].
    assert (H := N.log2_up_spec u). lia. }
  split.
  - rewrite T. unfold set_levels. rewrite firstn_levels by (clear; lia). rewrite (levels_length _ _ _ ks) by (auto; clear; lia).
    f_equal. f_equal. apply sum_ext. intros k _. clear - LD. lia.
  - apply same_length in F. rewrite <- F, (prefixes_count s ks) by auto. cbn [Nat.add]. f_equal.
    clear. induction ks as [|k ks IH]; [reflexivity|].
    change (list_sum (map (apart lw) (k :: ks))) with (apart lw k + list_sum (map (apart lw) ks)). rewrite IH.
    unfold apart. cbn [filter]. destruct (lw <? k); reflexivity.
Qed.

(** * The suffixes of pom *)

Lemma parted_log : forall y x k, (y < x)%N -> parted y x k -> (N.log2 (x mod 2 ^ N.of_nat k) = N.of_nat k - 1)%N.
Proof.
  intros y x k L (K & E & D). destruct k as [|k]; [clear - K; lia|]. replace (S k - 1) with k in D by (clear; lia).
  set (w := (2 ^ N.of_nat k)%N) in *. assert (W : w <> 0%N) by (apply N.pow_nonzero; discriminate).
  assert (W2 : (2 ^ N.of_nat (S k) = 2 * w)%N) by (rewrite Nat2N.inj_succ, N.pow_succ_r'; reflexivity).
  rewrite W2 in *. assert (M : (y / w <= x / w)%N) by (apply N.div_le_mono; [auto|apply N.lt_le_incl; auto]).
  assert (Ex : (x / (2 * w) = x / w / 2)%N) by (rewrite N.div_div by (auto; discriminate); f_equal; apply N.mul_comm).
  assert (Ey : (y / (2 * w) = y / w / 2)%N) by (rewrite N.div_div by (auto; discriminate); f_equal; apply N.mul_comm).
  rewrite Ex, Ey in E. replace (N.of_nat (S k) - 1)%N with (N.of_nat k) by (clear; lia).
  assert (Q : (x / w = 2 * (x / w / 2) + 1)%N).
  { assert (A := N.div_mod (x / w) 2). assert (A' := N.div_mod (y / w) 2).
    assert (C := N.mod_lt (x / w) 2). assert (C' := N.mod_lt (y / w) 2).
    rewrite <- E in A'. clear - A A' C C' M D. set (a := (x / w)%N) in *. set (b := (y / w)%N) in *. clearbody a b.
    specialize (A ltac:(discriminate)). specialize (A' ltac:(discriminate)). specialize (C ltac:(discriminate)).
    specialize (C' ltac:(discriminate)).
    set (c := (a / 2)%N) in *. set (d := (a mod 2)%N) in *. set (e := (b mod 2)%N) in *. clearbody c d e. lia. }
  apply N.log2_unique; [apply N.le_0_l|]. rewrite N.pow_succ_r'. fold w. split; [|apply N.mod_lt; clear - W; lia].
  rewrite N.mod_eq by (clear - W; lia). rewrite Ex.
  assert (X := N.div_mod x w W). clear - X Q W. set (q := (x / w / 2)%N) in *. rewrite Q in X.
  set (r := (x mod w)%N) in *. clearbody q r. clear Q. nia.
Qed.

Theorem pom_exact : forall x v, (0 < x)%N -> increasing (x :: v) -> below (2 ^ 48) (x :: v) ->
  exists sp ks, partings (x :: v) ks /\
    pom_list (x :: v) = Ok (x :: sp, (2 * N.log2 x + 1 + N.of_nat (list_sum (map (fun k => 2 * k - 1)%nat ks)))%N) /\
    Forall2 (fun zk r => r = (fst zk mod 2 ^ N.of_nat (snd zk))%N) (combine v ks) sp.
Proof.
  intros x v X I B. destruct (pom_list_spec x v X I B) as (sp & E & F).
  assert (D : forall z, In z (x :: v) -> (z < 2 ^ N.of_nat 48)%N).
  { intros z Z. unfold below in B. rewrite Forall_forall in B. apply B; auto. }
  destruct (partings_exist 48 (x :: v) I D) as (ks & P & L). exists sp, ks. split; [exact P|].
  assert (G : Forall2 (fun zk r => r = (fst zk mod 2 ^ N.of_nat (snd zk))%N) (combine v ks) sp /\
              sumN (map (fun y => 2 * N.log2 y + 1)%N sp) = N.of_nat (list_sum (map (fun k => 2 * k - 1)%nat ks))).
  { clear E B X. revert x sp ks I D F P L. induction v as [|y v IH]; intros x sp ks I D F P L.
    - inversion F; subst. inversion P; subst. split; [constructor|reflexivity].
    - inversion F as [|? r ? sp' R F']; subst. inversion P as [|? k ? ks' Q P']; subst. inversion L as [|? ? K L']; subst.
      cbn [fst snd] in R, Q. apply StronglySorted_inv in I. destruct I as (I & G).
      assert (XY : (x < y)%N) by (inversion G; auto).
      destruct (IH y sp' ks' I) as (A1 & A2); auto. { intros z Z. apply D. right. auto. }
      assert (W : (y < 2 ^ 64)%N /\ (x < 2 ^ 64)%N).
      { assert (Dx := D x (or_introl eq_refl)). assert (Dy := D y (or_intror (or_introl eq_refl))).
        assert (2 ^ N.of_nat 48 < 2 ^ 64)%N by reflexivity. clear - Dx Dy H. split; eapply N.lt_trans; eauto. }
      destruct (prefixOf_spec y x (proj1 W) (proj2 W)) as (k' & (K' & _) & E1 & E2 & E3); [clear - XY; lia|].
      assert (k' = k) as -> by (apply (parted_unique x y); auto; split; auto).
      rewrite E3 in R. injection R as <-. split; [constructor; auto|].
      cbn [map]. unfold sumN in *. cbn [fold_right]. rewrite A2, (parted_log x y k XY Q).
      destruct Q as (Q & _). clear - Q. unfold list_sum. cbn [fold_right]. lia. }
  destruct G as (G1 & G2). split; [|exact G1]. rewrite E. f_equal. f_equal. cbn [map]. unfold sumN in *. cbn [fold_right].
  rewrite G2. reflexivity.
Qed.

Theorem partings_unique : forall s ks ks', partings s ks -> partings s ks' -> ks = ks'.
Proof.
  unfold partings. intros s. generalize (combine s (tl s)). intros l. induction l as [|p l IH]; intros ks ks' P P'.
  - inversion P; inversion P'; reflexivity.
  - inversion P; subst. inversion P'; subst. f_equal; [eapply parted_unique; eauto|auto].
Qed.

(** * Subsets *)

Lemma prefixes_incl : forall a b k, incl a b -> length (prefixes a k) <= length (prefixes b k).
Proof.
  intros a b k H. apply NoDup_incl_length; [apply NoDup_nodup|]. intros q. rewrite !in_prefixes. intros (y & Y & E). eauto.
Qed.

Lemma levels_incl : forall h n a b, incl a b ->
  length (concat (map (fun l => level_bits a (h - l)) (seq 0 n))) <= length (concat (map (fun l => level_bits b (h - l)) (seq 0 n))).
Proof.
  intros h n a b H. rewrite !length_concat, !map_map. apply list_sum_le. intros l _. rewrite !level_bits_length.
  apply Nat.mul_le_mono_l. apply prefixes_incl. auto.
Qed.

Lemma below_incl : forall u a b, incl a b -> below u b -> below u a.
Proof. intros u a b H B. unfold below in *. rewrite Forall_forall in *. auto. Qed.

Lemma increasing_nodup : forall a, increasing a -> NoDup a.
Proof.
  intros a I. induction I as [|x a I IH F]; constructor; auto. intros X. rewrite Forall_forall in F.
  specialize (F x X). lia.
Qed.

Lemma shorter_incl : forall w a b, increasing a -> incl a b -> shorter w b -> shorter w a.
Proof.
  intros w a b I H S. unfold shorter in *. assert (length a <= length b); [|lia].
  apply NoDup_incl_length; auto. apply increasing_nodup; auto.
Qed.

Theorem flat_subset : forall u a b, (3 <= u <= 2 ^ 48)%N -> a <> [] -> increasing a -> increasing b -> incl a b ->
  below u b -> shorter 32 b ->
  exists ta tb, flat_build a u = Ok ta /\ flat_build b u = Ok tb /\
    length (f_bTrie ta) + length (f_lastLevel ta) <= length (f_bTrie tb) + length (f_lastLevel tb).
Proof.
  intros u a b U NE Ia Ib H B S. assert (NB : b <> []) by (intros ->; destruct a as [|x a]; [auto|destruct (H x); cbn; auto]).
  destruct (flat_stored u a U NE Ia (below_incl _ _ _ H B) (shorter_incl _ _ _ Ia H S)) as (ta & Ea & _ & Ta & La).
  destruct (flat_stored u b U NB Ib B S) as (tb & Eb & _ & Tb & Lb).
  exists ta, tb. split; [exact Ea|]. split; [exact Eb|]. rewrite Ta, La, Tb, Lb, !concat_last. apply levels_incl. auto.
Qed.

Theorem level_subset : forall il u a b, (2 <= u <= 2 ^ 48)%N -> a <> [] -> increasing a -> increasing b -> incl a b ->
  below u b ->
  exists ta tb, level_build il a u = Ok ta /\ level_build il b u = Ok tb /\
    length (concat (l_bTrie ta)) <= length (concat (l_bTrie tb)).
Proof.
  intros il u a b U NE Ia Ib H B. assert (NB : b <> []) by (intros ->; destruct a as [|x a]; [auto|destruct (H x); cbn; auto]).
  destruct (level_stored il u a U NE Ia (below_incl _ _ _ H B)) as (ta & Ea & Ta).
  destruct (level_stored il u b U NB Ib B) as (tb & Eb & Tb).
  exists ta, tb. split; [exact Ea|]. split; [exact Eb|]. rewrite Ta, Tb. apply levels_incl. auto.
Qed.

Theorem fast_subset : forall lw jh je u a b, In lw [3; 4; 5; 6] -> (2 ^ N.of_nat lw < 2 * u <= 2 * 2 ^ 48)%N ->
  a <> [] -> increasing a -> increasing b -> incl a b -> below u b -> shorter 32 b ->
  exists ta tb, fast_build lw jh je a u = Ok ta /\ fast_build lw jh je b u = Ok tb /\
    length (x_bTrie ta) <= length (x_bTrie tb) /\ length (x_lastLevel ta) <= length (x_lastLevel tb).
Proof.
  intros lw jh je u a b LW U NE Ia Ib H B S. assert (NB : b <> []) by (intros ->; destruct a as [|x a]; [auto|destruct (H x); cbn; auto]).
  destruct (fast_stored lw jh je u a LW U NE Ia (below_incl _ _ _ H B) (shorter_incl _ _ _ Ia H S)) as (ta & Ea & Ta & Wa).
  destruct (fast_stored lw jh je u b LW U NB Ib B S) as (tb & Eb & Tb & Wb).
  exists ta, tb. split; [exact Ea|]. split; [exact Eb|]. split.
  - rewrite Ta, Tb. unfold set_levels. rewrite !firstn_levels by (clear; lia). apply levels_incl. auto.
  - apply same_length in Wa. apply same_length in Wb. rewrite <- Wa, <- Wb. apply prefixes_incl. auto.
Qed.

(** With runs encoded a subset can take more: three of four values. *)
Theorem run_subset : exists ta tb ta' tb',
  level_build false [0; 1; 2]%N 4 = Ok ta /\ level_build false [0; 1; 2; 3]%N 4 = Ok tb /\
  level_encodeRuns ta = Ok ta' /\ level_encodeRuns tb = Ok tb' /\
  length (concat (l_bTrie tb')) < length (concat (l_bTrie ta')).
Proof. do 4 eexists. repeat (split; [vm_compute; reflexivity|]). vm_compute. lia. Qed.
