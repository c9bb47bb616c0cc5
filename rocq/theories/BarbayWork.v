(** How many rounds a Barbay-Kenyon call takes. *)

From Coq Require Import Permutation Sorted.
From Verif Require Import Base Facts Spec SpecBarbay SpecAdaptive SpecEnds SpecRounds Reference
  ReferenceFacts BarbayFacts BarbayThms BarbayExact.

(** ** The searches *)

Lemma es_more : forall fuel arr n x i, es_loop fuel arr n x i <> OutOfFuel ->
  forall m, fuel <= m -> es_loop m arr n x i = es_loop fuel arr n x i.
Proof.
  induction fuel as [|fuel IH]; intros arr n x i E m Hm.
  - destruct m as [|m]; auto. cbn [es_loop] in *. destruct (N.ltb i n); auto.
    destruct (vgetN arr i) as [a| |]; cbn [bind] in *; auto. destruct (N.leb a x); auto. contradiction.
  - destruct m as [|m]; [lia|]. cbn [es_loop] in *. destruct (N.ltb i n); auto.
    destruct (vgetN arr i) as [a| |]; cbn [bind] in *; auto. destruct (N.leb a x); auto.
    apply IH; auto. lia.
Qed.

Lemma es_rounds : forall fuel arr n x i, (n <= i * 2 ^ N.of_nat fuel)%N -> (1 <= i)%N ->
  es_loop fuel arr n x i <> OutOfFuel.
Proof.
  induction fuel as [|fuel IH]; intros arr n x i H Hi; cbn [es_loop].
  - cbn in H. rewrite N.mul_1_r in H. destruct (N.ltb_spec i n); [lia|discriminate].
  - destruct (N.ltb i n); [|discriminate]. unfold vgetN.
    destruct (N.ltb_spec i (N.of_nat (length arr))); [|discriminate].
    unfold vget. destruct (nth_error arr (N.to_nat i)) as [a|]; cbn [bind]; [|discriminate].
    destruct (N.leb a x); [|discriminate]. apply IH; [|lia].
    rewrite Nat2N.inj_succ, N.pow_succ_r' in H. lia.
Qed.

Theorem doubling_rounds : forall arr n x i, (1 <= i)%N ->
  rounds_at_most (N.to_nat (N.log2_up n)) (fun f => es_loop f arr n x i).
Proof.
  intros arr n x i Hi. assert (E : es_loop (N.to_nat (N.log2_up n)) arr n x i <> OutOfFuel).
  { apply es_rounds; auto. rewrite N2Nat.id.
    assert (n <= 2 ^ N.log2_up n)%N.
    { destruct (N.eq_dec n 0) as [->|]; [discriminate|].
      destruct (N.eq_dec n 1) as [->|]; [discriminate|]. apply N.log2_up_spec. lia. }
    nia. }
  split; auto. intros m Hm. apply es_more; auto.
Qed.

Lemma bs_more : forall fuel arr lo hi x, bs_loop fuel arr lo hi x <> OutOfFuel ->
  forall m, fuel <= m -> bs_loop m arr lo hi x = bs_loop fuel arr lo hi x.
Proof.
  induction fuel as [|fuel IH]; intros arr lo hi x E m Hm.
  - destruct m as [|m]; auto. cbn [bs_loop] in *. destruct (N.leb lo hi); auto. contradiction.
  - destruct m as [|m]; [lia|]. cbn [bs_loop] in *. destruct (N.leb lo hi); auto. cbv zeta in *.
    destruct (N.leb (2 ^ 31 - 1) (lo + (hi - lo) / 2)); auto.
    destruct (vgetN arr (lo + (hi - lo) / 2)) as [a| |]; cbn [bind] in *; auto.
    destruct (N.eqb a x); auto. destruct (N.ltb a x); apply IH; auto; lia.
Qed.

Lemma bs_rounds : forall fuel arr lo0 lo hi x, increasing arr -> (at_ arr lo0 <= x)%N ->
  (lo0 <= lo)%N -> (hi < N.of_nat (length arr))%N ->
  (hi + 1 - lo < 2 ^ N.of_nat fuel)%N -> bs_loop fuel arr lo hi x <> OutOfFuel.
Proof.
  induction fuel as [|fuel IH]; intros arr lo0 lo hi x Inc H0 Hlo Hhi H; cbn [bs_loop].
  - cbn in H. destruct (N.leb_spec lo hi); [lia|discriminate].
  - destruct (N.leb_spec lo hi) as [L|L]; [|discriminate]. cbv zeta.
    assert (M : (lo + (hi - lo) / 2 <= hi /\ hi - lo < 2 * ((hi - lo) / 2 + 1) /\ 2 * ((hi - lo) / 2) <= hi - lo)%N).
    { pose proof (N.div_mod (hi - lo) 2 ltac:(lia)) as D.
      pose proof (N.mod_lt (hi - lo) 2 ltac:(lia)) as D'.
      revert D D'. generalize ((hi - lo) / 2)%N as q. generalize ((hi - lo) mod 2)%N as r. intros r q D D'.
      clear - D D' L. lia. }
    revert M. generalize ((hi - lo) / 2)%N as q. intros q (M1 & M2 & M3).
    rewrite Nat2N.inj_succ, N.pow_succ_r' in H.
    destruct (N.leb (2 ^ 31 - 1) (lo + q)); [discriminate|].
    rewrite vgetN_at by (clear - M1 Hhi; lia). cbn [bind].
    destruct (N.eqb_spec (at_ arr (lo + q)) x) as [|Ne]; [discriminate|].
    destruct (N.ltb_spec (at_ arr (lo + q)) x) as [Lt|Ge].
    + apply (IH arr lo0); auto; revert H; generalize (2 ^ N.of_nat fuel)%N as P; intros P H; clear - H M1 M2 M3 L Hlo; lia.
    + destruct (N.eqb_spec (lo + q) 0) as [Z|Nz].
      { exfalso. assert (lo0 = 0 /\ lo + q = 0)%N as [-> Z'] by (clear - Z Hlo; lia).
        rewrite Z' in *. clear - H0 Ne Ge. lia. }
      apply (IH arr lo0); auto; [clear - M1 Hhi; lia|].
      revert H; generalize (2 ^ N.of_nat fuel)%N as P; intros P H; clear - H M1 M2 M3 L Nz; lia.
Qed.

Theorem halving_rounds : forall arr lo hi x, increasing arr -> (at_ arr lo <= x)%N ->
  (lo <= hi < N.of_nat (length arr))%N ->
  rounds_at_most (S (N.to_nat (N.log2 (hi + 1 - lo)))) (fun f => bs_loop f arr lo hi x).
Proof.
  intros arr lo hi x Inc H0 (L & H).
  assert (E : bs_loop (S (N.to_nat (N.log2 (hi + 1 - lo)))) arr lo hi x <> OutOfFuel).
  { apply (bs_rounds _ arr lo); auto; [lia|]. rewrite Nat2N.inj_succ, N2Nat.id.
    apply N.log2_spec. lia. }
  split; auto. intros m Hm. apply bs_more; auto.
Qed.

(** ** The rounds *)

Lemma bk_more : forall fuel sets k ps e i occr out, bk_loop fuel sets k ps e i occr out <> OutOfFuel ->
  forall m, fuel <= m -> bk_loop m sets k ps e i occr out = bk_loop fuel sets k ps e i occr out.
Proof.
  induction fuel as [|fuel IH]; intros sets k ps e i occr out E m Hm.
  - destruct m as [|m]; auto. cbn [bk_loop] in *. destruct (N.eqb e (2 ^ 64 - 1)); auto. contradiction.
  - destruct m as [|m]; [lia|]. cbn [bk_loop] in *. destruct (N.eqb e (2 ^ 64 - 1)); auto.
    destruct (vget sets i) as [s| |]; cbn [bind] in *; auto.
    destruct (vget ps i) as [p| |]; cbn [bind] in *; auto. cbv zeta in *.
    destruct (exponentialSearch s (N.of_nat (length s)) e p) as [pos| |]; cbn [bind] in *; auto.
    destruct (vgetN s pos) as [v| |]; cbn [bind] in *; auto.
    match type of E with context [bind ?m _] => destruct m as [ps1| |] end; cbn [bind] in *; auto.
    match type of E with context [if ?b then bind _ _ else _] => destruct b end; [|apply IH; auto; lia].
    destruct (vget ps1 i) as [q| |]; cbn [bind] in *; auto.
    match type of E with context [if N.eqb ?a ?b then _ else _] => destruct (N.eqb a b) end; auto.
    match type of E with context [if Nat.eqb ?a ?b then _ else _] => destruct (Nat.eqb a b) end.
    + destruct (vgetN s (pos + 1)) as [e'| |]; cbn [bind] in *; auto.
      destruct (vset ps1 i (pos + 1)%N) as [ps2| |]; cbn [bind] in *; auto. apply IH; auto. lia.
    + destruct (vset ps1 i pos) as [ps2| |]; cbn [bind] in *; auto. apply IH; auto. lia.
Qed.

Section Work.
Variables (sets : list (list N)).
Hypothesis K : 2 <= length sets.
Hypothesis Inc : Forall increasing sets.
Hypothesis Len : Forall (fun s => (N.of_nat (length s) < 2 ^ 31)%N) sets.
Hypothesis Nonempty : Forall (fun s => s <> []) sets.
Hypothesis Small : Forall (Forall (fun x => x < 2 ^ 64 - 1)%N) sets.

Notation k := (length sets).
Notation size s := (N.of_nat (length s)).
Notation loop := (bk_loop).

(** A call that is stopped has come to a further round. *)
Lemma step_stopped : forall fuel ps e i occr out,
  i < k -> occr < k -> inside sets ps -> loop (S fuel) sets k ps e i occr out = OutOfFuel ->
  exists s p pos ps' out',
    nth_error sets i = Some s /\ nth_error ps i = Some p /\ increasing s /\ (p < size s)%N /\ (p <= pos < size s)%N /\
    ( (at_ s p <= e /\ e <= at_ s (size s - 1))%N /\ first_at_least s e pos
      \/ (e < at_ s p)%N /\ pos = (p + 1)%N
      \/ (at_ s p < e /\ at_ s (size s - 1) < e)%N /\ pos = (size s - 1)%N ) /\
    inside sets ps' /\
    ( (at_ s pos = e /\ S occr = k /\ (pos + 1 < size s)%N /\ moved ps ps' i (pos + 1) /\
       loop fuel sets k ps' (at_ s (pos + 1)) ((i + 1) mod k) 1 out' = OutOfFuel)
      \/ (at_ s pos = e /\ S occr < k /\ moved ps ps' i pos /\
          loop fuel sets k ps' e ((i + 1) mod k) (S occr) out' = OutOfFuel)
      \/ (at_ s pos <> e /\ (p + 1 < size s)%N /\ moved ps ps' i pos /\
          loop fuel sets k ps' (at_ s pos) ((i + 1) mod k) 1 out' = OutOfFuel) ).
Proof.
  intros fuel ps e i occr out Hi Ho I H.
  destruct (nth_error sets i) as [s|] eqn:Es; [|apply nth_error_None in Es; lia].
  destruct (set_facts sets Inc Len Nonempty Small i s Es) as (Sin & Sinc & Slen & Sne & Ssm).
  destruct (proj2 I i s Es) as (p & P1 & P2).
  cbn [bk_loop] in H. destruct (N.eqb e (2 ^ 64 - 1)); [discriminate H|].
  rewrite (vget_nth _ _ _ _ Es), (vget_nth _ _ _ _ P1) in H. cbn [bind] in H.
  destruct (exponentialSearch_any s e p Sinc Slen P2) as (pos & Epos & Q).
  rewrite Epos in H. cbn [bind] in H.
  assert (Hip : i < length ps) by (destruct I as [-> _]; auto).
  assert (Lpos : (p <= pos)%N).
  { destruct Q as [((Q1 & Q2) & Q3 & Q4 & Q5)|[(Q1 & ->)|((Q1 & Q2) & ->)]]; [|lia|lia].
    destruct (N.le_gt_cases p pos) as [|G]; auto.
    pose proof (at_mono s pos p Sinc G P2). lia. }
  destruct (N.lt_ge_cases pos (size s)) as [Hpos|Hpos].
  2:{ unfold vgetN in H. destruct (N.ltb_spec pos (size s)); [lia|discriminate H]. }
  rewrite vgetN_at in H by auto. cbn [bind] in H.
  destruct (vset_ok ps i pos Hip) as (ps1 & Ep1).
  pose proof (inside_set sets ps i s pos ps1 I Es Hpos Ep1) as I1.
  destruct (vset_nth _ _ _ _ Ep1) as [Len1 Nth1].
  assert (Pi1 : nth_error ps1 i = Some pos) by (rewrite Nth1, Nat.eqb_refl; auto).
  destruct (N.eqb_spec (at_ s pos) e) as [Ev|Nv].
  - rewrite Ep1 in H. cbn [bind] in H.
    destruct (Nat.eqb_spec (S occr) k) as [Ek|Ek]; cbn [andb orb negb] in H.
    + rewrite (vget_nth _ _ _ _ Pi1) in H. cbn [bind] in H.
      destruct (N.eqb_spec (pos + 1) (size s)) as [El|El]; [discriminate H|].
      assert (Hn : (pos + 1 < size s)%N) by lia.
      rewrite vgetN_at in H by auto. cbn [bind] in H.
      assert (Hip1 : i < length ps1) by lia.
      destruct (vset_ok ps1 i (pos + 1)%N Hip1) as (ps2 & Ep2). rewrite Ep2 in H.
      cbn [bind] in H.
      pose proof (inside_set sets ps1 i s (pos + 1)%N ps2 I1 Es Hn Ep2) as I2.
      destruct (vset_nth _ _ _ _ Ep2) as [Len2 Nth2].
      exists s, p, pos, ps2, (out ++ [e]). do 4 (split; [solve [auto]|]). split; [lia|]. split; [exact Q|].
      split; auto. left. do 3 (split; [solve [auto]|]). split; auto.
      intros j. rewrite Nth2. destruct (Nat.eqb_spec j i); auto. rewrite Nth1.
      destruct (Nat.eqb_spec j i); [contradiction|auto].
    + exists s, p, pos, ps1, out. do 4 (split; [solve [auto]|]). split; [lia|]. split; [exact Q|].
      split; auto. right; left. split; auto. split; [lia|]. split; auto.
  - cbn [bind andb orb negb] in H.
    destruct (Nat.eqb_spec occr k); [lia|]. cbn [andb orb negb] in H.
    rewrite (vget_nth _ _ _ _ P1) in H. cbn [bind] in H.
    destruct (N.eqb_spec (p + 1) (size s)) as [El|El]; [discriminate H|].
    rewrite Ep1 in H. cbn [bind] in H.
    exists s, p, pos, ps1, out. do 4 (split; [solve [auto]|]). split; [lia|]. split; [exact Q|].
    split; auto. right; right. split; auto. split; [lia|]. split; auto.
Qed.

Lemma same_cells : forall (a b : list N), (forall j, nth_error a j = nth_error b j) -> a = b.
Proof.
  clear. induction a as [|x a IH]; intros [|y b] H; auto; try (specialize (H 0); discriminate H).
  pose proof (H 0) as H0. injection H0 as ->. f_equal. apply IH. intros j. exact (H (S j)).
Qed.

(** Lists whose position is not at the end. *)
Definition open_at (sp : list N * N) : bool := (snd sp + 1 <? size (fst sp))%N.
Definition open (ps : list N) : nat := length (filter open_at (combine sets ps)).

Lemma open_moved : forall l ps ps' i s p pos, nth_error l i = Some s -> nth_error ps i = Some p -> (p <= pos)%N ->
  length ps' = length ps -> moved ps ps' i pos ->
  let n qs := length (filter open_at (combine l qs)) in
  n ps' <= n ps /\ ((p + 1 < size s)%N -> (pos + 1 = size s)%N -> S (n ps') <= n ps).
Proof.
  clear. induction l as [|t l IH]; intros ps ps' i s p pos Hs Hp L Hl M; [destruct i; discriminate|].
  destruct ps as [|q ps]; [destruct i; discriminate|]. destruct ps' as [|q' ps']; [discriminate|].
  destruct i as [|i]; cbn [nth_error] in Hs, Hp.
  - injection Hs as ->. injection Hp as ->.
    assert (ps' = ps) as ->.
    { apply same_cells. intros j. specialize (M (S j)). exact M. }
    pose proof (M 0) as M0. cbn in M0. injection M0 as ->. cbn [combine filter].
    destruct (open_at (s, pos)) eqn:E1; destruct (open_at (s, p)) eqn:E2; unfold open_at in E1, E2;
      cbn [fst snd] in E1, E2; rewrite ?N.ltb_lt, ?N.ltb_ge in E1, E2; cbn [length]; lia.
  - pose proof (M 0) as M0. cbn in M0. injection M0 as ->.
    assert (M' : moved ps ps' i pos) by (intros j; specialize (M (S j)); exact M).
    injection Hl as Hl.
    destruct (IH ps ps' i s p pos Hs Hp L Hl M') as [A B]. cbn [combine filter].
    destruct (open_at (t, q)); cbn [length]; lia.
Qed.

Lemma next_mod : forall i0 d, ((i0 + d) mod k + 1) mod k = (i0 + (d + 1)) mod k.
Proof. intros. rewrite Nat.add_mod_idemp_l by lia. f_equal. lia. Qed.

Lemma mod_other : forall i0 d, i0 < k -> 1 <= d < k -> (i0 + d) mod k <> i0.
Proof.
  intros i0 d H D E. destruct (Nat.lt_ge_cases (i0 + d) k).
  - rewrite Nat.mod_small in E by lia. lia.
  - replace (i0 + d) with (i0 + d - k + 1 * k) in E by lia.
    rewrite Nat.mod_add, Nat.mod_small in E by lia. lia.
Qed.

(** Once a set has been gone through, the call goes round at most once more for each of the
    others. *)
Lemma tail_ends : forall fuel ps e occr out i0 d m s0,
  i0 < k -> 1 <= d <= k -> 1 <= occr < k -> inside sets ps ->
  nth_error sets i0 = Some s0 -> nth_error ps i0 = Some (size s0 - 1)%N -> at_ s0 (size s0 - 1) = m ->
  (m <= e)%N -> (e = m -> occr = d) ->
  (k - d + 1) + k * open ps <= fuel ->
  loop fuel sets k ps e ((i0 + d) mod k) occr out <> OutOfFuel.
Proof.
  induction fuel as [|fuel IH]; intros ps e occr out i0 d m s0 Hi0 Hd Ho I S0 P0 Em Le Hocc F H; [lia|].
  assert (Hi : (i0 + d) mod k < k) by (apply Nat.mod_upper_bound; lia).
  destruct (step_stopped fuel ps e _ occr out Hi (proj2 Ho) I H)
    as (s & p & pos & ps' & out' & Es & Ep & Sinc & Lp & Lpos & Q & I' & D). clear H.
  destruct (Nat.eq_dec d k) as [->|Nd].
  { assert (X : (i0 + k) mod k = i0).
    { replace (i0 + k) with (i0 + 1 * k) by lia. rewrite Nat.mod_add, Nat.mod_small by lia. auto. }
    rewrite X in *. rewrite S0 in Es. injection Es as <-. rewrite P0 in Ep. injection Ep as <-.
    assert (e <> m) by (intros E; specialize (Hocc E); lia).
    rewrite Em in Q. destruct Q as [((Q1 & Q2) & _)|[(Q1 & _)|(_ & ->)]]; [lia|lia|].
    rewrite Em in D. destruct D as [(D & _)|[(D & _)|(_ & D & _)]]; [congruence|congruence|lia]. }
  assert (Hd' : 1 <= d + 1 <= k) by lia.
  pose proof (mod_other i0 d Hi0 ltac:(lia)) as Ni.
  assert (Ek : length ps' = length ps) by (destruct I, I'; congruence).
  assert (Keep : forall q, moved ps ps' ((i0 + d) mod k) q -> nth_error ps' i0 = Some (size s0 - 1)%N).
  { intros q M. rewrite M. destruct (Nat.eqb_spec i0 ((i0 + d) mod k)); [congruence|auto]. }
  rewrite next_mod in D.
  destruct D as [(D1 & D2 & D3 & D4 & D5)|[(D1 & D2 & D4 & D5)|(D1 & D3 & D4 & D5)]].
  - pose proof (at_mono s pos (pos + 1) Sinc ltac:(lia) D3) as Gt.
    destruct (open_moved sets ps ps' _ s p (pos + 1)%N Es Ep ltac:(lia) Ek D4) as [O _].
    revert D5. apply (IH ps' (at_ s (pos + 1)) 1 out' i0 (d + 1) m s0 Hi0 Hd' ltac:(lia) I' S0 (Keep _ D4) Em); auto; [lia|lia|].
    fold (open ps') (open ps) in O. assert (k * open ps' <= k * open ps) by (apply Nat.mul_le_mono_l; exact O). lia.
  - destruct (open_moved sets ps ps' _ s p pos Es Ep ltac:(lia) Ek D4) as [O _].
    revert D5. apply (IH ps' e (S occr) out' i0 (d + 1) m s0 Hi0 Hd' ltac:(lia) I' S0 (Keep _ D4) Em); auto.
    + intros E. specialize (Hocc E). lia.
    + fold (open ps') (open ps) in O. assert (k * open ps' <= k * open ps) by (apply Nat.mul_le_mono_l; exact O). lia.
  - destruct (open_moved sets ps ps' _ s p pos Es Ep ltac:(lia) Ek D4) as [O O'].
    fold (open ps') (open ps) in O, O'.
    assert (Up : (e < at_ s pos)%N -> False).
    { intros Gt. revert D5. apply (IH ps' (at_ s pos) 1 out' i0 (d + 1) m s0 Hi0 Hd' ltac:(lia) I' S0 (Keep _ D4) Em); auto; [lia|lia|].
      assert (k * open ps' <= k * open ps) by (apply Nat.mul_le_mono_l; exact O). lia. }
    destruct Q as [((Q1 & Q2) & Q3 & Q4 & Q5)|[(Q1 & ->)|((Q1 & Q2) & ->)]].
    + apply Up. lia.
    + apply Up. pose proof (at_mono s p (p + 1) Sinc ltac:(lia) D3). lia.
    + specialize (O' D3 ltac:(lia)).
      rewrite <- next_mod in D5. revert D5.
      apply (IH ps' _ 1 out' ((i0 + d) mod k) 1 (at_ s (size s - 1)) s); auto; try lia.
      * rewrite D4, Nat.eqb_refl. auto.
      * assert (k * S (open ps') <= k * open ps) by (apply Nat.mul_le_mono_l; exact O'). lia.
Qed.

Variables (u : N) (C : list (N * N)) (X : nat).
Hypothesis Low : Forall (below u) sets.
Hypothesis Cert : certificate sets u C.
Hypothesis Ends : k * k <= X \/ exists L, Forall (fun s => last s 0%N = L) sets.

(** Intervals not behind [e]. *)
Definition left_at (e : N) : nat := length (filter (fun I => N.leb e (snd I)) C).

Lemma left_le : forall e e', (e <= e')%N -> left_at e' <= left_at e.
Proof.
  clear. intros e e' L. unfold left_at. induction C as [|I l IH]; auto. cbn [filter].
  destruct (N.leb_spec e (snd I)); destruct (N.leb_spec e' (snd I)); cbn [length]; lia.
Qed.

Lemma left_lt : forall e e' I, In I C -> (e <= snd I < e')%N -> S (left_at e') <= left_at e.
Proof.
  clear. intros e e' I. unfold left_at. induction C as [|J l IH]; [contradiction|]. intros [->|H] L; cbn [filter].
  - pose proof (left_le) as Le. assert (Y : length (filter (fun I => N.leb e' (snd I)) l) <= length (filter (fun I => N.leb e (snd I)) l)).
    { clear - L. assert (e <= e')%N by lia. induction l as [|J l IH]; auto. cbn [filter].
      destruct (N.leb_spec e (snd J)); destruct (N.leb_spec e' (snd J)); cbn [length]; lia. }
    destruct (N.leb_spec e (snd I)); destruct (N.leb_spec e' (snd I)); cbn [length]; lia.
  - specialize (IH H L). destruct (N.leb_spec e (snd J)); destruct (N.leb_spec e' (snd J)); cbn [length]; lia.
Qed.

Definition stays (I : N * N) (i occr delta : nat) : Prop :=
  (delta < k /\ exists s, nth_error sets ((i + delta) mod k) = Some s /\ avoids I s) \/
  (fst I = snd I /\ delta + occr + 1 = k).

Lemma enters : forall e i, i < k -> In e (concat sets) ->
  exists I delta, In I C /\ (fst I <= e <= snd I)%N /\ stays I i 1 delta /\ delta + 1 <= k.
Proof.
  clear Ends X. intros e i Hi He. apply in_concat in He. destruct He as (t & Ht & He).
  pose proof (proj1 (Forall_forall _ _) Low t Ht) as Lt. pose proof (proj1 (Forall_forall _ _) Lt e He) as Lu.
  destruct Cert as [Cov Each]. destruct (Cov e Lu) as (a & b & Hab & B).
  pose proof (proj1 (Forall_forall _ _) Each _ Hab) as Q. cbn beta in Q.
  destruct Q as [Q|[Q _]].
  - apply Exists_exists in Q. destruct Q as (s & Hs & Av). apply In_nth_error in Hs. destruct Hs as (j & Hj).
    assert (Lj : j < k) by (apply nth_error_Some; congruence).
    exists (a, b), ((j + k - i) mod k). split; auto. split; auto.
    assert (Lm : (j + k - i) mod k < k) by (apply Nat.mod_upper_bound; lia).
    split; [|lia]. left. split; auto. exists s. split; auto.
    rewrite Nat.add_mod_idemp_r by lia. replace (i + (j + k - i)) with (j + 1 * k) by lia.
    rewrite Nat.mod_add, Nat.mod_small by lia. auto.
  - exists (a, b), (k - 2). split; auto. split; auto. split; [|lia]. right. split; auto. lia.
Qed.

Lemma phase_ends : forall fuel ps e i occr out I delta,
  i < k -> inside sets ps -> 1 <= occr < k -> In e (concat sets) ->
  In I C -> (fst I <= e <= snd I)%N -> stays I i occr delta ->
  k * (left_at e - 1) + (delta + 1) + X <= fuel ->
  loop fuel sets k ps e i occr out <> OutOfFuel.
Proof.
  induction fuel as [|fuel IH]; intros ps e i occr out I delta Hi Ins Ho He HI B St F H; [revert F; generalize (k * (left_at e - 1)); lia|].
  destruct (step_stopped fuel ps e i occr out Hi (proj2 Ho) Ins H)
    as (s & p & pos & ps' & out' & Es & Ep & Sinc & Lp & Lpos & Q & I' & D). clear H.
  assert (Hm : (i + 1) mod k < k) by (apply Nat.mod_upper_bound; lia).
  assert (Sin : In s sets) by (eapply nth_error_In; eauto).
  assert (Le : 1 <= left_at e).
  { pose proof (left_lt e (snd I + 1) I HI ltac:(lia)). lia. }
  assert (Nav : forall x, avoids I s -> In x s -> (e <= x <= snd I)%N -> False).
  { intros x Av Hx Bx. apply (Av x); auto. lia. }
  assert (Next : forall x, In x s -> (e < x)%N -> loop fuel sets k ps' x ((i + 1) mod k) 1 out' <> OutOfFuel).
  { intros x Hx Gt. assert (Hc : In x (concat sets)) by (apply in_concat; eauto).
    destruct (N.lt_ge_cases (snd I) x) as [Past|Within].
    - destruct (enters x ((i + 1) mod k) Hm Hc) as (I2 & d2 & H1 & H2 & H3 & H4).
      apply (IH ps' x _ 1 out' I2 d2); try assumption; [lia|].
      pose proof (left_lt e x I HI ltac:(lia)) as L1.
      assert (k * (left_at x - 1) + k <= k * (left_at e - 1)).
      { assert (k * (left_at x - 1) + k = k * (left_at x - 1 + 1)) as -> by lia.
        apply Nat.mul_le_mono_l.
        pose proof (left_lt x (snd I2 + 1) I2 H1 ltac:(lia)). lia. }
      lia.
    - destruct St as [(Ld & t & Ht & Av)|(E & _)]; [|lia].
      destruct delta as [|delta].
      { exfalso. rewrite Nat.add_0_r, Nat.mod_small in Ht by auto. rewrite Es in Ht. injection Ht as <-.
        apply (Nav x); auto. lia. }
      apply (IH ps' x _ 1 out' I delta); try assumption; [lia|lia| |].
      + left. split; [lia|]. exists t. split; auto. rewrite Nat.add_mod_idemp_l by lia.
        replace (i + 1 + delta) with (i + S delta) by lia. auto.
      + assert (k * (left_at x - 1) <= k * (left_at e - 1)).
        { apply Nat.mul_le_mono_l. pose proof (left_le e x ltac:(lia)). lia. }
        lia. }
  destruct D as [(D1 & D2 & D3 & D4 & D5)|[(D1 & D2 & D4 & D5)|(D1 & D3 & D4 & D5)]].
  - revert D5. apply Next; [apply at_in; auto|].
    pose proof (at_mono s pos (pos + 1) Sinc ltac:(lia) D3). lia.
  - revert D5. destruct delta as [|delta].
    { exfalso. destruct St as [(Ld & t & Ht & Av)|(E & Z)]; [|lia].
      rewrite Nat.add_0_r, Nat.mod_small in Ht by auto. rewrite Es in Ht. injection Ht as <-.
      apply (Nav e); auto; [|lia]. rewrite <- D1. apply at_in. lia. }
    apply (IH ps' e _ (S occr) out' I delta); try assumption; [lia| |lia].
    destruct St as [(Ld & t & Ht & Av)|(E & Z)]; [left|right; split; auto; lia].
    split; [lia|]. exists t. split; auto. rewrite Nat.add_mod_idemp_l by lia.
    replace (i + 1 + delta) with (i + S delta) by lia. auto.
  - destruct Q as [((Q1 & Q2) & Q3 & Q4 & Q5)|[(Q1 & ->)|((Q1 & Q2) & ->)]].
    + revert D5. apply Next; [apply at_in; auto|lia].
    + revert D5. apply Next; [apply at_in; lia|]. pose proof (at_mono s p (p + 1) Sinc ltac:(lia) D3). lia.
    + destruct Ends as [Sq|(L & Same)].
      * assert (Ek : length ps' = length ps) by (destruct Ins, I'; congruence).
        assert (O : S (open ps') <= k).
        { destruct (open_moved sets ps ps' i s p (size s - 1)%N Es Ep ltac:(lia) Ek D4) as [_ O'].
          specialize (O' D3 ltac:(lia)). fold (open ps') (open ps) in O'.
          assert (O2 : open ps <= length sets).
          { unfold open. etransitivity; [|rewrite <- (Nat.min_l (length sets) (length ps)), <- combine_length; [reflexivity|destruct Ins; lia]].
            clear. induction (combine sets ps) as [|a l IHl]; auto. cbn [filter].
            destruct (open_at a); cbn [length]; lia. }
          lia. }
        revert D5. apply (tail_ends fuel ps' _ 1 out' i 1 (at_ s (size s - 1)) s); auto; try lia.
        -- rewrite D4, Nat.eqb_refl. auto.
        -- assert (k * S (open ps') <= k * k) by (apply Nat.mul_le_mono_l; exact O). lia.
      * exfalso. apply in_concat in He. destruct He as (t & Ht & He).
        pose proof (proj1 (Forall_forall _ _) Same s Sin) as E1. pose proof (proj1 (Forall_forall _ _) Same t Ht) as E2.
        cbn beta in E1, E2. rewrite last_at in E1, E2. apply in_at in He. destruct He as (j & Hj & <-).
        pose proof (at_mono_le t j (size t - 1) (proj1 (Forall_forall _ _) Inc t Ht) ltac:(lia) ltac:(lia)). lia.
Qed.
End Work.

Lemma bk_rounds : forall first others out u C X, let sets := first :: others in
  bk_family sets -> Forall (below u) sets -> certificate sets u C ->
  (length sets * length sets <= X \/ exists L, Forall (fun s => last s 0%N = L) sets) ->
  rounds_at_most (length sets * length C + X) (fun n => barbayKenyon n sets (length sets) out).
Proof.
  intros first others out u C X sets (K & Inc & Len & Ne & Sm) Low Cert E.
  assert (First : exists e, vget first 0 = Ok e /\ In e first).
  { destruct first as [|e l]; [inversion Ne; subst; contradiction|]. exists e. split; [reflexivity|left; auto]. }
  destruct First as (e & E0 & In0).
  assert (H : forall n, barbayKenyon n sets (length sets) out
                        = bk_loop n sets (length sets) (repeat 0%N (length sets)) e 1 1 out).
  { intros n. unfold barbayKenyon. destruct (Nat.eqb_spec (length sets) 0); [lia|].
    rewrite (vget_nth _ sets 0 first eq_refl). cbn [bind]. rewrite E0. cbn [bind].
    destruct others as [|s1 others]; [cbn in K; lia|].
    rewrite (vget_nth _ sets 1 s1 eq_refl). auto. }
  assert (Fin : bk_loop (length sets * length C + X) sets (length sets) (repeat 0%N (length sets)) e 1 1 out <> OutOfFuel).
  { assert (He : In e (concat sets)) by (apply in_concat; exists first; split; [left; auto|auto]).
    destruct (enters sets K u C Low Cert e 1 ltac:(lia) He) as (I & d & H1 & H2 & H3 & H4).
    apply (phase_ends sets K Inc Len Ne Sm u C X Low Cert E _ _ _ _ _ _ I d); auto; try lia.
    - split; [apply repeat_length|]. intros j s Hs. exists 0%N. split.
      + apply nth_error_repeat. apply nth_error_Some. congruence.
      + apply nth_error_In in Hs. pose proof (proj1 (Forall_forall _ _) Ne s Hs). destruct s; [contradiction|cbn; lia].
    - assert (L : left_at C e <= length C).
      { unfold left_at. clear. induction C as [|a l IHl]; auto. cbn [filter]. destruct (N.leb e (snd a)); cbn [length]; lia. }
      assert (length sets * left_at C e <= length sets * length C) by (apply Nat.mul_le_mono_l; exact L).
      pose proof (left_lt C e (snd I + 1) I H1 ltac:(lia)) as L1.
      assert (length sets * (left_at C e - 1) + length sets = length sets * left_at C e).
      { rewrite Nat.mul_sub_distr_l. assert (length sets * 1 <= length sets * left_at C e) by (apply Nat.mul_le_mono_l; lia). lia. }
      lia. }
  split; [rewrite H; exact Fin|]. intros m Hm. rewrite !H. apply bk_more; auto.
Qed.

Theorem barbay_rounds : forall first others out u C, let sets := first :: others in
  bk_family sets -> Forall (below u) sets -> certificate sets u C ->
  rounds_at_most (length sets * (length C + length sets)) (fun n => barbayKenyon n sets (length sets) out).
Proof.
  intros first others out u C sets F L Ce. rewrite Nat.mul_add_distr_l. apply (bk_rounds first others out u C); auto.
Qed.

Theorem barbay_rounds_same_end : forall first others out u C L, let sets := first :: others in
  bk_family sets -> Forall (below u) sets -> certificate sets u C ->
  Forall (fun s => last s 0%N = L) sets ->
  rounds_at_most (length sets * length C) (fun n => barbayKenyon n sets (length sets) out).
Proof.
  intros first others out u C L sets F Lo Ce Sa.
  rewrite <- (Nat.add_0_r (length sets * length C)). apply (bk_rounds first others out u C 0); eauto.
Qed.

Lemma rounds_weaken : forall A (F : nat -> result A) n m, n <= m -> rounds_at_most n F -> rounds_at_most m F.
Proof.
  intros A F n m L (E & H). split; [rewrite (H m L); auto|]. intros j Hj. rewrite (H m L). apply H. lia.
Qed.

(** Both loops of one search. *)
Theorem search_rounds : forall arr x p, let n := N.of_nat (length arr) in
  increasing arr -> (p < n)%N -> (nth (N.to_nat p) arr 0 <= x)%N ->
  exists i, es_loop (S (length arr)) arr n x (p + 1) = Ok i /\
    rounds_at_most (N.to_nat (N.log2_up n)) (fun f => es_loop f arr n x (p + 1)) /\
    rounds_at_most (S (N.to_nat (N.log2 n))) (fun f => bs_loop f arr (i / 2) (N.min i (n - 1)) x).
Proof.
  intros arr x p n Inc Lp Hx. fold (at_ arr p) in Hx.
  assert (Half : ((p + 1) / 2 <= p)%N).
  { destruct (N.eq_dec p 0) as [->|]; [discriminate|]. apply N.div_le_upper_bound; lia. }
  destruct (es_loop_spec (S (length arr)) arr x (p + 1)) as (i & E & H1 & H2 & H3); auto;
    [lia|eapply N.le_trans; [apply (at_mono_le arr ((p + 1) / 2) p)|]; auto|fold n; revert Half; generalize ((p + 1) / 2)%N; clear - Lp; lia|clear; lia|].
  exists i. split; [exact E|]. split; [apply doubling_rounds; lia|].
  assert (Hm : (i / 2 <= N.min i (n - 1) < n)%N).
  { pose proof (half_le i) as Hi. revert Hi H2. generalize (i / 2)%N as q. intros q Hi H2. fold n in H2. clear - Hi H2 Lp. lia. }
  eapply rounds_weaken; [|apply halving_rounds; auto].
  apply le_n_S.
  assert (N.log2 (N.min i (n - 1) + 1 - i / 2) <= N.log2 n)%N; [|clear - H; lia].
  apply N.log2_le_mono. revert Hm. generalize (i / 2)%N as q. intros q Hm. clear - Hm. lia.
Qed.

(** ** Sets that take more *)

Definition four : list (list N) := [[0; 1; 2; 5]; [0; 1; 2; 3; 4; 5]; [0; 1; 2]; [3; 4; 5]]%N.

Lemma four_family : bk_family four.
Proof.
  split; [cbn; lia|].
  repeat (first [apply conj | apply Forall_cons | apply Forall_nil | apply SSorted_cons
                | apply SSorted_nil | reflexivity | discriminate]).
Qed.

Lemma four_below : Forall (below 6) four.
Proof. repeat (first [apply Forall_cons | apply Forall_nil | reflexivity]). Qed.

Lemma four_certificate : certificate four 6 [(0, 2); (3, 5)]%N.
Proof.
  split.
  - intros x Hx. destruct (N.leb_spec x 2); [exists 0%N, 2%N|exists 3%N, 5%N]; cbn [In]; split; auto; lia.
  - constructor; [left; do 3 right; left; auto|constructor; [left; do 2 right; left|constructor]];
      intros x (H1 & H2) H; cbn in H1, H2, H; lia.
Qed.

Theorem more_rounds :
  ~ (forall first others u C, let sets := first :: others in
       bk_family sets -> Forall (below u) sets -> certificate sets u C ->
       ends (barbayKenyon (length sets * length C) sets (length sets) [])).
Proof.
  intros H. exact (H _ _ 6%N _ four_family four_below four_certificate eq_refl).
Qed.
