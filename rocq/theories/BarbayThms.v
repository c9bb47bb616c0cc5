(** What a Barbay-Kenyon call does on any family of nonempty increasing sets: it ends,
    and it either reads outside a list or returns the common values, of which at most
    the smallest is missing. *)

From Coq Require Import Permutation Sorted.
From Verif Require Import Base Facts Spec SpecBarbay Reference ReferenceFacts BarbayFacts.

(** ** The search, whatever the value looked for *)

Lemma exponentialSearch_any : forall arr x p,
  increasing arr -> (N.of_nat (length arr) < 2 ^ 31)%N ->
  (p < N.of_nat (length arr))%N ->
  exists pos, exponentialSearch arr (N.of_nat (length arr)) x p = Ok pos /\
    ( (at_ arr p <= x /\ x <= at_ arr (N.of_nat (length arr) - 1))%N /\
      first_at_least arr x pos
      \/ (x < at_ arr p)%N /\ pos = (p + 1)%N
      \/ (at_ arr p < x /\ at_ arr (N.of_nat (length arr) - 1) < x)%N /\
         pos = (N.of_nat (length arr) - 1)%N ).
Proof.
  intros arr x p Inc Len Hp.
  destruct (N.lt_ge_cases x (at_ arr p)) as [L1|G1].
  { exists (p + 1)%N. split; [|auto]. unfold exponentialSearch.
    rewrite vgetN_at by auto. cbn [bind].
    destruct (N.eqb_spec (at_ arr p) x); [lia|].
    destruct (N.ltb_spec x (at_ arr p)); [reflexivity|lia]. }
  destruct (N.lt_ge_cases (at_ arr (N.of_nat (length arr) - 1)) x) as [L2|G2].
  { exists (N.of_nat (length arr) - 1)%N.
    pose proof (at_mono_le arr p (N.of_nat (length arr) - 1) Inc ltac:(lia) ltac:(lia)) as M.
    split; [|right; right; split; auto; lia]. unfold exponentialSearch.
    rewrite vgetN_at by auto. cbn [bind].
    destruct (N.eqb_spec (at_ arr p) x); [lia|].
    destruct (N.ltb_spec x (at_ arr p)); [lia|].
    rewrite vgetN_at by lia. cbn [bind].
    destruct (N.ltb_spec (at_ arr (N.of_nat (length arr) - 1)) x); [reflexivity|lia]. }
  destruct (exponentialSearch_spec arr x p) as (pos & E & Q); auto.
  exists pos. split; auto.
Qed.

(** ** Places left after the positions *)

Fixpoint slack (sets : list (list N)) (ps : list N) : nat :=
  match sets, ps with
  | s :: sets, p :: ps => (length s - N.to_nat p) + slack sets ps
  | _, _ => 0
  end.

Lemma slack_set : forall sets ps i pos ps' s p,
  vset ps i pos = Ok ps' -> nth_error sets i = Some s -> nth_error ps i = Some p ->
  (p <= pos)%N -> (pos < N.of_nat (length s))%N ->
  slack sets ps' + N.to_nat (pos - p) = slack sets ps.
Proof.
  induction sets as [|t sets IH]; intros ps i pos ps' s p V Hs Hp L1 L2;
    [destruct i; discriminate|].
  destruct ps as [|q ps]; [destruct i; discriminate|].
  destruct i as [|i]; cbn [nth_error] in Hs, Hp.
  - inversion Hs; inversion Hp; subst. unfold vset in V. cbn in V.
    inversion V; subst. cbn [slack]. lia.
  - destruct (vset_spec _ ps i pos) as (l & E & _).
    { apply nth_error_Some. congruence. }
    assert (V' : vset (q :: ps) (S i) pos = Ok (q :: l)).
    { revert E. clear. unfold vset. cbn [length]. 
      change (S i <? S (length ps)) with (i <? length ps).
      destruct (i <? length ps); [|discriminate]. intros E; inversion E; subst. reflexivity. }
    rewrite V' in V. inversion V; subst. cbn [slack].
    pose proof (IH ps i pos l s p E Hs Hp L1 L2). lia.
Qed.

Lemma slack_zero : forall sets, slack sets (repeat 0%N (length sets)) = length (concat sets).
Proof.
  induction sets as [|s sets IH]; [reflexivity|].
  cbn [length repeat slack concat]. rewrite app_length, IH. lia.
Qed.

(** ** The values at the positions of the last sets visited *)

Definition recentp (sets : list (list N)) (ps : list N) (i occr : nat) (e : N) : Prop :=
  forall j, 1 <= j <= occr -> exists s p,
    nth_error sets ((i + length sets - j) mod length sets) = Some s /\
    nth_error ps ((i + length sets - j) mod length sets) = Some p /\ at_ s p = e.

Lemma mod_prev : forall k i, i < k -> ((i + 1) mod k + k - 1) mod k = i.
Proof.
  intros k i Hi. destruct (Nat.eq_dec (i + 1) k) as [E|E].
  - rewrite E, Nat.mod_same by lia. rewrite Nat.mod_small by lia. lia.
  - rewrite (Nat.mod_small (i + 1)) by lia.
    replace (i + 1 + k - 1) with (i + 1 * k) by lia.
    rewrite Nat.mod_add by lia. apply Nat.mod_small. auto.
Qed.

Lemma mod_prev_more : forall k i j, i < k -> 2 <= j <= k ->
  ((i + 1) mod k + k - j) mod k = (i + k - (j - 1)) mod k.
Proof.
  intros k i j Hi Hj. destruct (Nat.eq_dec (i + 1) k) as [E|E].
  - rewrite E, Nat.mod_same by lia.
    replace (i + k - (j - 1)) with (0 + k - j + 1 * k) by lia.
    rewrite Nat.mod_add by lia. reflexivity.
  - rewrite (Nat.mod_small (i + 1)) by lia. f_equal. lia.
Qed.

Lemma mod_prev_other : forall k i j, i < k -> 1 <= j -> j < k -> (i + k - j) mod k <> i.
Proof.
  intros k i j Hi H1 H2 E. destruct (Nat.lt_ge_cases i j).
  - rewrite Nat.mod_small in E by lia. lia.
  - replace (i + k - j) with (i - j + 1 * k) in E by lia.
    rewrite Nat.mod_add, Nat.mod_small in E by lia. lia.
Qed.

Section Walk.
Variables (sets : list (list N)) (out0 : list N) (s0 : list N).
Hypothesis K : 2 <= length sets.
Hypothesis Inc : Forall increasing sets.
Hypothesis Len : Forall (fun s => (N.of_nat (length s) < 2 ^ 31)%N) sets.
Hypothesis Nonempty : Forall (fun s => s <> []) sets.
Hypothesis Small : Forall (Forall (fun x => x < 2 ^ 64 - 1)%N) sets.
Hypothesis First : nth_error sets 0 = Some s0.

Notation k := (length sets).
Notation endof s := (at_ s (N.of_nat (length s) - 1)).

(** Every set has a position inside it. *)
Definition inside (ps : list N) : Prop :=
  length ps = k /\
  forall j s, nth_error sets j = Some s -> exists p,
    nth_error ps j = Some p /\ (p < N.of_nat (length s))%N.

Lemma set_facts : forall i s, nth_error sets i = Some s -> In s sets /\ increasing s /\
  (N.of_nat (length s) < 2 ^ 31)%N /\ s <> [] /\ Forall (fun x => x < 2 ^ 64 - 1)%N s.
Proof.
  intros i s H. apply nth_error_In in H.
  pose proof (proj1 (Forall_forall _ _) Inc s H). pose proof (proj1 (Forall_forall _ _) Len s H).
  pose proof (proj1 (Forall_forall _ _) Nonempty s H).
  pose proof (proj1 (Forall_forall _ _) Small s H). auto 10.
Qed.

Lemma vset_nth : forall (ps : list N) i pos ps', vset ps i pos = Ok ps' ->
  length ps' = length ps /\
  forall j, nth_error ps' j = if j =? i then Some pos else nth_error ps j.
Proof.
  clear. intros ps i pos ps' H. assert (Hi : i < length ps).
  { unfold vset in H. destruct (i <? length ps) eqn:E; [|discriminate].
    apply Nat.ltb_lt in E. auto. }
  destruct (vset_spec _ ps i pos Hi) as (l & E & EL & E2). rewrite E in H.
  inversion H; subst. auto.
Qed.

Lemma inside_set : forall ps i s pos ps', inside ps -> nth_error sets i = Some s ->
  (pos < N.of_nat (length s))%N -> vset ps i pos = Ok ps' -> inside ps'.
Proof.
  clear. intros ps i s pos ps' [I1 I2] Hs L V. apply vset_nth in V. destruct V as [V1 V2].
  split; [congruence|]. intros j t Ht. rewrite V2. destruct (Nat.eqb_spec j i) as [->|N].
  - rewrite Hs in Ht. inversion Ht; subst. eauto.
  - apply I2; auto.
Qed.

Lemma recentp_one : forall ps i s p e, i < k -> nth_error sets i = Some s ->
  nth_error ps i = Some p -> at_ s p = e -> recentp sets ps ((i + 1) mod k) 1 e.
Proof.
  clear. intros ps i s p e Hi Hs Hp He j Hj. assert (j = 1) by lia. subst j.
  exists s, p. rewrite mod_prev by auto. auto.
Qed.

Lemma recentp_step : forall ps ps' i s pos occr e, i < k -> occr < k ->
  recentp sets ps i occr e -> nth_error sets i = Some s -> vset ps i pos = Ok ps' ->
  at_ s pos = e -> recentp sets ps' ((i + 1) mod k) (S occr) e.
Proof.
  clear. intros ps ps' i s pos occr e Hi Ho R Hs V He j Hj.
  apply vset_nth in V. destruct V as [_ V].
  destruct (Nat.eq_dec j 1) as [->|Nj].
  - exists s, pos. rewrite mod_prev by auto. rewrite V, Nat.eqb_refl. auto.
  - destruct (R (j - 1)) as (t & p & Ht & Hp & E); [lia|]. exists t, p.
    rewrite mod_prev_more by lia. rewrite V.
    destruct (Nat.eqb_spec ((i + k - (j - 1)) mod k) i) as [X|_]; auto.
    exfalso. revert X. apply mod_prev_other; lia.
Qed.

Lemma recentp_all : forall ps i e, i < k -> recentp sets ps i k e ->
  forall m s, nth_error sets m = Some s -> exists p, nth_error ps m = Some p /\ at_ s p = e.
Proof.
  clear. intros ps i e Hi R m s Hm.
  assert (m < k) by (apply nth_error_Some; congruence).
  assert (exists j, 1 <= j <= k /\ (i + k - j) mod k = m) as (j & Hj & Ej).
  { destruct (Nat.lt_ge_cases m i).
    - exists (i - m). split; [lia|].
      replace (i + k - (i - m)) with (m + 1 * k) by lia.
      rewrite Nat.mod_add by lia. apply Nat.mod_small. auto.
    - exists (i + k - m). split; [lia|].
      replace (i + k - (i + k - m)) with m by lia.
      apply Nat.mod_small. auto. }
  destruct (R j Hj) as (t & p & Ht & Hp & E). rewrite Ej in *.
  rewrite Hm in Ht. inversion Ht; subst. eauto.
Qed.

Lemma recentp_in : forall ps i occr e, inside ps -> 1 <= occr -> recentp sets ps i occr e ->
  exists s, In s sets /\ In e s.
Proof.
  clear. intros ps i occr e [_ I] H R. destruct (R 1 ltac:(lia)) as (s & p & Hs & Hp & E).
  exists s. split; [eapply nth_error_In; eauto|]. destruct (I _ _ Hs) as (q & Hq & L).
  rewrite Hp in Hq. inversion Hq; subst. apply at_in. auto.
Qed.

(** What the call may return: all the common values, or all but the smallest, which is
    the first value of a set other than the first. *)
Definition result_ok (c : list N) : Prop :=
  is_intersection sets c \/
  exists x j s, is_intersection sets (x :: c) /\ 1 <= j /\ nth_error sets j = Some s /\
    hd 0%N s = x /\ (hd 0%N s0 < x)%N.

(** When it may read outside a list. *)
Definition may_fail : Prop :=
  (exists j s, 1 <= j /\ nth_error sets j = Some s /\ length s = 1 /\
     (hd 0 s0 < hd 0 s)%N) \/
  (exists s t, In s sets /\ In t sets /\ (last s 0 < last t 0)%N).

(** [c] lists the common values below [e], but for one that was skipped. *)
Definition collected (ps : list N) (e : N) (c : list N) : Prop :=
  lists sets (fun x => x < e)%N c \/
  exists x j s p, common sets x /\ (x < e)%N /\ (forall y, common sets y -> (x <= y)%N) /\
    1 <= j /\ nth_error sets j = Some s /\ nth_error ps j = Some p /\ (x < at_ s p)%N /\
    hd 0%N s = x /\ (hd 0%N s0 < x)%N /\
    lists sets (fun y => y < e /\ y <> x)%N c.

Lemma collected_final : forall ps e c, collected ps e c ->
  (forall x, common sets x -> (x < e)%N) -> result_ok c.
Proof.
  clear. intros ps e c [[I C]|(x & j & s & p & Cx & Lx & Min & J & Hs & _ & _ & Hd & H0 & I & C)] H.
  - left. split; auto. intros x. rewrite C. fold (common sets x). split; [tauto|auto].
  - right. exists x, j, s. split; [split|auto 10].
    + constructor; auto. apply Forall_forall. intros y Hy. apply C in Hy.
      destruct Hy as (Cy & _ & Ny). specialize (Min y Cy). lia.
    + intros y. split.
      * intros [<-|Hy]; [exact Cx|]. apply C in Hy. exact (proj1 Hy).
      * intros Cy. destruct (N.eq_dec x y) as [->|N]; [left; auto|]. right. apply C.
        split; [exact Cy|]. split; [apply H; exact Cy|]. auto.
Qed.

(** Positions only grow. *)
Definition grown (ps ps' : list N) : Prop :=
  forall j s p, nth_error sets j = Some s -> nth_error ps j = Some p ->
    exists p', nth_error ps' j = Some p' /\ (at_ s p <= at_ s p')%N.

Lemma grown_set : forall ps i s p pos ps', nth_error sets i = Some s ->
  nth_error ps i = Some p -> vset ps i pos = Ok ps' -> (p <= pos)%N ->
  (pos < N.of_nat (length s))%N -> grown ps ps'.
Proof.
  intros ps i s p pos ps' Hs Hp V L1 L2 j t q Ht Hq. apply vset_nth in V. destruct V as [_ V].
  rewrite V. destruct (Nat.eqb_spec j i) as [->|N]; [|exists q; split; auto; lia].
  exists pos. split; auto. rewrite Hs in Ht. rewrite Hp in Hq. inversion Ht; inversion Hq; subst.
  destruct (set_facts i t Hs) as (_ & I & _). apply at_mono_le; auto.
Qed.

Lemma collected_move : forall ps ps' e e' c, collected ps e c -> grown ps ps' -> (e <= e')%N ->
  (forall x, common sets x -> (e <= x)%N -> (e' <= x)%N) -> collected ps' e' c.
Proof.
  clear. intros ps ps' e e' c H G Le Mid. destruct H as [H|(x & j & s & p & Cx & Lx & Min & J & Hs & Hp & Hx & Hd & H0 & H)].
  - left. eapply lists_ext; [|exact H]. intros x Cx. cbn beta. specialize (Mid x Cx). lia.
  - right. destruct (G j s p Hs Hp) as (p' & Hp' & Lp). exists x, j, s, p'.
    split; [exact Cx|]. split; [lia|]. split; [exact Min|].
    do 3 (split; [assumption|]). split; [lia|]. do 2 (split; [assumption|]).
    eapply lists_ext; [|exact H].
    intros y Cy. cbn beta. specialize (Mid y Cy). lia.
Qed.

Lemma collected_push : forall ps e c, collected ps e c -> common sets e ->
  collected ps (e + 1) (c ++ [e]).
Proof.
  clear. intros ps e c H Ce. destruct H as [H|(x & j & s & p & Cx & Lx & Min & J & Hs & Hp & Hx & Hd & H0 & I & C)].
  - left. eapply lists_ext; [|apply lists_push; eauto]. intros y _. cbn beta. lia.
  - right. exists x, j, s, p.
    split; [exact Cx|]. split; [lia|]. split; [exact Min|].
    do 6 (split; [assumption|]). split.
    + apply increasing_snoc; auto. intros y Hy. apply C in Hy. tauto.
    + intros y. rewrite in_app_iff, C. cbn [In]. split.
      * intros [(H1 & H2 & H3)|[<-|[]]]; repeat split; auto; lia.
      * intros (H1 & H2 & H3). destruct (N.eq_dec y e) as [->|]; [auto|]. left.
        repeat split; auto. lia.
Qed.

(** The set positions before the first pass is over: [vis] sets have been visited. *)
Definition visited (ps : list N) (e : N) (vis : nat) : Prop :=
  1 <= vis <= k /\
  forall j s p, nth_error sets j = Some s -> nth_error ps j = Some p ->
    if j <? vis then (at_ s p <= e)%N else p = 0%N.

Definition good (ps : list N) (e : N) (i : nat) (c : list N) : Prop :=
  collected ps e c /\ (hd 0 s0 <= e)%N /\
  (forall x j s p, In x c -> nth_error sets j = Some s -> nth_error ps j = Some p ->
     (x <= at_ s p)%N) /\
  exists vis, visited ps e vis /\ (vis = k \/ vis = i).

(** After the search went back: no common value can be found any more. *)
Definition bad (ps : list N) (c : list N) : Prop :=
  result_ok c /\ may_fail /\
  forall x, common sets x -> exists j s p, nth_error sets j = Some s /\
    nth_error ps j = Some p /\ (x < at_ s p)%N.

Lemma bad_grown : forall ps ps' c, bad ps c -> grown ps ps' -> bad ps' c.
Proof.
  clear. intros ps ps' c (B1 & B2 & B3) G. repeat split; auto. intros x Hx.
  destruct (B3 x Hx) as (j & s & p & Hs & Hp & L). destruct (G j s p Hs Hp) as (p' & Hp' & L').
  exists j, s, p'. repeat split; auto. lia.
Qed.

Lemma visited_set : forall ps e i s pos ps' e' vis, visited ps e vis ->
  vis = k \/ vis = i -> i < k -> nth_error sets i = Some s -> vset ps i pos = Ok ps' ->
  (e <= e')%N -> (at_ s pos <= e')%N ->
  exists vis', visited ps' e' vis' /\ (vis' = k \/ vis' = (i + 1) mod k).
Proof.
  clear. intros ps e i s pos ps' e' vis (V1 & V2) Hv Hi Hs V Le La.
  apply vset_nth in V. destruct V as [_ V].
  destruct Hv as [->| ->].
  - exists k. split; auto. split; auto. intros j t p Ht Hp. rewrite V in Hp.
    assert (Hj : j < k) by (apply nth_error_Some; congruence).
    destruct (Nat.ltb_spec j k); [|lia].
    destruct (Nat.eqb_spec j i) as [->|N].
    + rewrite Hs in Ht. inversion Ht; inversion Hp; subst. auto.
    + specialize (V2 j t p Ht Hp). destruct (Nat.ltb_spec j k); lia.
  - exists (i + 1). split.
    + split; [lia|]. intros j t p Ht Hp. rewrite V in Hp.
      destruct (Nat.eqb_spec j i) as [->|N].
      * rewrite Hs in Ht. inversion Ht; inversion Hp; subst.
        destruct (Nat.ltb_spec i (i + 1)); [auto|lia].
      * specialize (V2 j t p Ht Hp). destruct (Nat.ltb_spec j i), (Nat.ltb_spec j (i + 1)); lia.
    + destruct (Nat.eq_dec (i + 1) k); [auto|]. right. rewrite Nat.mod_small; lia.
Qed.

Lemma common_dec : forall x, {common sets x} + {~ common sets x}.
Proof.
  clear. intros x. apply Forall_dec. intros s. apply in_dec, N.eq_dec.
Qed.

Lemma common_at : forall x i s, common sets x -> nth_error sets i = Some s ->
  exists j, (j < N.of_nat (length s))%N /\ at_ s j = x.
Proof.
  clear. intros x i s H Hs. unfold common in H. rewrite Forall_forall in H.
  apply in_at, H. eapply nth_error_In; eauto.
Qed.

Lemma hd_at : forall (s : list N), hd 0%N s = at_ s 0.
Proof. clear. intros [|x s]; reflexivity. Qed.

Definition outcome (r : result (list N)) : Prop :=
  r = UB OutOfBounds /\ may_fail \/
  exists c, r = Ok (out0 ++ c) /\ result_ok c.

Lemma slack_ge : forall ps, inside ps -> k <= slack sets ps.
Proof.
  clear. intros ps [I1 I2]. revert ps I1 I2. induction sets as [|s l IH]; intros ps I1 I2.
  { cbn. lia. }
  destruct ps as [|p ps]; [discriminate I1|]. cbn [slack length].
  destruct (I2 0 s eq_refl) as (q & Hq & L). inversion Hq; subst q.
  assert (length l <= slack l ps).
  { apply IH; [cbn in I1; lia|]. intros j t Ht. apply (I2 (S j) t Ht). }
  lia.
Qed.

Lemma last_end : forall s, last s 0%N = endof s.
Proof. clear. apply last_at. Qed.

Lemma walk : forall fuel ps e i occr c,
  i < k -> 1 <= occr < k -> inside ps -> recentp sets ps i occr e ->
  good ps e i c \/ bad ps c ->
  k * slack sets ps + k <= fuel + occr + k * k ->
  outcome (bk_loop fuel sets k ps e i occr (out0 ++ c)).
Proof.
  induction fuel as [|fuel IH]; intros ps e i occr c Hi Ho I R GB F.
  { exfalso. pose proof (slack_ge ps I). clear - F H Ho. nia. }
  cbn [bk_loop].
  destruct (N.eqb_spec e (2 ^ 64 - 1)) as [X|_].
  { exfalso. destruct (recentp_in ps i occr e I (proj1 Ho) R) as (s & Hs & He).
    pose proof (proj1 (Forall_forall _ _) Small s Hs) as Sm.
    pose proof (proj1 (Forall_forall _ _) Sm e He) as Lt. cbn beta in Lt.
    rewrite X in Lt. revert Lt. apply N.lt_irrefl. }
  destruct (nth_error sets i) as [s|] eqn:Es; [|apply nth_error_None in Es; lia].
  destruct (set_facts i s Es) as (Sin & Sinc & Slen & Sne & Ssm).
  destruct (proj2 I i s Es) as (p & P1 & P2).
  rewrite (vget_nth _ _ _ _ Es), (vget_nth _ _ _ _ P1). cbn [bind].
  destruct (exponentialSearch_any s e p Sinc Slen P2) as (pos & Epos & Q).
  rewrite Epos. cbn [bind].
  assert (Hm : (i + 1) mod k < k) by (apply Nat.mod_upper_bound; lia).
  assert (Hip : i < length ps) by (destruct I as [-> _]; auto).
  assert (Lpos : (p <= pos)%N).
  { destruct Q as [((Q1 & Q2) & Q3 & Q4 & Q5)|[(Q1 & ->)|((Q1 & Q2) & ->)]]; [|lia|lia].
    destruct (N.le_gt_cases p pos) as [|G]; auto.
    pose proof (at_mono s pos p Sinc G P2). lia. }
  (* The search went past the end. *)
  destruct (N.lt_ge_cases pos (N.of_nat (length s))) as [Hpos|Hpos]; cycle 1.
  { assert (EU : vgetN s pos = UB OutOfBounds).
    { unfold vgetN. destruct (N.ltb_spec pos (N.of_nat (length s))); [lia|reflexivity]. }
    rewrite EU. cbn [bind]. left. split; auto.
    destruct Q as [(_ & Q3 & _)|[(Q1 & ->)|(_ & ->)]]; [lia| |lia].
    destruct GB as [(_ & G0 & _ & vis & (V1 & V2) & Hv)|(_ & B & _)]; [|exact B].
    specialize (V2 i s p Es P1). destruct (Nat.ltb_spec i vis); [lia|]. subst p.
    left. exists i, s. rewrite (hd_at s). repeat split; auto; lia. }
  rewrite vgetN_at by auto. cbn [bind].
  destruct (vset_ok ps i pos Hip) as (ps1 & Ep1).
  pose proof (inside_set ps i s pos ps1 I Es Hpos Ep1) as I1.
  pose proof (grown_set ps i s p pos ps1 Es P1 Ep1 Lpos Hpos) as Gr1.
  pose proof (slack_set sets ps i pos ps1 s p Ep1 Es P1 Lpos Hpos) as Sl1.
  destruct (vset_nth _ _ _ _ Ep1) as [Len1 Nth1].
  assert (Pi1 : nth_error ps1 i = Some pos) by (rewrite Nth1, Nat.eqb_refl; auto).
  destruct (N.eqb_spec (at_ s pos) e) as [Ev|Nv].
  - rewrite Ep1. cbn [bind].
    pose proof (recentp_step ps ps1 i s pos occr e Hi (proj2 Ho) R Es Ep1 Ev) as R1.
    assert (GB1 : good ps1 e ((i + 1) mod k) c \/ bad ps1 c).
    { destruct GB as [(G1 & G2 & G3 & vis & V & Hv)|B]; [left|right; eapply bad_grown; eauto].
      split; [|split; [auto|split]].
      - eapply collected_move; eauto. lia.
      - intros x j t q Hx Ht Hq. destruct (proj2 I j t Ht) as (q0 & Q0 & _).
        destruct (Gr1 j t q0 Ht Q0) as (q' & Hq' & L). rewrite Hq in Hq'. inversion Hq'; subst q'.
        pose proof (G3 x j t q0 Hx Ht Q0). lia.
      - apply (visited_set ps e i s pos ps1 e vis); auto; lia. }
    destruct (Nat.eqb_spec (S occr) k) as [Ek|Ek]; cbn [andb orb negb].
    + (* All the sets have it. *)
      rewrite Ek in R1.
      pose proof (recentp_all ps1 ((i + 1) mod k) e Hm R1) as All.
      assert (Ce : common sets e).
      { apply Forall_forall. intros t Ht. apply In_nth_error in Ht. destruct Ht as (j & Ht).
        destruct (All j t Ht) as (q & Hq & <-). destruct (proj2 I1 j t Ht) as (q' & Hq' & L).
        rewrite Hq in Hq'. inversion Hq'; subst q'. apply at_in; auto. }
      destruct GB1 as [(G1 & G2 & G3 & vis & V & Hv)|(_ & _ & B)].
      2:{ exfalso. destruct (B e Ce) as (j & t & q & Ht & Hq & L).
          destruct (All j t Ht) as (q' & Hq' & E). rewrite Hq in Hq'. inversion Hq'; subst q'. lia. }
      pose proof (collected_push ps1 e c G1 Ce) as C1.
      rewrite (vget_nth _ _ _ _ Pi1). cbn [bind]. rewrite <- app_assoc.
      destruct (N.eqb_spec (pos + 1) (N.of_nat (length s))) as [El|El].
      * right. exists (c ++ [e]). split; auto. eapply collected_final; [exact C1|].
        intros x Hx. destruct (common_at x i s Hx Es) as (j & J1 & <-).
        pose proof (at_mono_le s j pos Sinc ltac:(lia) Hpos). lia.
      * assert (Hn : (pos + 1 < N.of_nat (length s))%N) by lia.
        rewrite vgetN_at by auto. cbn [bind].
        pose proof (at_mono s pos (pos + 1) Sinc ltac:(lia) Hn) as Mn.
        assert (Hip1 : i < length ps1) by lia.
        destruct (vset_ok ps1 i (pos + 1)%N Hip1) as (ps2 & Ep2). rewrite Ep2. cbn [bind].
        pose proof (inside_set ps1 i s (pos + 1)%N ps2 I1 Es Hn Ep2) as I2.
        pose proof (grown_set ps1 i s pos (pos + 1)%N ps2 Es Pi1 Ep2 ltac:(lia) Hn) as Gr2.
        pose proof (slack_set sets ps1 i (pos + 1)%N ps2 s pos Ep2 Es Pi1 ltac:(lia) Hn) as Sl2.
        destruct (vset_nth _ _ _ _ Ep2) as [Len2 Nth2].
        assert (Mid : forall x, common sets x -> (e + 1 <= x)%N -> (at_ s (pos + 1) <= x)%N).
        { intros x Hx L. destruct (common_at x i s Hx Es) as (j & J1 & <-).
          destruct (N.lt_ge_cases pos j) as [G|G]; [apply at_mono_le; auto; lia|].
          pose proof (at_mono_le s j pos Sinc G Hpos). lia. }
        apply IH; [exact Hm|lia|assumption| | |].
        -- eapply recentp_one; eauto. rewrite Nth2, Nat.eqb_refl. auto.
        -- left. split; [|split; [lia|split]].
           ++ apply (collected_move ps1 ps2 (e + 1)%N); auto. lia.
           ++ intros x j t q Hx Ht Hq. destruct (All j t Ht) as (q0 & Q0 & E0).
              destruct (Gr2 j t q0 Ht Q0) as (q' & Hq' & L). rewrite Hq in Hq'. inversion Hq'; subst q'.
              assert (x <= e)%N; [|lia]. apply in_app_iff in Hx. destruct Hx as [Hx|[<-|[]]]; [|lia].
              destruct G1 as [[_ G1]|(z & _ & _ & _ & _ & _ & _ & _ & _ & _ & _ & _ & _ & _ & G1)];
                apply G1 in Hx; lia.
           ++ exists k. split; [|auto]. split; [lia|]. intros j t q Ht Hq.
              assert (Hj : j < k) by (apply nth_error_Some; congruence).
              destruct (Nat.ltb_spec j k); [|lia]. rewrite Nth2 in Hq.
              destruct (Nat.eqb_spec j i) as [->|Nj].
              ** rewrite Es in Ht. inversion Ht; inversion Hq; subst. lia.
              ** destruct (All j t Ht) as (q' & Hq' & E). rewrite Hq in Hq'. inversion Hq'; subst q'. lia.
        -- clear - F Sl1 Sl2 Ek Ho. nia.
    + apply IH; [exact Hm|lia|assumption|exact R1|exact GB1|].
      assert (k * slack sets ps1 <= k * slack sets ps).
      { apply Nat.mul_le_mono_l. clear - Sl1. lia. }
      clear - F H. lia.
  - cbn [bind andb orb negb].
    destruct (Nat.eqb_spec occr k); [lia|]. cbn [andb orb negb].
    rewrite (vget_nth _ _ _ _ P1). cbn [bind].
    destruct (N.eqb_spec (p + 1) (N.of_nat (length s))) as [El|El].
    { (* The set is used up. *)
      right. exists c. split; auto. destruct GB as [(G1 & G2 & G3 & vis & V & Hv)|(B & _)]; auto.
      eapply collected_final; [exact G1|]. intros x Hx.
      destruct (common_at x i s Hx Es) as (j & J1 & <-).
      destruct Q as [((Q1 & Q2) & Q3 & Q4 & Q5)|[(Q1 & ->)|((Q1 & Q2) & ->)]].
      - exfalso. replace (N.of_nat (length s) - 1)%N with p in Q2 by lia.
        assert (Eq : at_ s p = e) by lia. apply Nv. 
        pose proof (at_mono_le s pos p Sinc ltac:(lia) P2). lia.
      - lia.
      - pose proof (at_mono_le s j (N.of_nat (length s) - 1) Sinc ltac:(lia) ltac:(lia)). lia. }
    rewrite Ep1. cbn [bind].
    assert (Lt : (p < pos)%N).
    { destruct Q as [((Q1 & Q2) & Q3 & Q4 & Q5)|[(Q1 & ->)|((Q1 & Q2) & ->)]]; [|lia|lia].
      destruct (N.eq_dec p pos) as [<-|]; [lia|lia]. }
    apply IH; [exact Hm|lia|assumption| | |].
    + eapply recentp_one; eauto.
    + destruct GB as [(G1 & G2 & G3 & vis & V & Hv)|B]; [|right; eapply bad_grown; eauto].
      assert (G3' : forall x j t q, In x c -> nth_error sets j = Some t ->
                nth_error ps1 j = Some q -> (x <= at_ t q)%N).
      { intros x j t q Hx Ht Hq. destruct (proj2 I j t Ht) as (q0 & Q0 & _).
        destruct (Gr1 j t q0 Ht Q0) as (q' & Hq' & L). rewrite Hq in Hq'. inversion Hq'; subst q'.
        pose proof (G3 x j t q0 Hx Ht Q0). lia. }
      destruct Q as [((Q1 & Q2) & Q3 & Q4 & Q5)|[(Q1 & Epp)|((Q1 & Q2) & Epp)]].
      * left. split; [|split; [lia|split; auto]].
        -- apply (collected_move ps ps1 e); auto. intros x Hx L.
           destruct (common_at x i s Hx Es) as (j & J1 & <-).
           destruct (N.lt_ge_cases j pos) as [G|G]; [pose proof (Q5 j G); lia|].
           apply at_mono_le; auto.
        -- apply (visited_set ps e i s pos ps1 (at_ s pos) vis); auto. lia.
      * (* The first value of a set not visited yet is skipped. *)
        left. pose proof V as [V1 V2]. specialize (V2 i s p Es P1).
        destruct (Nat.ltb_spec i vis); [lia|]. subst p.
        change (0 + 1)%N with 1%N in Epp. subst pos.
        pose proof (at_mono s 0 1 Sinc ltac:(lia) Hpos) as M1.
        assert (Ge : forall x, common sets x -> x = at_ s 0 \/ (at_ s 1 <= x)%N).
        { intros x Hx. destruct (common_at x i s Hx Es) as (j & J1 & <-).
          destruct (N.eq_dec j 0) as [->|]; [auto|]. right. apply at_mono_le; auto. lia. }
        split; [|split; [lia|split; auto]].
        -- destruct (common_dec (at_ s 0)) as [C0|C0].
           ++ destruct G1 as [[GI GC]|(z & jz & sz & pz & Cz & Lz & _)].
              ** right. exists (at_ s 0), i, s, 1%N.
                 do 9 (split; [solve [auto | lia | intros y Hy; destruct (Ge y Hy); lia | apply hd_at]|]).
                 assert (c = []) as ->.
                 { destruct c as [|y c]; [auto|]. exfalso.
                   destruct (proj1 (GC y) (or_introl eq_refl)) as [Cy Ly].
                   destruct (Ge y Cy); lia. }
                 split; [constructor|]. intros y. split; [intros []|].
                 intros (Cy & Ly & Ny). destruct (Ge y Cy); [contradiction|lia].
              ** exfalso. destruct (Ge z Cz); lia.
           ++ apply (collected_move ps ps1 e); auto; [lia|]. intros x Hx _.
              destruct (Ge x Hx) as [->|]; [contradiction|auto].
        -- apply (visited_set ps e i s 1%N ps1 (at_ s 1) vis); auto; lia.
      * (* The set ends before the value looked for. *)
        right.
        assert (Ends : forall x, common sets x -> (x <= endof s)%N).
        { intros x Hx. destruct (common_at x i s Hx Es) as (j & J1 & <-). apply at_mono_le; auto; lia. }
        split; [|split].
        -- eapply collected_final; [exact G1|]. intros x Hx. specialize (Ends x Hx). lia.
        -- right. destruct (recentp_in ps i occr e I (proj1 Ho) R) as (t & Ht & He).
           exists s, t. repeat split; auto. rewrite !last_at.
           apply in_at in He. destruct He as (j & J1 & <-).
           pose proof (at_mono_le t j (N.of_nat (length t) - 1) (proj1 (Forall_forall _ _) Inc t Ht) ltac:(lia) ltac:(lia)).
           lia.
        -- intros x Hx. specialize (Ends x Hx).
           destruct (N.eq_dec x (endof s)) as [Ex|Nx]; cycle 1.
           { exists i, s, pos. repeat split; auto. rewrite Epp. lia. }
           destruct G1 as [[GI GC]|(z & jz & sz & pz & Cz & Lz & Min & J & Hsz & Hpz & Hz & _ & _ & GI & GC)].
           ++ exfalso. assert (Hc : In x c) by (apply GC; split; auto; lia).
              pose proof (G3 x i s p Hc Es P1).
              pose proof (at_mono s p (N.of_nat (length s) - 1) Sinc ltac:(lia) ltac:(lia)). lia.
           ++ destruct (N.eq_dec x z) as [->|Nz].
              ** destruct (Gr1 jz sz pz Hsz Hpz) as (q & Hq & L). exists jz, sz, q. repeat split; auto. lia.
              ** exfalso. assert (Hc : In x c) by (apply GC; repeat split; auto; lia).
                 pose proof (G3 x i s p Hc Es P1).
                 pose proof (at_mono s p (N.of_nat (length s) - 1) Sinc ltac:(lia) ltac:(lia)). lia.
    + clear - F Sl1 Lt Ho. assert (1 <= N.to_nat (pos - p)) by lia. nia.
Qed.

Lemma bk_outcome : forall fuel, length sets * length (concat sets) <= fuel ->
  outcome (barbayKenyon fuel sets k out0).
Proof.
  intros fuel F. unfold barbayKenyon.
  destruct (Nat.eqb_spec k 0); [lia|].
  destruct (nth_error sets 1) as [s1|] eqn:E1; [|apply nth_error_None in E1; lia].
  destruct (set_facts 0 s0 First) as (Sin & Sinc & Slen & Sne & Ssm).
  rewrite (vget_nth _ _ _ _ First). cbn [bind].
  destruct s0 as [|e rest] eqn:E0; [contradiction|]. rewrite <- E0 in *.
  assert (V0 : vget s0 0 = Ok e) by (rewrite E0; reflexivity). rewrite V0. cbn [bind].
  rewrite (vget_nth _ _ _ _ E1). cbn [bind].
  assert (A0 : at_ s0 0 = e) by (rewrite E0; reflexivity).
  assert (Hrep : forall j p, nth_error (repeat 0%N k) j = Some p -> p = 0%N).
  { clear. intros j p H. apply nth_error_In in H. eapply repeat_spec; eauto. }
  pose proof (walk fuel (repeat 0%N k) e 1 1 []) as W. rewrite app_nil_r in W.
  apply W; auto; try lia; clear W.
  - split; [apply repeat_length|]. intros j s Hs. exists 0%N.
    assert (j < k) by (apply nth_error_Some; congruence).
    split; [apply nth_error_repeat; auto|].
    destruct (set_facts j s Hs) as (_ & _ & _ & Tne & _). destruct s; [contradiction|cbn; lia].
  - replace 1 with ((0 + 1) mod k) at 1 by (rewrite Nat.mod_small; lia).
    apply (recentp_one (repeat 0%N k) 0 s0 0%N e); auto; [lia|]. apply nth_error_repeat. lia.
  - left. split; [|split; [rewrite hd_at; lia|split]].
    + left. split; [constructor|]. intros x. split; [intros []|]. intros [Hx L].
      destruct (common_at x 0 s0 Hx First) as (j & J1 & <-).
      pose proof (at_mono_le s0 0 j Sinc ltac:(lia) J1). lia.
    + intros x j s p [].
    + exists 1. split; auto. split; [lia|]. intros j s p Hs Hp. apply Hrep in Hp. subst p.
      destruct (Nat.ltb_spec j 1); [|auto]. assert (j = 0) by lia. subst j.
      rewrite First in Hs. inversion Hs; subst s. rewrite A0. apply N.le_refl.
  - rewrite slack_zero. pose proof (slack_ge). clear - F K. nia.
Qed.

(** Nothing before the position of a set is returned. *)
Lemma walk_above : forall fuel ps e i occr out r j t q,
  i < k -> 1 <= occr < k -> inside ps -> recentp sets ps i occr e ->
  nth_error sets j = Some t -> nth_error ps j = Some q ->
  bk_loop fuel sets k ps e i occr out = Ok r ->
  exists new, r = out ++ new /\ Forall (fun x => at_ t q <= x)%N new.
Proof.
  induction fuel as [|fuel IH]; intros ps e i occr out r j t q Hi Ho I R Ht Hq H;
    cbn [bk_loop] in H; destruct (N.eqb e (2 ^ 64 - 1)).
  1,3: inversion H; subst; exists []; rewrite app_nil_r; auto.
  { discriminate H. }
  destruct (nth_error sets i) as [s|] eqn:Es; [|apply nth_error_None in Es; lia].
  destruct (set_facts i s Es) as (Sin & Sinc & Slen & Sne & Ssm).
  destruct (proj2 I i s Es) as (p & P1 & P2).
  rewrite (vget_nth _ _ _ _ Es), (vget_nth _ _ _ _ P1) in H. cbn [bind] in H.
  destruct (exponentialSearch_any s e p Sinc Slen P2) as (pos & Epos & Q).
  rewrite Epos in H. cbn [bind] in H.
  assert (Hm : (i + 1) mod k < k) by (apply Nat.mod_upper_bound; lia).
  assert (Hip : i < length ps) by (destruct I as [-> _]; auto).
  assert (Lpos : (p <= pos)%N).
  { destruct Q as [((Q1 & Q2) & Q3 & Q4 & Q5)|[(Q1 & ->)|((Q1 & Q2) & ->)]]; [|lia|lia].
    destruct (N.le_gt_cases p pos) as [|G]; auto.
    pose proof (at_mono s pos p Sinc G P2). lia. }
  apply bind_inv in H. destruct H as (v & Hv & H). apply vgetN_at_inv in Hv.
  destruct Hv as [Hpos ->].
  destruct (vset_ok ps i pos Hip) as (ps1 & Ep1).
  pose proof (inside_set ps i s pos ps1 I Es Hpos Ep1) as I1.
  pose proof (grown_set ps i s p pos ps1 Es P1 Ep1 Lpos Hpos) as Gr1.
  destruct (vset_nth _ _ _ _ Ep1) as [Len1 Nth1].
  assert (Pi1 : nth_error ps1 i = Some pos) by (rewrite Nth1, Nat.eqb_refl; auto).
  destruct (Gr1 j t q Ht Hq) as (q1 & Hq1 & L1).
  destruct (N.eqb_spec (at_ s pos) e) as [Ev|Nv].
  - rewrite Ep1 in H. cbn [bind] in H.
    pose proof (recentp_step ps ps1 i s pos occr e Hi (proj2 Ho) R Es Ep1 Ev) as R1.
    destruct (Nat.eqb_spec (S occr) k) as [Ek|Ek]; cbn [andb orb negb] in H.
    + rewrite Ek in R1. pose proof (recentp_all ps1 ((i + 1) mod k) e Hm R1) as All.
      assert (Le : (at_ t q <= e)%N).
      { destruct (All j t Ht) as (q' & Hq' & E). rewrite Hq1 in Hq'. inversion Hq'; subst q'. lia. }
      rewrite (vget_nth _ _ _ _ Pi1) in H. cbn [bind] in H.
      destruct (N.eqb_spec (pos + 1) (N.of_nat (length s))) as [El|El].
      { injection H as <-. exists [e]. auto. }
      assert (Hn : (pos + 1 < N.of_nat (length s))%N) by lia.
      rewrite vgetN_at in H by auto. cbn [bind] in H.
      assert (Hip1 : i < length ps1) by lia.
      destruct (vset_ok ps1 i (pos + 1)%N Hip1) as (ps2 & Ep2). rewrite Ep2 in H.
      cbn [bind] in H.
      pose proof (inside_set ps1 i s (pos + 1)%N ps2 I1 Es Hn Ep2) as I2.
      pose proof (grown_set ps1 i s pos (pos + 1)%N ps2 Es Pi1 Ep2 ltac:(lia) Hn) as Gr2.
      destruct (vset_nth _ _ _ _ Ep2) as [Len2 Nth2].
      destruct (Gr2 j t q1 Ht Hq1) as (q2 & Hq2 & L2).
      eapply IH in H; [|exact Hm|lia|exact I2| |exact Ht|exact Hq2].
      * destruct H as (new & -> & Hn'). exists (e :: new). rewrite <- app_assoc. split; auto.
        constructor; auto. eapply Forall_impl; [|exact Hn']. cbn beta. intros x Hx. lia.
      * eapply recentp_one; eauto. rewrite Nth2, Nat.eqb_refl. auto.
    + eapply IH in H; [|exact Hm|lia|exact I1|exact R1|exact Ht|exact Hq1].
      destruct H as (new & -> & Hn'). exists new. split; auto.
      eapply Forall_impl; [|exact Hn']. cbn beta. intros x Hx. lia.
  - cbn [bind andb orb negb] in H.
    destruct (Nat.eqb_spec occr k); [lia|]. cbn [andb orb negb] in H.
    rewrite (vget_nth _ _ _ _ P1) in H. cbn [bind] in H.
    destruct (N.eqb_spec (p + 1) (N.of_nat (length s))) as [El|El].
    { injection H as <-. exists []. rewrite app_nil_r. auto. }
    rewrite Ep1 in H. cbn [bind] in H.
    eapply IH in H; [|exact Hm|lia|exact I1| |exact Ht|exact Hq1].
    + destruct H as (new & -> & Hn'). exists new. split; auto.
      eapply Forall_impl; [|exact Hn']. cbn beta. intros x Hx. lia.
    + eapply recentp_one; eauto.
Qed.
End Walk.

(** ** The calls *)

Lemma bk_any : forall s0 others out fuel,
  bk_family (s0 :: others) ->
  length (s0 :: others) * length (concat (s0 :: others)) <= fuel ->
  barbayKenyon fuel (s0 :: others) (length (s0 :: others)) out = UB OutOfBounds /\
  bk_risky s0 others
  \/
  exists r, barbayKenyon fuel (s0 :: others) (length (s0 :: others)) out = Ok (out ++ r) /\
    all_but_first s0 others r.
Proof.
  intros s0 others out fuel (K & Inc & Len & NE & Sm) F.
  destruct (bk_outcome (s0 :: others) out s0 K Inc Len NE Sm eq_refl fuel F)
    as [(E & M)|(r & E & M)]; [left|right].
  - split; auto. destruct M as [(j & s & J & Hs & L & H)|M]; [left|right; auto].
    exists s. split; auto. destruct j as [|j]; [lia|]. eapply nth_error_In; exact Hs.
  - exists r. split; auto. destruct M as [M|(x & j & s & M & J & Hs & H & L)]; [left; auto|right].
    exists x. split; auto. split; auto. exists s. split; auto.
    destruct j as [|j]; [lia|]. eapply nth_error_In; exact Hs.
Qed.

(** When the second set starts after the first, its first value is never returned. *)
Lemma bk_first_lost : forall s0 s1 others out fuel r,
  bk_family (s0 :: s1 :: others) -> (hd 0 s0 < hd 0 s1)%N ->
  barbayKenyon fuel (s0 :: s1 :: others) (length (s0 :: s1 :: others)) out = Ok r ->
  exists new, r = out ++ new /\ ~ In (hd 0%N s1) new.
Proof.
  intros s0 s1 others out fuel r (K & Inc & Len & NE & Sm) L H.
  remember (s0 :: s1 :: others) as sets eqn:Esets.
  assert (E0 : nth_error sets 0 = Some s0) by (rewrite Esets; reflexivity).
  assert (E1 : nth_error sets 1 = Some s1) by (rewrite Esets; reflexivity).
  destruct (set_facts sets Inc Len NE Sm 0 s0 E0) as (_ & Sinc0 & _ & Sne0 & Ssm0).
  destruct (set_facts sets Inc Len NE Sm 1 s1 E1) as (_ & Sinc1 & _ & Sne1 & Ssm1).
  destruct s0 as [|e rest]; [contradiction|]. cbn [hd] in L.
  unfold barbayKenyon in H. destruct (Nat.eqb_spec (length sets) 0); [lia|].
  rewrite (vget_nth _ _ _ _ E0) in H. cbn [bind vget nth_error] in H.
  rewrite (vget_nth _ _ _ _ E1) in H. cbn [bind] in H.
  apply Forall_cons_iff in Ssm0. destruct Ssm0 as [Se _].
  destruct fuel as [|fuel]; cbn [bk_loop] in H.
  { destruct (N.eqb_spec e (2 ^ 64 - 1)) as [X|_]; [exfalso; rewrite X in Se; revert Se; apply N.lt_irrefl|discriminate H]. }
  destruct (N.eqb_spec e (2 ^ 64 - 1)) as [X|_]; [exfalso; rewrite X in Se; revert Se; apply N.lt_irrefl|].
  rewrite (vget_nth _ _ _ _ E1) in H. cbn [bind] in H.
  assert (P1 : nth_error (repeat 0%N (length sets)) 1 = Some 0%N) by (apply nth_error_repeat; lia).
  rewrite (vget_nth _ _ _ _ P1) in H. cbn [bind] in H.
  assert (Hp0 : (0 < N.of_nat (length s1))%N) by (destruct s1; [contradiction|cbn [length]; lia]).
  rewrite hd_at in L |- *.
  assert (Epos : exponentialSearch s1 (N.of_nat (length s1)) e 0 = Ok 1%N).
  { unfold exponentialSearch. rewrite vgetN_at by auto. cbn [bind].
    destruct (N.eqb_spec (at_ s1 0) e); [lia|]. destruct (N.ltb_spec e (at_ s1 0)); [reflexivity|lia]. }
  rewrite Epos in H. cbn [bind] in H.
  apply bind_inv in H. destruct H as (v & Hv & H). apply vgetN_at_inv in Hv. destruct Hv as [L1 ->].
  pose proof (at_mono s1 0 1 Sinc1 ltac:(lia) L1) as M.
  destruct (N.eqb_spec (at_ s1 1) e); [lia|]. cbn [bind andb orb negb] in H.
  destruct (Nat.eqb_spec 1 (length sets)); [lia|]. cbn [andb orb negb] in H.
  rewrite (vget_nth _ _ _ _ P1) in H. cbn [bind] in H.
  destruct (N.eqb_spec (0 + 1) (N.of_nat (length s1))); [lia|].
  apply bind_inv in H. destruct H as (ps1 & Ep1 & H).
  destruct (vset_nth _ _ _ _ Ep1) as [Len1 Nth1].
  assert (Pi1 : nth_error ps1 1 = Some 1%N) by (rewrite Nth1; reflexivity).
  assert (I0 : inside sets (repeat 0%N (length sets))).
  { split; [apply repeat_length|]. intros j s Hs. exists 0%N.
    assert (j < length sets) by (apply nth_error_Some; congruence).
    split; [apply nth_error_repeat; auto|].
    destruct (set_facts sets Inc Len NE Sm j s Hs) as (_ & _ & _ & Tne & _).
    destruct s; [contradiction|cbn; lia]. }
  pose proof (inside_set sets (repeat 0%N (length sets)) 1 s1 1%N ps1 I0 E1 L1 Ep1) as I1.
  eapply (walk_above sets K Inc Len NE Sm) in H;
    [|apply Nat.mod_upper_bound; lia|lia|exact I1| |exact E1|exact Pi1].
  - destruct H as (new & -> & Hn). exists new. split; auto. intros Hin.
    pose proof (proj1 (Forall_forall _ _) Hn _ Hin). cbn beta in H. lia.
  - eapply recentp_one; eauto.
Qed.

(** With two sets, exactly. *)
Lemma bk_two : forall a b out fuel r,
  bk_family [a; b] -> length (a ++ b) * 2 <= fuel ->
  barbayKenyon fuel [a; b] 2 out = Ok r ->
  exists c, is_intersection [a; b] c /\
    r = out ++ (if (hd 0 a <? hd 0 b)%N then filter (fun x => negb (N.eqb x (hd 0 b))) c else c)%N.
Proof.
  intros a b out fuel r Fam F E.
  destruct (bk_any a [b] out fuel Fam) as [(X & _)|(r' & X & M)].
  { cbn [concat length]. rewrite app_nil_r. lia. }
  - cbn [length] in X. congruence.
  - cbn [length] in X. rewrite E in X. inversion X; subst r. clear X.
    destruct (N.ltb_spec (hd 0%N a) (hd 0%N b)) as [L|L].
    + destruct (bk_first_lost a b [] out fuel _ Fam L E) as (new & En & Nin).
      apply app_inv_head in En. subst new.
      destruct M as [M|(x & M & Lx & s & [<-|[]] & <-)].
      * exists r'. split; auto. f_equal. symmetry. clear - Nin. induction r' as [|y r' IH]; auto.
        cbn. destruct (N.eqb_spec y (hd 0%N b)) as [->|Ny]; [exfalso; apply Nin; left; auto|].
        cbn. f_equal. apply IH. intros H. apply Nin. right; auto.
      * exists (hd 0%N b :: r'). split; auto. f_equal. cbn. rewrite N.eqb_refl. cbn.
        symmetry. clear - Nin. induction r' as [|y r' IH]; auto.
        cbn. destruct (N.eqb_spec y (hd 0%N b)) as [->|Ny]; [exfalso; apply Nin; left; auto|].
        cbn. f_equal. apply IH. intros H. apply Nin. right; auto.
    + destruct M as [M|(x & M & Lx & s & [<-|[]] & <-)]; [|lia]. exists r'. auto.
Qed.
