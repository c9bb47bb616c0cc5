(** What a Barbay-Kenyon call that returns has appended: the common values that the first
    pass over the sets does not go by. *)

From Coq Require Import Permutation Sorted.
From Verif Require Import Base Facts Spec SpecBarbay Reference ReferenceFacts BarbayFacts BarbayThms.

Lemma first_filter : forall s e pos, first_at_least s e pos ->
  hd (last s 0%N) (filter (N.leb e) s) = at_ s pos.
Proof.
  intros s e pos (L & G & B). rewrite <- (firstn_skipn (N.to_nat pos) s) at 2. rewrite filter_app.
  assert (E : filter (N.leb e) (firstn (N.to_nat pos) s) = []).
  { assert (X : Forall (fun x => (x < e)%N) (firstn (N.to_nat pos) s)).
    { apply Forall_forall. intros x Hx. apply In_nth_error in Hx. destruct Hx as (j & Hj).
      assert (Hl : j < length (firstn (N.to_nat pos) s)) by (apply nth_error_Some; congruence).
      rewrite firstn_length in Hl.
      specialize (B (N.of_nat j) ltac:(lia)). unfold at_ in B. rewrite Nat2N.id in B.
      apply nth_error_nth with (d := 0%N) in Hj.
      rewrite <- (firstn_skipn (N.to_nat pos) s) in B. rewrite app_nth1 in B by (rewrite firstn_length; lia).
      rewrite Hj in B. exact B. }
    clear - X. induction X as [|x l Hx _ IH]; auto. cbn [filter]. destruct (N.leb_spec e x); [lia|auto]. }
  rewrite E. cbn [app]. 
  assert (D : skipn (N.to_nat pos) s = at_ s pos :: skipn (S (N.to_nat pos)) s).
  { unfold at_. clear - L. assert (H : N.to_nat pos < length s) by lia. revert H. generalize (N.to_nat pos) as n. clear.
    induction s as [|x s IH]; intros n H; [cbn in H; lia|]. destruct n as [|n]; [reflexivity|].
    cbn [skipn nth]. apply IH. cbn [length] in H. lia. }
  rewrite D. cbn [filter]. destruct (N.leb_spec e (at_ s pos)); [reflexivity|lia].
Qed.

Lemma none_filter : forall s e, increasing s -> s <> [] -> (at_ s (N.of_nat (length s) - 1) < e)%N ->
  hd (last s 0%N) (filter (N.leb e) s) = at_ s (N.of_nat (length s) - 1).
Proof.
  intros s e Inc Ne L. assert (E : filter (N.leb e) s = []).
  { assert (X : Forall (fun x => (x < e)%N) s).
    { apply Forall_forall. intros x Hx. apply in_at in Hx. destruct Hx as (j & J & <-).
      eapply N.le_lt_trans; [|exact L]. apply at_mono_le; auto; lia. }
    clear - X. induction X as [|x l Hx _ IH]; auto. cbn [filter]. destruct (N.leb_spec e x); [lia|auto]. }
  rewrite E. cbn [hd]. apply last_at.
Qed.

Section Exact.
Variables (sets : list (list N)) (s0 : list N).
Hypothesis K : 2 <= length sets.
Hypothesis Inc : Forall increasing sets.
Hypothesis Len : Forall (fun s => (N.of_nat (length s) < 2 ^ 31)%N) sets.
Hypothesis Nonempty : Forall (fun s => s <> []) sets.
Hypothesis Small : Forall (Forall (fun x => x < 2 ^ 64 - 1)%N) sets.
Hypothesis First : nth_error sets 0 = Some s0.

Notation k := (length sets).
Notation size s := (N.of_nat (length s)).

(** One position is moved. *)
Definition moved (ps ps' : list N) (i : nat) (pos : N) : Prop :=
  forall j, nth_error ps' j = if j =? i then Some pos else nth_error ps j.

Lemma step_inv : forall fuel ps e i occr out r,
  i < k -> 1 <= occr < k -> inside sets ps -> recentp sets ps i occr e ->
  bk_loop fuel sets k ps e i occr out = Ok r ->
  exists fuel' s p pos,
    fuel = S fuel' /\ nth_error sets i = Some s /\ nth_error ps i = Some p /\
    increasing s /\ s <> [] /\ (p < size s)%N /\ (p <= pos < size s)%N /\
    ( (at_ s p <= e /\ e <= at_ s (size s - 1))%N /\ first_at_least s e pos
      \/ (e < at_ s p)%N /\ pos = (p + 1)%N
      \/ (at_ s p < e /\ at_ s (size s - 1) < e)%N /\ pos = (size s - 1)%N ) /\
    ( at_ s pos = e /\ S occr = k /\ (pos + 1 = size s)%N /\ r = out ++ [e]
      \/ (at_ s pos = e /\ S occr = k /\ (pos + 1 < size s)%N /\
          exists ps', moved ps ps' i (pos + 1) /\ inside sets ps' /\
            recentp sets ps' ((i + 1) mod k) 1 (at_ s (pos + 1)) /\
            (forall j t q, nth_error sets j = Some t -> nth_error ps' j = Some q -> (at_ t q <= at_ s (pos + 1))%N) /\
            bk_loop fuel' sets k ps' (at_ s (pos + 1)) ((i + 1) mod k) 1 (out ++ [e]) = Ok r)
      \/ (at_ s pos = e /\ S occr < k /\
          exists ps', moved ps ps' i pos /\ inside sets ps' /\ recentp sets ps' ((i + 1) mod k) (S occr) e /\
            bk_loop fuel' sets k ps' e ((i + 1) mod k) (S occr) out = Ok r)
      \/ at_ s pos <> e /\ (p + 1 = size s)%N /\ r = out
      \/ (at_ s pos <> e /\ (p + 1 < size s)%N /\
          exists ps', moved ps ps' i pos /\ inside sets ps' /\ recentp sets ps' ((i + 1) mod k) 1 (at_ s pos) /\
            bk_loop fuel' sets k ps' (at_ s pos) ((i + 1) mod k) 1 out = Ok r) ).
Proof.
  intros fuel ps e i occr out r Hi Ho I R H.
  destruct (nth_error sets i) as [s|] eqn:Es; [|apply nth_error_None in Es; lia].
  destruct (set_facts sets Inc Len Nonempty Small i s Es) as (Sin & Sinc & Slen & Sne & Ssm).
  destruct (proj2 I i s Es) as (p & P1 & P2).
  assert (Ne : e <> (2 ^ 64 - 1)%N).
  { intros X. destruct (recentp_in sets ps i occr e I (proj1 Ho) R) as (t & Ht & He).
    pose proof (proj1 (Forall_forall _ _) Small t Ht) as Sm.
    pose proof (proj1 (Forall_forall _ _) Sm e He) as Lt. cbn beta in Lt.
    rewrite X in Lt. revert Lt. apply N.lt_irrefl. }
  destruct fuel as [|fuel]; cbn [bk_loop] in H; destruct (N.eqb_spec e (2 ^ 64 - 1)); try contradiction; [discriminate H|].
  rewrite (vget_nth _ _ _ _ Es), (vget_nth _ _ _ _ P1) in H. cbn [bind] in H.
  destruct (exponentialSearch_any s e p Sinc Slen P2) as (pos & Epos & Q).
  rewrite Epos in H. cbn [bind] in H.
  assert (Hm : (i + 1) mod k < k) by (apply Nat.mod_upper_bound; lia).
  assert (Hip : i < length ps) by (destruct I as [-> _]; auto).
  assert (Lpos : (p <= pos)%N).
  { destruct Q as [((Q1 & Q2) & Q3 & Q4 & Q5)|[(Q1 & ->)|((Q1 & Q2) & ->)]]; [|lia|lia].
    destruct (N.le_gt_cases p pos) as [|G]; auto.
    pose proof (at_mono s pos p Sinc G P2). lia. }
  apply bind_inv in H. destruct H as (v & Hv & H). apply vgetN_at_inv in Hv.
  destruct Hv as [Hpos ->].
  exists fuel, s, p, pos. do 6 (split; [solve [auto]|]). split; [lia|]. split; [exact Q|].
  destruct (vset_ok ps i pos Hip) as (ps1 & Ep1).
  pose proof (inside_set sets ps i s pos ps1 I Es Hpos Ep1) as I1.
  destruct (vset_nth _ _ _ _ Ep1) as [Len1 Nth1].
  assert (Pi1 : nth_error ps1 i = Some pos) by (rewrite Nth1, Nat.eqb_refl; auto).
  destruct (N.eqb_spec (at_ s pos) e) as [Ev|Nv].
  - rewrite Ep1 in H. cbn [bind] in H.
    pose proof (recentp_step sets ps ps1 i s pos occr e Hi (proj2 Ho) R Es Ep1 Ev) as R1.
    destruct (Nat.eqb_spec (S occr) k) as [Ek|Ek]; cbn [andb orb negb] in H.
    + rewrite Ek in R1. pose proof (recentp_all sets ps1 ((i + 1) mod k) e Hm R1) as All.
      rewrite (vget_nth _ _ _ _ Pi1) in H. cbn [bind] in H.
      destruct (N.eqb_spec (pos + 1) (size s)) as [El|El].
      { injection H as <-. left. auto. }
      right; left. assert (Hn : (pos + 1 < size s)%N) by lia.
      rewrite vgetN_at in H by auto. cbn [bind] in H.
      assert (Hip1 : i < length ps1) by lia.
      destruct (vset_ok ps1 i (pos + 1)%N Hip1) as (ps2 & Ep2). rewrite Ep2 in H.
      cbn [bind] in H.
      pose proof (inside_set sets ps1 i s (pos + 1)%N ps2 I1 Es Hn Ep2) as I2.
      destruct (vset_nth _ _ _ _ Ep2) as [Len2 Nth2].
      do 3 (split; [solve [auto]|]). exists ps2. split.
      { intros j. rewrite Nth2. destruct (Nat.eqb_spec j i); auto. rewrite Nth1.
        destruct (Nat.eqb_spec j i); [contradiction|auto]. }
      split; auto. split; [eapply recentp_one; eauto; rewrite Nth2, Nat.eqb_refl; auto|]. split; auto.
      intros j t q Ht Hq. rewrite Nth2 in Hq. destruct (Nat.eqb_spec j i) as [->|Nj].
      * injection Hq as <-. rewrite Es in Ht. injection Ht as <-.
        apply N.le_refl.
      * pose proof (at_mono s pos (pos + 1) Sinc ltac:(lia) Hn).
        destruct (All j t Ht) as (q' & Hq' & E). rewrite Hq in Hq'. injection Hq' as <-. lia.
    + right; right; left. do 2 (split; [solve [auto|lia]|]). exists ps1. auto.
  - cbn [bind andb orb negb] in H.
    destruct (Nat.eqb_spec occr k); [lia|]. cbn [andb orb negb] in H.
    rewrite (vget_nth _ _ _ _ P1) in H. cbn [bind] in H. right; right; right.
    destruct (N.eqb_spec (p + 1) (size s)) as [El|El].
    { injection H as <-. left. auto. }
    rewrite Ep1 in H. cbn [bind] in H. right. split; auto. split; [lia|]. exists ps1.
    do 2 (split; [solve [auto]|]). split; auto. eapply recentp_one; eauto.
Qed.

(** The output only grows. *)
Lemma out_grows : forall fuel ps e i occr out r,
  i < k -> 1 <= occr < k -> inside sets ps -> recentp sets ps i occr e ->
  bk_loop fuel sets k ps e i occr out = Ok r -> exists new, r = out ++ new.
Proof.
  intros fuel ps e i occr out r Hi Ho I R H.
  destruct (proj2 I 0 s0 First) as (q & Hq & _).
  destruct (walk_above sets K Inc Len Nonempty Small fuel ps e i occr out r 0 s0 q Hi Ho I R First Hq H) as (new & E & _).
  eauto.
Qed.

Lemma skip_next : forall (l : list (list N)) i s, nth_error l i = Some s -> skipn i l = s :: skipn (S i) l.
Proof.
  clear. intros l. induction l as [|t l IH]; intros i s H; destruct i; try discriminate; cbn [nth_error] in H.
  - injection H as ->. reflexivity.
  - cbn [skipn]. apply IH. auto.
Qed.

(** The next position of the first pass. *)
Lemma next_set : forall i, 1 <= i < k -> (i + 1) mod k = 0 /\ S i = k \/ (i + 1) mod k = S i /\ S i < k.
Proof.
  intros i H. destruct (Nat.eq_dec (i + 1) k) as [E|E].
  - left. rewrite E, Nat.mod_same by lia. lia.
  - right. rewrite Nat.mod_small by lia. lia.
Qed.

(** Before the first pass ends: the sets from [i] on are at their first values. *)
Definition fresh (ps : list N) (i : nat) : Prop :=
  forall j s p, i <= j -> nth_error sets j = Some s -> nth_error ps j = Some p -> p = 0%N.

Lemma fresh_moved : forall ps ps' i pos, fresh ps i -> moved ps ps' i pos -> fresh ps' (S i).
Proof.
  clear. intros ps ps' i pos F M j s p Hj Hs Hp. rewrite M in Hp. destruct (Nat.eqb_spec j i); [lia|].
  apply (F j s p); auto. lia.
Qed.

(** A value that is passed by is not returned. *)
Lemma lost : forall fuel ps e i occr out r x,
  1 <= i < k -> 1 <= occr <= i -> inside sets ps -> recentp sets ps i occr e -> fresh ps i ->
  In x (passed_by e (skipn i sets)) ->
  bk_loop fuel sets k ps e i occr out = Ok r -> exists new, r = out ++ new /\ ~ In x new.
Proof.
  induction fuel as [|fuel IH]; intros ps e i occr out r x Hi Ho I R F Hx H;
    destruct (step_inv _ ps e i occr out r ltac:(lia) ltac:(lia) I R H) as (fuel' & s & p & pos & Ef & Es & Ep & Sinc & Sne & P2 & P3 & Q & C);
    [discriminate Ef|]. injection Ef as <-.
  assert (p = 0%N) by (eapply F; eauto). subst p.
  rewrite (skip_next _ _ _ Es) in Hx. cbn [passed_by] in Hx. rewrite hd_at in Hx.
  assert (Wrap : forall e', In x (passed_by e' (skipn (S i) sets)) -> (i + 1) mod k = S i /\ S i < k).
  { intros e' Hin. destruct (next_set i Hi) as [(_ & E)|]; auto. rewrite E, skipn_all in Hin. destruct Hin. }
  (* what the set leaves to look for *)
  assert (Main : forall e', In x (passed_by e' (skipn (S i) sets)) -> at_ s pos = e' ->
    exists new, r = out ++ new /\ ~ In x new).
  { intros e' Hin Ee. destruct (Wrap e' Hin) as (Ew & Hw). rewrite Ew in C.
    destruct C as [(_ & C & _)|[(_ & C & _)|[(C1 & C2 & ps' & M & I' & R' & H')|[(C1 & C2 & ->)|(C1 & C2 & ps' & M & I' & R' & H')]]]].
    - lia.
    - lia.
    - apply (IH ps' e (S i) (S occr)); auto; [lia|lia|eapply fresh_moved; eauto|]. rewrite <- C1, Ee. exact Hin.
    - exists []. rewrite app_nil_r. auto.
    - apply (IH ps' (at_ s pos) (S i) 1); auto; [lia|lia|eapply fresh_moved; eauto|]. rewrite Ee. exact Hin. }
  destruct Q as [((Q1 & Q2) & Q3)|[(Q1 & Q2)|((Q1 & Q2) & Q3)]].
  - destruct (N.ltb_spec e (at_ s 0)); [lia|]. apply (Main _ Hx). symmetry. apply first_filter. auto.
  - destruct (N.ltb_spec e (at_ s 0)); [|lia]. change (0 + 1)%N with 1%N in Q2. subst pos.
    pose proof (at_mono s 0 1 Sinc ltac:(lia) ltac:(lia)) as M1.
    destruct Hx as [Hx|Hx]; [|apply (Main _ Hx); reflexivity].
    destruct C as [(C & _)|[(C & _)|[(C & _)|[(C1 & C2 & ->)|(C1 & C2 & ps' & M & I' & R' & H')]]]]; try lia.
    assert (Pi : nth_error ps' i = Some 1%N) by (rewrite M, Nat.eqb_refl; auto).
    destruct (walk_above sets K Inc Len Nonempty Small fuel ps' (at_ s 1) ((i + 1) mod k) 1 out r i s 1%N) as (new & En & Fn); auto.
    { apply Nat.mod_upper_bound. lia. }
    exists new. split; auto. intros Hin. rewrite Forall_forall in Fn. specialize (Fn x Hin). cbn beta in Fn. lia.
  - destruct (N.ltb_spec e (at_ s 0)); [lia|]. apply (Main _ Hx). rewrite Q3. symmetry. apply none_filter; auto.
Qed.

(** The walk is on the way to [x]: the sets visited are at values up to the one looked for,
    and the first pass, if it is not over, will not pass [x] by. *)
Definition ahead (ps : list N) (e : N) (i : nat) (x : N) : Prop :=
  (e <= x)%N /\ exists vis, visited sets ps e vis /\
    (vis = k \/ vis = i /\ ~ In x (passed_by e (skipn i sets))).

Lemma ahead_moved : forall ps ps' e i s pos vis x, visited sets ps e vis -> vis = k \/ vis = i ->
  i < k -> nth_error sets i = Some s -> moved ps ps' i pos -> (e <= at_ s pos)%N -> (at_ s pos <= x)%N ->
  (vis = i -> i < k -> ~ In x (passed_by (at_ s pos) (skipn (S i) sets))) ->
  ahead ps' (at_ s pos) ((i + 1) mod k) x.
Proof.
  intros ps ps' e i s pos vis x (V1 & V2) Hv Hi Hs V Le La Hx. split; auto.
  destruct Hv as [->| ->].
  - exists k. split; auto. split; auto. intros j t p Ht Hp. rewrite V in Hp.
    assert (Hj : j < k) by (apply nth_error_Some; congruence).
    destruct (Nat.ltb_spec j k); [|lia].
    destruct (Nat.eqb_spec j i) as [->|N].
    + rewrite Hs in Ht. inversion Ht; inversion Hp; subst. apply N.le_refl.
    + specialize (V2 j t p Ht Hp). destruct (Nat.ltb_spec j k); lia.
  - exists (S i). split.
    + split; [lia|]. intros j t p Ht Hp. rewrite V in Hp.
      destruct (Nat.eqb_spec j i) as [->|N].
      * rewrite Hs in Ht. inversion Ht; inversion Hp; subst.
        destruct (Nat.ltb_spec i (S i)); [apply N.le_refl|lia].
      * specialize (V2 j t p Ht Hp). destruct (Nat.ltb_spec j i), (Nat.ltb_spec j (S i)); lia.
    + destruct (next_set i ltac:(lia)) as [(_ & E)|(E & E')]; [auto|]. right. rewrite E. auto.
Qed.

(** A common value that is not passed by is returned. *)
Lemma kept : forall fuel ps e i occr out r x,
  i < k -> 1 <= occr < k -> inside sets ps -> recentp sets ps i occr e ->
  common sets x -> ahead ps e i x ->
  bk_loop fuel sets k ps e i occr out = Ok r -> exists new, r = out ++ new /\ In x new.
Proof.
  induction fuel as [|fuel IH]; intros ps e i occr out r x Hi Ho I R Cx (Le & vis & V & Hv) H;
    destruct (step_inv _ ps e i occr out r ltac:(lia) ltac:(lia) I R H) as (fuel' & s & p & pos & Ef & Es & Ep & Sinc & Sne & P2 & P3 & Q & C);
    [discriminate Ef|]. injection Ef as <-.
  assert (Hm : (i + 1) mod k < k) by (apply Nat.mod_upper_bound; lia).
  assert (Hv' : vis = k \/ vis = i) by tauto.
  destruct (common_at sets x i s Cx Es) as (jx & Jx & Ax).
  assert (Vi := proj2 V i s p Es Ep).
  assert (Next : (e <= at_ s pos)%N /\ (at_ s pos <= x)%N /\
    (vis = i -> i < k -> ~ In x (passed_by (at_ s pos) (skipn (S i) sets)))).
  { destruct Q as [((Q1 & Q2) & Q3)|[(Q1 & Q2)|((Q1 & Q2) & Q3)]].
    - assert (Q3' := Q3). destruct Q3' as (G1 & G2 & G3). split; auto. split.
      + destruct (N.le_gt_cases pos jx) as [G|G]; [rewrite <- Ax; apply at_mono_le; auto|].
        specialize (G3 jx G). lia.
      + intros -> _. destruct Hv as [Hv|(_ & Hv)]; [lia|]. rewrite (skip_next _ _ _ Es) in Hv. cbn [passed_by] in Hv.
        rewrite hd_at in Hv. destruct (Nat.ltb_spec i i); [lia|]. subst p.
        destruct (N.ltb_spec e (at_ s 0)); [lia|]. rewrite (first_filter _ _ _ Q3) in Hv. exact Hv.
    - destruct (Nat.ltb_spec i vis); [lia|]. subst p. change (0 + 1)%N with 1%N in Q2. subst pos.
      destruct Hv as [Hv|(-> & Hv)]; [lia|]. rewrite (skip_next _ _ _ Es) in Hv. cbn [passed_by] in Hv.
      rewrite hd_at in Hv. destruct (N.ltb_spec e (at_ s 0)); [|lia].
      pose proof (at_mono s 0 1 Sinc ltac:(lia) ltac:(lia)) as M1. split; [lia|]. split.
      + destruct (N.eq_dec jx 0) as [->|]; [exfalso; apply Hv; left; auto|].
        rewrite <- Ax. apply at_mono_le; auto. lia.
      + intros _ _ Hin. apply Hv. right. exact Hin.
    - exfalso. pose proof (at_mono_le s jx (size s - 1) Sinc ltac:(lia) ltac:(lia)). lia. }
  destruct Next as (N1 & N2 & N3).
  destruct C as [(C1 & C2 & C3 & ->)|[(C1 & C2 & C3 & ps' & M & I' & R' & All & H')|[(C1 & C2 & ps' & M & I' & R' & H')|[(C1 & C2 & ->)|(C1 & C2 & ps' & M & I' & R' & H')]]]].
  - exists [e]. split; auto. left. rewrite <- Ax, <- C1.
    assert (jx <= pos)%N by lia.
    assert (X := at_mono_le s jx pos Sinc H0 ltac:(lia)). lia.
  - destruct (N.eq_dec e x) as [->|Nx].
    + destruct (out_grows fuel ps' (at_ s (pos + 1)) ((i + 1) mod k) 1 (out ++ [x]) r Hm ltac:(lia) I' R' H') as (new & ->).
      exists (x :: new). rewrite <- app_assoc. split; auto. left. auto.
    + assert (N4 : (at_ s (pos + 1) <= x)%N).
      { rewrite <- Ax. apply at_mono_le; auto. destruct (N.lt_ge_cases pos jx); [lia|].
        pose proof (at_mono_le s jx pos Sinc ltac:(lia) ltac:(lia)). lia. }
      destruct (IH ps' (at_ s (pos + 1)) ((i + 1) mod k) 1 (out ++ [e]) r x Hm ltac:(lia) I' R' Cx) as (new & -> & Hin); auto.
      { split; auto. exists k. split; auto. split; [lia|]. intros j t q Ht Hq.
        assert (Hj : j < k) by (apply nth_error_Some; congruence).
        destruct (Nat.ltb_spec j k); [|lia]. eauto. }
      exists (e :: new). rewrite <- app_assoc. split; auto. right. auto.
  - rewrite C1 in *. destruct (IH ps' e ((i + 1) mod k) (S occr) out r x Hm ltac:(lia) I' R' Cx) as (new & -> & Hin); eauto.
    rewrite <- C1. eapply ahead_moved; eauto; rewrite C1; auto.
  - exfalso. assert (Ex : at_ s p = at_ s (size s - 1)) by (f_equal; lia).
    pose proof (at_mono_le s jx (size s - 1) Sinc ltac:(lia) ltac:(lia)).
    assert (pos = p) by lia. subst pos. apply C1. lia.
  - destruct (IH ps' (at_ s pos) ((i + 1) mod k) 1 out r x Hm ltac:(lia) I' R' Cx) as (new & -> & Hin); eauto.
    eapply ahead_moved; eauto.
Qed.
End Exact.

(** ** The calls *)

Lemma filter_keeps : forall (f : N -> bool) c, (forall x, In x c -> f x = true) -> filter f c = c.
Proof.
  intros f c. induction c as [|x c IH]; intros H; auto. cbn [filter]. rewrite H by (left; auto).
  f_equal. apply IH. intros y Hy. apply H. right. auto.
Qed.

(** What the call appends is known. *)
Lemma bk_exact : forall first others out fuel r,
  bk_family (first :: others) ->
  length (first :: others) * length (concat (first :: others)) <= fuel ->
  barbayKenyon fuel (first :: others) (length (first :: others)) out = Ok r ->
  exists c, is_intersection (first :: others) c /\
    r = out ++ filter (fun x => negb (existsb (N.eqb x) (passed_by (hd 0%N first) others))) c.
Proof.
  intros first others out fuel r Fam F E.
  destruct (bk_any first others out fuel Fam F) as [(X & _)|(r' & X & M)]; [congruence|].
  rewrite E in X. injection X as ->.
  destruct Fam as (K & Inc & Len & NE & Sm). unfold all_but_first in M.
  remember (first :: others) as sets eqn:Es.
  assert (E0 : nth_error sets 0 = Some first) by (rewrite Es; reflexivity).
  assert (E1 : exists s1, nth_error sets 1 = Some s1).
  { destruct (nth_error sets 1) eqn:E1; eauto. apply nth_error_None in E1. lia. }
  destruct E1 as (s1 & E1).
  destruct (set_facts sets Inc Len NE Sm 0 first E0) as (_ & Sinc0 & _ & Sne0 & Ssm0).
  assert (Sk : skipn 1 sets = others) by (rewrite Es; reflexivity).
  assert (Loop : bk_loop fuel sets (length sets) (repeat 0%N (length sets)) (hd 0%N first) 1 1 out = Ok (out ++ r')).
  { revert E. unfold barbayKenyon. destruct (Nat.eqb_spec (length sets) 0); [lia|].
    rewrite (vget_nth _ _ _ _ E0). cbn [bind]. destruct first as [|e rest]; [contradiction|].
    cbn [vget nth_error bind]. rewrite (vget_nth _ _ _ _ E1). cbn [bind hd]. auto. }
  assert (Hrep : forall j p, nth_error (repeat 0%N (length sets)) j = Some p -> p = 0%N).
  { clear. intros j p H. apply nth_error_In in H. eapply repeat_spec; eauto. }
  assert (I0 : inside sets (repeat 0%N (length sets))).
  { split; [apply repeat_length|]. intros j s Hs. exists 0%N.
    assert (j < length sets) by (apply nth_error_Some; congruence).
    split; [apply nth_error_repeat; auto|].
    destruct (set_facts sets Inc Len NE Sm j s Hs) as (_ & _ & _ & Tne & _).
    destruct s; [contradiction|cbn; lia]. }
  assert (R0 : recentp sets (repeat 0%N (length sets)) 1 1 (hd 0%N first)).
  { replace 1 with ((0 + 1) mod length sets) at 1 by (rewrite Nat.mod_small; lia).
    apply (recentp_one sets (repeat 0%N (length sets)) 0 first 0%N); auto; [lia| |symmetry; apply hd_at].
    apply nth_error_repeat. lia. }
  assert (Lost : forall x, In x r' -> negb (existsb (N.eqb x) (passed_by (hd 0%N first) others)) = true).
  { intros x Hx. destruct (existsb (N.eqb x) (passed_by (hd 0%N first) others)) eqn:Ex; auto. exfalso.
    apply existsb_exists in Ex. destruct Ex as (y & Hy & Exy). apply N.eqb_eq in Exy. subst y.
    destruct (lost sets K Inc Len NE Sm fuel _ _ 1 1 out (out ++ r') x
                ltac:(lia) ltac:(lia) I0 R0) as (new & En & Nin); auto.
    - intros j s p _ _ Hp. eapply Hrep; eauto.
    - rewrite Sk. exact Hy.
    - apply app_inv_head in En. subst new. auto. }
  destruct M as [M|(x & M & Lx & s & Hs & Ehd)].
  - exists r'. split; auto. f_equal. symmetry. apply filter_keeps. auto.
  - exists (x :: r'). split; auto. f_equal. cbn [filter].
    destruct (existsb (N.eqb x) (passed_by (hd 0%N first) others)) eqn:Ex; cbn [negb]; [symmetry; apply filter_keeps; auto|].
    exfalso. destruct M as (Minc & Mem).
    destruct (kept sets first K Inc Len NE Sm E0 fuel _ _ 1 1 out (out ++ r') x
                ltac:(lia) ltac:(lia) I0 R0) as (new & En & Hin); auto.
    + apply Mem. left. auto.
    + split; [lia|]. exists 1. split.
      * split; [lia|]. intros j t p Ht Hp. apply Hrep in Hp. subst p.
        destruct (Nat.ltb_spec j 1); auto. assert (j = 0) by lia. subst j. rewrite E0 in Ht. injection Ht as <-.
        rewrite hd_at. apply N.le_refl.
      * right. split; auto. rewrite Sk. intros Hin.
        assert (X : existsb (N.eqb x) (passed_by (hd 0%N first) others) = true); [|congruence].
        apply existsb_exists. exists x. split; auto. apply N.eqb_refl.
    + apply app_inv_head in En. subst new. clear Ehd. inversion Minc as [|? ? ? Hall]; subst.
      pose proof (proj1 (Forall_forall _ _) Hall x Hin). lia.
Qed.
