(** Which Barbay-Kenyon calls read outside a set: those whose first pass does, and no others
    if all sets end with the same value. *)

From Coq Require Import Permutation Sorted.
From Verif Require Import Base Facts Spec SpecBarbay Reference ReferenceFacts BarbayFacts BarbayThms BarbayExact.

Section Ends.
Variables (sets : list (list N)).
Hypothesis K : 2 <= length sets.
Hypothesis Inc : Forall increasing sets.
Hypothesis Len : Forall (fun s => (N.of_nat (length s) < 2 ^ 31)%N) sets.
Hypothesis Nonempty : Forall (fun s => s <> []) sets.
Hypothesis Small : Forall (Forall (fun x => x < 2 ^ 64 - 1)%N) sets.

Notation k := (length sets).
Notation size s := (N.of_nat (length s)).

(** A first pass that reads outside a set does not return. *)
Lemma past_fails : forall fuel ps e i occr out r,
  1 <= i < k -> 1 <= occr <= i -> inside sets ps -> recentp sets ps i occr e -> fresh sets ps i ->
  reads_past e (skipn i sets) = true ->
  bk_loop fuel sets k ps e i occr out = Ok r -> False.
Proof.
  induction fuel as [|fuel IH]; intros ps e i occr out r Hi Ho I R F Hx H;
    destruct (step_inv sets K Inc Len Nonempty Small _ ps e i occr out r ltac:(lia) ltac:(lia) I R H) as (fuel' & s & p & pos & Ef & Es & Ep & Sinc & Sne & P2 & P3 & Q & C);
    [discriminate Ef|]. injection Ef as <-.
  assert (p = 0%N) by (eapply F; eauto). subst p.
  rewrite (skip_next _ _ _ Es) in Hx. cbn [reads_past] in Hx. rewrite hd_at in Hx.
  assert (Wrap : forall e', reads_past e' (skipn (S i) sets) = true -> (i + 1) mod k = S i /\ S i < k).
  { intros e' Hin. destruct (next_set sets K i Hi) as [(_ & E)|]; auto. rewrite E, skipn_all in Hin. discriminate Hin. }
  assert (Main : forall e', reads_past e' (skipn (S i) sets) = true -> at_ s pos = e' ->
    (1 < size s)%N \/ at_ s pos = e -> False).
  { intros e' Hin Ee Hs. destruct (Wrap e' Hin) as (Ew & Hw). rewrite Ew in C.
    destruct C as [(_ & C & _)|[(_ & C & _)|[(C1 & C2 & ps' & M & I' & R' & H')|[(C1 & C2 & C3)|(C1 & C2 & ps' & M & I' & R' & H')]]]].
    - lia.
    - lia.
    - apply (IH ps' e (S i) (S occr) out r); auto; [lia|lia|eapply fresh_moved; eauto|]. rewrite <- C1, Ee. exact Hin.
    - destruct Hs as [Hs|Hs]; [lia|contradiction].
    - apply (IH ps' (at_ s pos) (S i) 1 out r); auto; [lia|lia|eapply fresh_moved; eauto|]. rewrite Ee. exact Hin. }
  assert (El : last s 0%N = at_ s (size s - 1)) by apply last_at.
  destruct Q as [((Q1 & Q2) & Q3)|[(Q1 & Q2)|((Q1 & Q2) & Q3)]].
  - destruct (N.ltb_spec e (at_ s 0)); [lia|]. rewrite El in Hx at 1.
    destruct (N.ltb_spec (at_ s (size s - 1)) e); [lia|]. cbn [andb] in Hx.
    apply (Main _ Hx); [symmetry; apply first_filter; auto|].
    destruct (N.lt_ge_cases 1 (size s)) as [|G]; auto. right.
    assert (pos = 0%N) by lia. assert (E1 : (size s - 1 = 0)%N) by lia. rewrite E1 in Q2. subst pos. lia.
  - destruct (N.ltb_spec e (at_ s 0)); [|lia]. change (0 + 1)%N with 1%N in Q2. subst pos.
    destruct (Nat.eqb_spec (length s) 1); [lia|]. cbn [orb] in Hx.
    apply (Main _ Hx); [reflexivity|left; lia].
  - destruct (N.ltb_spec e (at_ s 0)); [lia|]. rewrite El in Hx at 1.
    destruct (N.ltb_spec (at_ s (size s - 1)) e); [|lia]. cbn [andb] in Hx.
    destruct (Nat.eqb_spec (length s) 1); [discriminate Hx|].
    apply (Main _ Hx); [rewrite Q3; symmetry; apply none_filter; auto|left; lia].
Qed.

(** With one end for all the sets nothing else does. *)
Variable L : N.
Hypothesis Last : Forall (fun s => last s 0%N = L) sets.

Lemma past_only : forall fuel ps e i occr out vis,
  i < k -> 1 <= occr < k -> inside sets ps -> recentp sets ps i occr e -> (e <= L)%N ->
  visited sets ps e vis -> vis = k \/ vis = i /\ reads_past e (skipn i sets) = false ->
  bk_loop fuel sets k ps e i occr out <> UB OutOfBounds.
Proof.
  induction fuel as [|fuel IH]; intros ps e i occr out vis Hi Ho I R Le V Hv;
    (assert (Ne : e <> (2 ^ 64 - 1)%N) by
      (intros X; destruct (recentp_in sets ps i occr e I (proj1 Ho) R) as (t & Ht & He);
       pose proof (proj1 (Forall_forall _ _) Small t Ht) as Sm;
       pose proof (proj1 (Forall_forall _ _) Sm e He) as Lt; cbn beta in Lt;
       rewrite X in Lt; revert Lt; apply N.lt_irrefl));
    cbn [bk_loop]; destruct (N.eqb_spec e (2 ^ 64 - 1)); try contradiction; [discriminate|].
  destruct (nth_error sets i) as [s|] eqn:Es; [|apply nth_error_None in Es; lia].
  destruct (set_facts sets Inc Len Nonempty Small i s Es) as (Sin & Sinc & Slen & Sne & Ssm).
  destruct (proj2 I i s Es) as (p & P1 & P2).
  rewrite (vget_nth _ _ _ _ Es), (vget_nth _ _ _ _ P1). cbn [bind].
  destruct (exponentialSearch_any s e p Sinc Slen P2) as (pos & Epos & Q).
  rewrite Epos. cbn [bind].
  assert (Hm : (i + 1) mod k < k) by (apply Nat.mod_upper_bound; lia).
  assert (Hip : i < length ps) by (destruct I as [-> _]; auto).
  assert (El : at_ s (size s - 1) = L).
  { rewrite <- last_at. apply (proj1 (Forall_forall _ _) Last s Sin). }
  assert (Vi := proj2 V i s p Es P1).
  assert (Hv' : vis = k \/ vis = i) by tauto.
  assert (Next : (pos < size s)%N /\ (e <= at_ s pos)%N /\
    (vis = i -> reads_past (at_ s pos) (skipn (S i) sets) = false)).
  { destruct Q as [((Q1 & Q2) & Q3)|[(Q1 & Q2)|((Q1 & Q2) & Q3)]]; [| |rewrite El in Q2; lia].
    - assert (Q3' := Q3). destruct Q3' as (G1 & G2 & G3). split; auto. split; auto.
      intros ->. destruct Hv as [Hv|(_ & Hv)]; [lia|]. rewrite (skip_next _ _ _ Es) in Hv. cbn [reads_past] in Hv.
      rewrite hd_at in Hv. destruct (Nat.ltb_spec i i); [lia|]. subst p.
      destruct (N.ltb_spec e (at_ s 0)); [lia|]. rewrite last_at, El in Hv.
      destruct (N.ltb_spec L e); [lia|]. cbn [andb] in Hv.
      rewrite <- El, <- last_at, (first_filter _ _ _ Q3) in Hv. exact Hv.
    - destruct (Nat.ltb_spec i vis); [lia|]. subst p. change (0 + 1)%N with 1%N in Q2. subst pos.
      destruct Hv as [Hv|(-> & Hv)]; [lia|]. rewrite (skip_next _ _ _ Es) in Hv. cbn [reads_past] in Hv.
      rewrite hd_at in Hv. destruct (N.ltb_spec e (at_ s 0)); [|lia].
      apply orb_false_iff in Hv. destruct Hv as (Hl & Hv). apply Nat.eqb_neq in Hl.
      pose proof (at_mono s 0 1 Sinc ltac:(lia) ltac:(lia)) as M1. split; [lia|]. split; [lia|].
      intros _. exact Hv. }
  destruct Next as (Hpos & N1 & N2).
  assert (Top : forall q, (q < size s)%N -> (at_ s q <= L)%N).
  { intros q Hq. rewrite <- El. apply at_mono_le; auto; lia. }
  rewrite vgetN_at by auto. cbn [bind].
  destruct (vset_ok ps i pos Hip) as (ps1 & Ep1).
  pose proof (inside_set sets ps i s pos ps1 I Es Hpos Ep1) as I1.
  destruct (vset_nth _ _ _ _ Ep1) as [Len1 Nth1].
  assert (Pi1 : nth_error ps1 i = Some pos) by (rewrite Nth1, Nat.eqb_refl; auto).
  assert (Vnext : exists vis', visited sets ps1 (at_ s pos) vis' /\
    (vis' = k \/ vis' = (i + 1) mod k /\ reads_past (at_ s pos) (skipn ((i + 1) mod k) sets) = false)).
  { destruct V as (V1 & V2). destruct Hv' as [E| E].
    - exists k. split; auto. split; [lia|]. intros j t q Ht Hq. rewrite Nth1 in Hq.
      assert (Hj : j < k) by (apply nth_error_Some; congruence).
      destruct (Nat.ltb_spec j k); [|lia].
      destruct (Nat.eqb_spec j i) as [->|N].
      + rewrite Es in Ht. inversion Ht; inversion Hq; subst. apply N.le_refl.
      + specialize (V2 j t q Ht Hq). rewrite E in V2. destruct (Nat.ltb_spec j k); lia.
    - exists (S i). split.
      + split; [lia|]. intros j t q Ht Hq. rewrite Nth1 in Hq.
        destruct (Nat.eqb_spec j i) as [->|N].
        * rewrite Es in Ht. inversion Ht; inversion Hq; subst.
          destruct (Nat.ltb_spec i (S i)); [apply N.le_refl|lia].
        * specialize (V2 j t q Ht Hq). rewrite E in V2. destruct (Nat.ltb_spec j i), (Nat.ltb_spec j (S i)); lia.
      + destruct (next_set sets K i ltac:(lia)) as [(_ & E')|(E' & E'')]; [auto|]. right. rewrite E'. auto. }
  destruct Vnext as (vis' & V' & Hv'').
  destruct (N.eqb_spec (at_ s pos) e) as [Ev|Nv].
  - rewrite Ep1. cbn [bind].
    pose proof (recentp_step sets ps ps1 i s pos occr e Hi (proj2 Ho) R Es Ep1 Ev) as R1.
    destruct (Nat.eqb_spec (S occr) k) as [Ek|Ek]; cbn [andb orb negb].
    + rewrite Ek in R1. pose proof (recentp_all sets ps1 ((i + 1) mod k) e Hm R1) as All.
      rewrite (vget_nth _ _ _ _ Pi1). cbn [bind].
      destruct (N.eqb_spec (pos + 1) (size s)) as [El1|El1]; [discriminate|].
      assert (Hn : (pos + 1 < size s)%N) by lia.
      rewrite vgetN_at by auto. cbn [bind].
      assert (Hip1 : i < length ps1) by lia.
      destruct (vset_ok ps1 i (pos + 1)%N Hip1) as (ps2 & Ep2). rewrite Ep2. cbn [bind].
      pose proof (inside_set sets ps1 i s (pos + 1)%N ps2 I1 Es Hn Ep2) as I2.
      destruct (vset_nth _ _ _ _ Ep2) as [Len2 Nth2].
      apply (IH ps2 (at_ s (pos + 1)) ((i + 1) mod k) 1 _ k); auto.
      { eapply recentp_one; eauto. rewrite Nth2, Nat.eqb_refl; auto. }
      split; [lia|]. intros j t q Ht Hq.
      assert (Hj : j < k) by (apply nth_error_Some; congruence).
      destruct (Nat.ltb_spec j k); [|lia]. rewrite Nth2 in Hq. destruct (Nat.eqb_spec j i) as [->|Nj].
      * injection Hq as <-. rewrite Es in Ht. injection Ht as <-. apply N.le_refl.
      * pose proof (at_mono s pos (pos + 1) Sinc ltac:(lia) Hn).
        destruct (All j t Ht) as (q' & Hq' & E). rewrite Hq in Hq'. injection Hq' as <-. lia.
    + rewrite Ev in *. apply (IH ps1 e ((i + 1) mod k) (S occr) out vis'); auto. lia.
  - cbn [bind andb orb negb].
    destruct (Nat.eqb_spec occr k); [lia|]. cbn [andb orb negb].
    rewrite (vget_nth _ _ _ _ P1). cbn [bind].
    destruct (N.eqb_spec (p + 1) (size s)) as [El1|El1]; [discriminate|].
    rewrite Ep1. cbn [bind]. apply (IH ps1 (at_ s pos) ((i + 1) mod k) 1 out vis'); auto.
    eapply recentp_one; eauto.
Qed.
End Ends.

(** ** The calls *)

(** The first step of a call. *)
Lemma bk_start : forall first others out fuel,
  bk_family (first :: others) ->
  let sets := first :: others in
  let ps := repeat 0%N (length sets) in
  barbayKenyon fuel sets (length sets) out = bk_loop fuel sets (length sets) ps (hd 0%N first) 1 1 out /\
  inside sets ps /\ recentp sets ps 1 1 (hd 0%N first) /\ fresh sets ps 1 /\
  visited sets ps (hd 0%N first) 1.
Proof.
  intros first others out fuel (K & Inc & Len & NE & Sm). cbv zeta.
  remember (first :: others) as sets eqn:Es.
  assert (E0 : nth_error sets 0 = Some first) by (rewrite Es; reflexivity).
  assert (E1 : exists s1, nth_error sets 1 = Some s1).
  { destruct (nth_error sets 1) eqn:E1; eauto. apply nth_error_None in E1. lia. }
  destruct E1 as (s1 & E1).
  destruct (set_facts sets Inc Len NE Sm 0 first E0) as (_ & Sinc0 & _ & Sne0 & Ssm0).
  assert (Hrep : forall j p, nth_error (repeat 0%N (length sets)) j = Some p -> p = 0%N).
  { clear. intros j p H. apply nth_error_In in H. eapply repeat_spec; eauto. }
  split; [|split; [|split; [|split]]].
  - unfold barbayKenyon. destruct (Nat.eqb_spec (length sets) 0); [lia|].
    rewrite (vget_nth _ _ _ _ E0). cbn [bind]. destruct first as [|e rest]; [contradiction|].
    cbn [vget nth_error bind]. rewrite (vget_nth _ _ _ _ E1). cbn [bind hd]. auto.
  - split; [apply repeat_length|]. intros j s Hs. exists 0%N.
    assert (j < length sets) by (apply nth_error_Some; congruence).
    split; [apply nth_error_repeat; auto|].
    destruct (set_facts sets Inc Len NE Sm j s Hs) as (_ & _ & _ & Tne & _).
    destruct s; [contradiction|cbn; lia].
  - replace 1 with ((0 + 1) mod length sets) at 1 by (rewrite Nat.mod_small; lia).
    apply (recentp_one sets (repeat 0%N (length sets)) 0 first 0%N); auto; [lia| |symmetry; apply hd_at].
    apply nth_error_repeat. lia.
  - intros j s p _ _ Hp. eapply Hrep; eauto.
  - split; [lia|]. intros j t p Ht Hp. apply Hrep in Hp. subst p.
    destruct (Nat.ltb_spec j 1); auto. assert (j = 0) by lia. subst j. rewrite E0 in Ht. injection Ht as <-.
    rewrite hd_at. apply N.le_refl.
Qed.

Lemma bk_reads_past : forall first others out fuel,
  bk_family (first :: others) ->
  length (first :: others) * length (concat (first :: others)) <= fuel ->
  reads_past (hd 0%N first) others = true ->
  barbayKenyon fuel (first :: others) (length (first :: others)) out = UB OutOfBounds.
Proof.
  intros first others out fuel Fam F P.
  destruct (bk_any first others out fuel Fam F) as [(X & _)|(r & X & _)]; [exact X|]. exfalso.
  destruct (bk_start first others out fuel Fam) as (S1 & I0 & R0 & F0 & _). rewrite S1 in X.
  destruct Fam as (K & Inc & Len & NE & Sm).
  apply (past_fails (first :: others) K Inc Len NE Sm fuel _ _ 1 1 out _ ltac:(lia) ltac:(lia) I0 R0 F0 P X).
Qed.

Lemma bk_same_end : forall first others out fuel L,
  bk_family (first :: others) ->
  Forall (fun s => last s 0%N = L) (first :: others) ->
  length (first :: others) * length (concat (first :: others)) <= fuel ->
  reads_past (hd 0%N first) others = false ->
  exists c, is_intersection (first :: others) c /\
    barbayKenyon fuel (first :: others) (length (first :: others)) out
    = Ok (out ++ filter (fun x => negb (existsb (N.eqb x) (passed_by (hd 0%N first) others))) c).
Proof.
  intros first others out fuel L Fam La F P.
  destruct (bk_any first others out fuel Fam F) as [(X & _)|(r & X & _)].
  - exfalso. destruct (bk_start first others out fuel Fam) as (S1 & I0 & R0 & _ & V0). rewrite S1 in X.
    destruct Fam as (K & Inc & Len & NE & Sm). revert X.
    apply (past_only (first :: others) K Inc Len NE Sm L La fuel _ _ 1 1 out 1 ltac:(lia) ltac:(lia) I0 R0); auto.
    pose proof (Forall_inv La) as E. cbn beta in E. rewrite <- E, hd_at, last_at.
    apply at_mono_le; [exact (Forall_inv Inc)|lia|]. pose proof (Forall_inv NE). destruct first; [contradiction|]. cbn [length]. lia.
  - destruct (bk_exact first others out fuel _ Fam F X) as (c & Hc & Ec). exists c. split; auto. rewrite X. congruence.
Qed.
