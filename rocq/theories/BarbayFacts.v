(** Barbay-Kenyon returns all the common values when no set starts after the first
    set and all sets end with the same value. *)

From Coq Require Import Permutation Sorted.
From Verif Require Import Base Facts Spec Reference ReferenceFacts.

(** Number of values of all the sets that are at least [e]. *)
Definition remaining (sets : list (list N)) (e : N) : nat :=
  length (filter (N.leb e) (concat sets)).

Lemma filter_le_length : forall (f g : N -> bool) l,
  (forall x, f x = true -> g x = true) -> length (filter f l) <= length (filter g l).
Proof.
  intros f g l H. induction l as [|x l IH]; cbn; auto.
  destruct (f x) eqn:E; [rewrite (H x E); cbn; lia|]. destruct (g x); cbn; lia.
Qed.

Lemma filter_lt_length : forall (f g : N -> bool) l y,
  (forall x, f x = true -> g x = true) -> In y l -> f y = false -> g y = true ->
  length (filter f l) < length (filter g l).
Proof.
  intros f g l y H Hy F G. induction l as [|x l IH]; [contradiction|].
  cbn. destruct Hy as [->|Hy].
  - rewrite F, G. cbn. pose proof (filter_le_length f g l H). lia.
  - specialize (IH Hy). destruct (f x) eqn:E; [rewrite (H x E); cbn; lia|].
    destruct (g x); cbn; lia.
Qed.

Lemma remaining_lt : forall sets s e e', In s sets -> In e s -> (e < e')%N ->
  remaining sets e' < remaining sets e.
Proof.
  intros sets s e e' Hs He L. unfold remaining. apply (filter_lt_length _ _ _ e).
  - intros x Hx. apply N.leb_le in Hx. apply N.leb_le. lia.
  - apply in_concat. eauto.
  - apply N.leb_gt. lia.
  - apply N.leb_le. lia.
Qed.

Lemma remaining_pos : forall sets s e, In s sets -> In e s -> 0 < remaining sets e.
Proof.
  intros sets s e Hs He. unfold remaining.
  assert (In e (filter (N.leb e) (concat sets))).
  { apply filter_In. split; [apply in_concat; eauto|apply N.leb_le; lia]. }
  destruct (filter (N.leb e) (concat sets)); [contradiction|cbn; lia].
Qed.

Lemma remaining_le : forall sets e, remaining sets e <= length (concat sets).
Proof.
  intros sets e. unfold remaining. induction (concat sets) as [|x l IH]; cbn; auto.
  destruct (N.leb e x); cbn; lia.
Qed.

Definition common (sets : list (list N)) (x : N) : Prop := Forall (fun s => In x s) sets.

(** [c] lists the common values that satisfy [P]. *)
Definition lists (sets : list (list N)) (P : N -> Prop) (c : list N) : Prop :=
  increasing c /\ forall x, In x c <-> common sets x /\ P x.

Lemma increasing_snoc : forall c e, increasing c -> (forall x, In x c -> (x < e)%N) ->
  increasing (c ++ [e]).
Proof.
  induction c as [|y c IH]; intros e Hc H; cbn; [repeat constructor|].
  constructor.
  - apply IH; eauto using incr_tail. intros x Hx. apply H. right; auto.
  - apply Forall_forall. intros x Hx. apply in_app_iff in Hx. destruct Hx as [Hx|[<-|[]]].
    + eapply incr_head; eauto.
    + apply H. left; auto.
Qed.

Lemma lists_ext : forall sets (P Q : N -> Prop) c,
  (forall x, common sets x -> P x <-> Q x) -> lists sets P c -> lists sets Q c.
Proof.
  intros sets P Q c H [I E]. split; auto. intros x. rewrite E.
  split; intros [C X]; split; auto; apply (H x C); auto.
Qed.

Lemma lists_push : forall sets c e, lists sets (fun x => x < e)%N c -> common sets e ->
  lists sets (fun x => x <= e)%N (c ++ [e]).
Proof.
  intros sets c e [I E] C. split.
  - apply increasing_snoc; auto. intros x Hx. apply E in Hx. tauto.
  - intros x. rewrite in_app_iff, E. cbn [In]. split.
    + intros [[H1 H2]|[<-|[]]]; split; auto; lia.
    + intros [H1 H2]. destruct (N.eq_dec x e) as [->|]; [auto|]. left. split; auto. lia.
Qed.

Section Complete.
Variables (sets : list (list N)) (L : N) (out0 : list N).
Hypothesis K : 2 <= length sets.
Hypothesis Inc : Forall increasing sets.
Hypothesis Len : Forall (fun s => (N.of_nat (length s) < 2 ^ 31)%N) sets.
Hypothesis Nonempty : Forall (fun s => s <> []) sets.
Hypothesis Last : Forall (fun s => last s 0%N = L) sets.
Hypothesis Small : (L < 2 ^ 64 - 1)%N.

Definition below_e (positions : list N) (e : N) : Prop :=
  length positions = length sets /\
  forall j s, nth_error sets j = Some s -> exists p,
    nth_error positions j = Some p /\ (p < N.of_nat (length s))%N /\ (at_ s p <= e)%N.

Lemma below_e_set : forall positions e i s pos e' positions',
  below_e positions e -> nth_error sets i = Some s -> (e <= e')%N ->
  (pos < N.of_nat (length s))%N -> (at_ s pos <= e')%N ->
  vset positions i pos = Ok positions' -> below_e positions' e'.
Proof.
  clear. intros positions e i s pos e' positions' [B1 B2] Hs Le Hp Ha Hv.
  assert (Hi : i < length positions).
  { rewrite B1. apply nth_error_Some. congruence. }
  destruct (vset_spec _ positions i pos Hi) as (l' & E & EL & E2).
  rewrite E in Hv. inversion Hv; subst l'. split; [congruence|].
  intros j t Ht. destruct (Nat.eq_dec j i) as [->|Nj].
  - exists pos. rewrite Hs in Ht. inversion Ht; subst t. rewrite E2, Nat.eqb_refl. auto.
  - destruct (B2 j t Ht) as (p & P1 & P2 & P3). exists p.
    rewrite E2. destruct (Nat.eqb_spec j i); [contradiction|]. repeat split; auto. lia.
Qed.

Lemma set_at : forall i s, nth_error sets i = Some s -> In s sets /\ increasing s /\
  (N.of_nat (length s) < 2 ^ 31)%N /\ s <> [] /\ at_ s (N.of_nat (length s) - 1) = L.
Proof.
  intros i s H. apply nth_error_In in H. rewrite Forall_forall in *.
  rewrite <- last_at. auto 10.
Qed.

Lemma recent_in : forall i occr e, 1 <= occr -> recent sets i occr e ->
  exists s, In s sets /\ In e s.
Proof.
  clear. intros i occr e H R. destruct (R 1 ltac:(lia)) as (s & Hs & He).
  apply nth_error_In in Hs. eauto.
Qed.

Lemma vset_ok : forall (v : list N) i x, i < length v -> exists v', vset v i x = Ok v'.
Proof. clear. intros v i x H. destruct (vset_spec _ v i x H) as (l & E & _). eauto. Qed.

Lemma bk_loop_complete : forall fuel positions e i occr c,
  i < length sets -> 1 <= occr < length sets -> recent sets i occr e ->
  below_e positions e -> (e <= L)%N ->
  lists sets (fun x => x < e)%N c ->
  length sets * remaining sets e < fuel + occr ->
  exists r, bk_loop fuel sets (length sets) positions e i occr (out0 ++ c) = Ok (out0 ++ r) /\
            is_intersection sets r.
Proof.
  induction fuel as [|fuel IH]; intros positions e i occr c Hi Ho R B He C F.
  { exfalso. destruct (recent_in i occr e) as (s & S1 & S2); auto; [lia|].
    pose proof (remaining_pos sets s e S1 S2). clear - F H Ho. nia. }
  cbn [bk_loop].
  destruct (N.eqb_spec e (2 ^ 64 - 1)) as [X|_]; [rewrite X in He; clear - He Small; lia|].
  destruct (nth_error sets i) as [s|] eqn:Es; [|apply nth_error_None in Es; lia].
  destruct (set_at i s Es) as (Sin & Sinc & Slen & Sne & Slast).
  destruct B as [B1 B2]. destruct (B2 i s Es) as (p & P1 & P2 & P3).
  rewrite (vget_nth _ _ _ _ Es), (vget_nth _ _ _ _ P1). cbn [bind].
  destruct (exponentialSearch_spec s e p) as (pos & Epos & Q1 & Q2 & Q3); auto; [lia|].
  rewrite Epos. cbn [bind]. rewrite vgetN_at by auto. cbn [bind].
  assert (Hm : (i + 1) mod length sets < length sets) by (apply Nat.mod_upper_bound; lia).
  assert (Hip : i < length positions) by lia.
  destruct (recent_in i occr e) as (t & T1 & T2); [lia|exact R|].
  assert (Hle : forall j, (j < N.of_nat (length s))%N -> (at_ s j <= L)%N).
  { intros j Hj. rewrite <- Slast. apply at_mono_le; auto; lia. }
  destruct (N.eqb_spec (at_ s pos) e) as [Ev|Nv].
  - destruct (vset_ok positions i pos Hip) as (positions' & Ep'). rewrite Ep'. cbn [bind].
    assert (B' : below_e positions' e).
    { apply (below_e_set positions e i s pos e); auto; [split; auto|lia|lia]. }
    assert (Hin : In e s) by (rewrite <- Ev; apply at_in; auto).
    pose proof (recent_step _ _ _ _ _ Hi (proj2 Ho) R Es Hin) as R'.
    destruct (Nat.eqb_spec (S occr) (length sets)) as [Ek|Ek]; cbn [andb orb negb].
    + assert (Ce : common sets e) by (unfold common; rewrite Ek in R'; eapply recent_all; eauto).
      pose proof (lists_push sets c e C Ce) as C'.
      assert (Ep2 : nth_error positions' i = Some pos).
      { destruct (vset_spec _ positions i pos Hip) as (l' & E & _ & E1).
        specialize (E1 i). rewrite Nat.eqb_refl in E1. congruence. }
      rewrite (vget_nth _ _ _ _ Ep2). cbn [bind].
      destruct (N.eqb_spec (pos + 1) (N.of_nat (length s))) as [El|El].
      * exists (c ++ [e]). rewrite app_assoc. split; auto.
        destruct C' as [C1 C2]. split; auto. intros x. rewrite C2. split; [tauto|].
        intros H. split; auto. unfold common in H. rewrite Forall_forall in H.
        specialize (H s Sin). apply in_at in H. destruct H as (j & J1 & <-).
        rewrite <- Ev. apply at_mono_le; auto; lia.
      * assert (Hn : (pos + 1 < N.of_nat (length s))%N) by lia.
        rewrite vgetN_at by auto. cbn [bind].
        pose proof (at_mono s pos (pos + 1) Sinc ltac:(lia) Hn) as Mn.
        assert (Hip' : i < length positions') by (destruct B' as [-> _]; auto).
        destruct (vset_ok positions' i (pos + 1)%N Hip') as (positions'' & Ep'').
        rewrite Ep''. cbn [bind]. rewrite <- app_assoc.
        apply IH; auto; [eapply recent_one; eauto; apply at_in; auto| | |].
        -- eapply below_e_set; try exact Ep''; eauto; lia.
        -- eapply lists_ext; [|exact C']. intros x Hx. cbn beta.
           unfold common in Hx. rewrite Forall_forall in Hx. specialize (Hx s Sin).
           apply in_at in Hx. destruct Hx as (j & J1 & <-).
           rewrite <- Ev. split; intros HL.
           ++ lia.
           ++ destruct (N.lt_ge_cases pos j) as [G|G]; [|apply at_mono_le; auto].
              pose proof (at_mono_le s (pos + 1) j Sinc ltac:(lia) J1). lia.
        -- pose proof (remaining_lt sets t e (at_ s (pos + 1)) T1 T2 ltac:(lia)) as RL.
           clear - F RL Ho K. nia.
    + apply IH; auto; lia.
  - cbn [bind andb orb negb].
    destruct (Nat.eqb_spec occr (length sets)); [lia|]. cbn [andb orb negb].
    rewrite (vget_nth _ _ _ _ P1). cbn [bind].
    destruct (N.eqb_spec (p + 1) (N.of_nat (length s))) as [El|El].
    { exfalso. replace p with (N.of_nat (length s) - 1)%N in P3 by lia.
      pose proof (Hle pos Q1). lia. }
    destruct (vset_ok positions i pos Hip) as (positions' & Ep'). rewrite Ep'. cbn [bind].
    apply IH; auto; [eapply recent_one; eauto; apply at_in; auto| | |].
    + apply (below_e_set positions e i s pos (at_ s pos)); auto; [split; auto|lia].
    + eapply lists_ext; [|exact C]. intros x Hx. cbn beta.
      unfold common in Hx. rewrite Forall_forall in Hx. specialize (Hx s Sin).
      apply in_at in Hx. destruct Hx as (j & J1 & <-).
      split; intros HL; [lia|].
      destruct (N.lt_ge_cases j pos) as [G|G]; [apply Q3; auto|].
      pose proof (at_mono_le s pos j Sinc G J1). lia.
    + pose proof (remaining_lt sets t e (at_ s pos) T1 T2 ltac:(lia)) as RL.
      clear - F RL Ho K. nia.
Qed.

Lemma bk_complete : forall e rest others fuel,
  sets = (e :: rest) :: others ->
  Forall (fun s => (hd 0 s <= e)%N) sets ->
  length sets * length (concat sets) <= fuel ->
  exists r, barbayKenyon fuel sets (length sets) out0 = Ok (out0 ++ r) /\
            is_intersection sets r.
Proof.
  intros e rest others fuel Es Hd F. unfold barbayKenyon.
  destruct (Nat.eqb_spec (length sets) 0); [lia|].
  assert (E0 : nth_error sets 0 = Some (e :: rest)) by (rewrite Es; reflexivity).
  destruct (nth_error sets 1) as [s1|] eqn:E1; [|apply nth_error_None in E1; lia].
  rewrite (vget_nth _ _ _ _ E0). cbn [bind vget nth_error].
  rewrite (vget_nth _ _ _ _ E1). cbn [bind].
  destruct (set_at 0 _ E0) as (Sin & Sinc & Slen & Sne & Slast).
  pose proof (bk_loop_complete fuel (repeat 0%N (length sets)) e 1 1 []) as Loop.
  rewrite app_nil_r in Loop. apply Loop; auto; try lia; clear Loop.
  - replace 1 with ((0 + 1) mod length sets) at 1 by (rewrite Nat.mod_small; lia).
    eapply recent_one; eauto; [lia|]. left; auto.
  - split; [apply repeat_length|]. intros j s Hs.
    assert (j < length sets) by (apply nth_error_Some; congruence).
    destruct (set_at j s Hs) as (Tin & _ & _ & Tne & _).
    exists 0%N. split; [apply nth_error_repeat; auto|].
    rewrite Forall_forall in Hd. specialize (Hd s Tin).
    destruct s as [|y s]; [contradiction|]. cbn in *. split; [lia|exact Hd].
  - change e with (at_ (e :: rest) 0). rewrite <- Slast. apply at_mono_le; auto; cbn [length]; lia.
  - split; [constructor|]. intros x. split; [intros []|]. intros [H1 H2].
    unfold common in H1. rewrite Forall_forall in H1. specialize (H1 _ Sin).
    destruct H1 as [->|H1]; [lia|]. pose proof (incr_head _ _ _ Sinc H1). lia.
  - pose proof (remaining_le sets e). clear - F H K. nia.
Qed.
End Complete.

(** ** Families on which it fails *)

(** The first set starts before the only value of the second: the search starts past
    the end. *)
Lemma bk_short_second : forall fuel x l y others out,
  (x < y)%N -> x <> (2 ^ 64 - 1)%N ->
  barbayKenyon (S fuel) ((x :: l) :: [y] :: others) (length ((x :: l) :: [y] :: others)) out
  = UB OutOfBounds.
Proof.
  intros fuel x l y others out H N. unfold barbayKenyon. cbn [length Nat.eqb vget nth_error bind].
  cbn [bk_loop]. destruct (N.eqb_spec x (2 ^ 64 - 1)); [contradiction|].
  cbn [vget nth_error bind repeat].
  unfold exponentialSearch. rewrite vgetN_at by (cbn [length]; lia). cbn [bind].
  change (at_ [y] 0) with y.
  destruct (N.eqb_spec y x); [lia|]. destruct (N.ltb_spec x y); [|lia]. reflexivity.
Qed.

(** 5 is in both sets and is not returned, with any number of iterations. *)
Lemma bk_lost : forall fuel r,
  barbayKenyon fuel [[1; 5; 9]; [5; 9; 10]]%N 2 [] = Ok r -> r = [9]%N.
Proof.
  intros fuel r. 
  do 8 (destruct fuel as [|fuel]; [intros H; vm_compute in H; congruence|]).
  intros H; vm_compute in H; congruence.
Qed.

Lemma bk_incomplete :
  ~ (forall sets, 2 <= length sets -> Forall increasing sets -> Forall (fun s => s <> []) sets ->
     exists fuel r, barbayKenyon fuel sets (length sets) [] = Ok r /\ is_intersection sets r).
Proof.
  intros H. destruct (H [[1; 5; 9]; [5; 9; 10]]%N) as (fuel & r & E & _ & I).
  - cbn; lia.
  - repeat (first [apply Forall_cons | apply Forall_nil | apply SSorted_cons | apply SSorted_nil
                  | reflexivity]).
  - repeat (apply Forall_cons || apply Forall_nil || discriminate).
  - apply bk_lost in E. subst r.
    assert (X : In 5%N [9%N]).
    { apply I. apply Forall_cons; [cbn; auto|]. apply Forall_cons; [cbn; auto|]. constructor. }
    destruct X as [X|[]]. discriminate X.
Qed.
