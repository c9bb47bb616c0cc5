(** Intersections of tries built from any lists: the tries are those of the sets kept. *)

From Verif Require Import Base FlatTrie LevelTrie FastTrie ParallelFor Intersection Tries Spec SpecTries SpecOrder SpecLists
  KeepOrder KeepThms KeepSet InterLaws InterThms InterMain HalfWord ParForThms.

Lemma each_ok_ext : forall A B C (f : A -> result C) (g : B -> result C) l l',
  Forall2 (fun x y => f x = g y) l l' -> each_ok f l = each_ok g l'.
Proof. intros A B C f g l l' H. induction H as [|x y l l' E H IH]; cbn [each_ok]; [reflexivity|]. rewrite E, IH. reflexivity. Qed.

(** The sets kept by the lists of a family. *)
Lemma bin_family : forall u (l : list bitem), (2 <= u <= 2 ^ 48)%N ->
  Forall (fun x => variant_universe u (fst (fst x)) /\ snd x <> [] /\ shorter 32 (snd x)) l ->
  exists l' : list bitem, map fst l' = map fst l /\ Forall2 (kept_set 1 (rounded u)) (map snd l) (map snd l') /\
    Forall (fun x => plain_ok (rounded u) (fst (fst x)) (snd x) /\ snd x <> []) l' /\
    each_ok (make_bitem u) l = each_ok (make_bitem (rounded u)) l'.
Proof.
  intros u l Hu H.
  assert (exists l' : list bitem, map fst l' = map fst l /\ Forall2 (kept_set 1 (rounded u)) (map snd l) (map snd l') /\
    Forall (fun x => plain_ok (rounded u) (fst (fst x)) (snd x) /\ snd x <> []) l' /\
    Forall2 (fun x y => make_bitem u x = make_bitem (rounded u) y) l l') as (l' & A & B & C & D).
  { induction H as [|[[v e] s] l (Hv & Hne & Hs) H IH]; [exists []; repeat split; constructor|].
    destruct IH as (l' & A & B & C & D). cbn [fst snd] in *.
    destruct (bin_any_set u v s Hv Hne Hs) as (r & K & Rne & P & E).
    exists ((v, e, r) :: l'). cbn [map fst snd]. split; [congruence|].
    split; [constructor; auto|]. split; [constructor; auto|]. constructor; auto. apply E. }
  exists l'. repeat split; auto. apply each_ok_ext, D.
Qed.

Lemma fast_family : forall u lw (l : list fitem), fast_universe u lw ->
  Forall (fun x => snd x <> [] /\ shorter 32 (snd x)) l ->
  exists l' : list fitem, map fst l' = map fst l /\
    Forall2 (kept_set (2 ^ N.of_nat lw) (rounded u)) (map snd l) (map snd l') /\
    Forall (fitem_ok (rounded u)) l' /\
    each_ok (make_fitem u lw) l = each_ok (make_fitem (rounded u) lw) l'.
Proof.
  intros u lw l Hu H.
  assert (exists l' : list fitem, map fst l' = map fst l /\
    Forall2 (kept_set (2 ^ N.of_nat lw) (rounded u)) (map snd l) (map snd l') /\
    Forall (fitem_ok (rounded u)) l' /\
    Forall2 (fun x y => make_fitem u lw x = make_fitem (rounded u) lw y) l l') as (l' & A & B & C & D).
  { induction H as [|[[[jh je] e] s] l (Hne & Hs) H IH]; [exists []; repeat split; constructor|].
    destruct IH as (l' & A & B & C & D). cbn [fst snd] in *.
    destruct (fast_any_kept u lw s Hu Hne Hs) as (r & K & _ & P & E).
    exists ((jh, je, e, r) :: l'). cbn [map fst snd]. split; [congruence|].
    split; [constructor; auto|]. split; [constructor; auto|]. constructor; auto. apply E. }
  exists l'. repeat split; auto. apply each_ok_ext, D.
Qed.

(** * Any lists *)

Lemma rounded_idem : forall u, rounded (rounded u) = rounded u.
Proof. intros. unfold rounded. rewrite N.log2_up_pow2; auto. apply N.le_0_l. Qed.

Lemma rounded_bound : forall u, (2 <= u <= 2 ^ 48)%N -> (2 <= rounded u <= 2 ^ 48)%N.
Proof.
  intros u H. split; [assert (R := rounded_ge u ltac:(lia)); lia|].
  unfold rounded. apply N.pow_le_mono_r; [discriminate|]. apply N.log2_up_le_pow2; lia.
Qed.

Lemma rounded_fast : forall u lw, fast_universe u lw -> fast_universe (rounded u) lw /\ (u <= rounded u)%N.
Proof.
  intros u lw (Hlw & H1 & H2). assert (L : (2 ^ 3 <= 2 ^ N.of_nat lw)%N).
  { apply N.pow_le_mono_r; [discriminate|]. cbn in Hlw. lia. }
  change (2 ^ 3)%N with 8%N in L.
  assert (R := rounded_ge u ltac:(lia)). assert (B := rounded_bound u ltac:(lia)).
  split; [|auto]. split; [auto|]. lia.
Qed.

Lemma family_length : forall A B (l l' : list (A * B)), map fst l' = map fst l -> length l' = length l.
Proof. intros A B l l' E. rewrite <- (map_length fst l'), E, map_length. reflexivity. Qed.

Definition flagged (x : pitem) : bitem := (fst x, false, snd x).

Lemma each_flagged : forall u l, each_ok (make_bitem u) (map flagged l) = each_ok (make_pitem u) l.
Proof.
  intros. apply each_ok_ext. induction l as [|x l IH]; cbn [map]; constructor; auto.
  unfold make_bitem, make_pitem, flagged, bin_make; cbn [fst snd]. destruct (bin_build _ _ _); reflexivity.
Qed.

Lemma unflag : forall (l' : list bitem) (l : list pitem), map fst l' = map fst (map flagged l) ->
  l' = map flagged (map (fun x => (fst (fst x), snd x)) l').
Proof.
  induction l' as [|[[v e] s] l' IH]; intros [|[w r] l] H; cbn [map flagged fst snd] in *; try discriminate; auto.
  injection H as -> -> H. rewrite <- (IH l H). reflexivity.
Qed.

Lemma each_decodes : forall X Y (f : X -> result Y) (dec : Y -> result (list N)) (g : X -> list N) l Ts,
  Forall (fun x => exists t, f x = Ok t /\ dec t = Ok (g x)) l -> each_ok f l = Ok Ts ->
  Forall2 (fun t k => dec t = Ok k) Ts (map g l).
Proof.
  intros X Y f dec g l Ts H E. destruct (each_ok_spec _ _ f (fun x t => dec t = Ok (g x)) l H) as (ys & E' & F).
  rewrite E in E'. injection E' as <-. clear -F. induction F; cbn [map]; constructor; auto.
Qed.

Theorem bin_lists : forall u (l : list pitem), (2 <= u <= 2 ^ 48)%N -> 1 <= length l <= 16 ->
  Forall (fun x => list_ok u (fst x) (snd x)) l ->
  exists Ts ks r, each_ok (make_pitem u) l = Ok Ts /\
    Forall2 (kept_set 1 (rounded u)) (map snd l) ks /\
    Forall2 (fun t k => bin_decode t [] = Ok k) Ts ks /\ is_intersection ks r /\
    forall hc s1 s2, (1 <= hc < 2 ^ 16)%N -> (3 <= u \/ hc <= 3)%N -> valid_scheduler s1 -> valid_scheduler s2 ->
      Intersect Bin s1 s2 hc (map bin_ops Ts) false false = Ok r /\
      Intersect Bin s1 s2 hc (map bin_ops Ts) false true = Ok r.
Proof.
  intros u l Hu Hn Hl.
  destruct (bin_family u (map flagged l) Hu) as (l' & A & B & C & D).
  { apply Forall_map. eapply Forall_impl; [|exact Hl]. intros [v s] (N1 & N2 & N3). cbn [flagged fst snd] in *.
    split; [split; auto|]. auto. }
  assert (L := family_length _ _ _ _ A). rewrite map_length in L.
  assert (E := unflag l' l A). set (p := map (fun x => (fst (fst x), snd x)) l') in *.
  assert (Lp : length p = length l) by (unfold p; rewrite map_length; auto).
  rewrite E, !each_flagged in D. rewrite E in B, C. rewrite !map_map in B. cbn [flagged snd] in B.
  apply (proj1 (Forall_map _ _ _)) in C.
  assert (Hr := rounded_ge u ltac:(lia)).
  destruct (bin_parallel (rounded u) p) as (Ts & r & M1 & M2 & M3).
  - apply rounded_bound, Hu.
  - unfold pitem in *. lia.
  - eapply Forall_impl; [|exact C]. intros x (Q & _). exact Q.
  - exists Ts, (map snd p), r. split; [congruence|]. split; [exact B|].
    split; [|split; [exact M2|]].
    { eapply (each_decodes _ _ (make_pitem (rounded u)) (fun t => bin_decode t []) snd p); [|exact M1].
      eapply Forall_impl; [|exact C]. intros x (Q & _). apply pitem_decodes; [apply rounded_bound, Hu|exact Q]. }
    intros hc s1 s2 H1 H2 V1 V2. apply M3; auto. lia.
Qed.

Theorem bin_lists_runs : forall u (l : list bitem), (2 <= u <= 2 ^ 48)%N -> 1 <= length l <= 16 ->
  Forall (fun x => list_ok u (fst (fst x)) (snd x)) l ->
  exists ks, Forall2 (kept_set 1 (rounded u)) (map snd l) ks /\
    (Forall2 (fun x k => match fst (fst x) with VFlat _ => snd (fst x) = true -> mixed_block k | _ => True end) l ks ->
     exists Ts r, each_ok (make_bitem u) l = Ok Ts /\ Forall2 (fun t k => bin_decode t [] = Ok k) Ts ks /\
       is_intersection ks r /\
       (forall s1 s2 hc, (1 <= hc)%N -> Intersect Bin s1 s2 hc (map bin_ops Ts) true false = Ok r) /\
       forall s1 s2 hc, (1 <= hc < 2 ^ 16)%N -> (3 <= u)%N -> valid_scheduler s1 -> valid_scheduler s2 ->
         Forall (no_block (thread_block u hc)) ks \/ (rounded u < 4 * 2 ^ N.log2 hc)%N ->
         Intersect Bin s1 s2 hc (map bin_ops Ts) true true = Ok r).
Proof.
  intros u l Hu Hn Hl. destruct (bin_family u l Hu) as (l' & A & B & C & D).
  { eapply Forall_impl; [|exact Hl]. intros [v s] (N1 & N2 & N3). split; [split; auto|]. auto. }
  exists (map snd l'). split; [exact B|]. intros M.
  assert (L := family_length _ _ _ _ A). assert (Ln : 1 <= length l' <= 16) by exact (eq_ind_r (fun n => 1 <= n <= 16) Hn L).
  assert (Hr := rounded_ge u ltac:(lia)).
  assert (K : Forall (bitem_ok (rounded u)) l').
  { clear -A C M. revert l A M. induction C as [|[[v e] s] l' (P & Q) C IH]; intros [|[[w f] s'] l] A M; try discriminate; constructor.
    - cbn [map fst snd] in *. inversion M; subst. injection A as -> -> A. cbn [fst snd] in *.
      split; auto.
    - inversion M; subst. injection A as _ _ A. apply (IH l A). auto. }
  assert (R := rounded_bound u Hu).
  destruct (bin_runs_seq (rounded u) l' R Ln K) as (Ts & r & M1 & M2 & M3).
  exists Ts, r. split; [congruence|]. split; [|split; [auto|split; [auto|]]].
  { eapply (each_decodes _ _ (make_bitem (rounded u)) (fun t => bin_decode t []) snd l'); [|exact M1].
    eapply Forall_impl; [|exact K]. intros x Q. apply bitem_decodes; auto. }
  intros s1 s2 hc H1 H3 V1 V2 H4.
  destruct (bin_par_runs_exact (rounded u) l' hc s1 s2) as (Ts' & r' & Q1 & Q2 & Q3); auto; try lia.
  - unfold thread_block in *. rewrite rounded_idem. auto.
  - rewrite M1 in Q1. injection Q1 as <-. rewrite Q2. f_equal. eapply inter_unique; eauto; tauto.
Qed.

Theorem fast_lists : forall u lw (l : list fitem), fast_universe u lw -> 1 <= length l <= 16 ->
  Forall (fun x => fast_list_ok (snd x)) l ->
  exists Ts ks r, each_ok (make_fitem u lw) l = Ok Ts /\
    Forall2 (kept_set (2 ^ N.of_nat lw) (rounded u)) (map snd l) ks /\
    (Forall (fun x => f_enc x = true -> snd (fst (fst x)) = Some false) l ->
     Forall2 (fun t k => fast_decode t [] = Ok k) Ts ks) /\ is_intersection ks r /\
    (forall s1 s2 hc (runs : bool), (1 <= hc)%N -> (runs = false -> Forall (fun x => f_enc x = false) l) ->
       Intersect (Fast lw) s1 s2 hc (map fast_ops Ts) runs false = Ok r) /\
    (forall s1 s2 hc (runs : bool), (1 <= hc < 2 ^ 16)%N -> (2 ^ N.of_nat lw < u)%N -> valid_scheduler s1 -> valid_scheduler s2 ->
       (if runs then Forall (no_block (thread_block u hc)) ks \/ (rounded u < 2 * 2 ^ N.of_nat lw * 2 ^ N.log2 hc)%N
        else Forall (fun x => f_enc x = false) l) ->
       Intersect (Fast lw) s1 s2 hc (map fast_ops Ts) runs true = Ok r).
Proof.
  intros u lw l Hu Hn Hl. destruct (fast_family u lw l Hu) as (l' & A & B & C & D).
  { eapply Forall_impl; [|exact Hl]. intros x H; exact H. }
  destruct (rounded_fast u lw Hu) as (Ru & Ge). assert (L := family_length _ _ _ _ A).
  assert (Ln : 1 <= length l' <= 16) by exact (eq_ind_r (fun n => 1 <= n <= 16) Hn L).
  assert (Enc : Forall (fun x => f_enc x = false) l -> Forall (fun x => f_enc x = false) l').
  { unfold f_enc. clear -A. intros H. revert l' A. induction H; intros [|y l'] A; try discriminate; constructor.
    - injection A as A _. rewrite A. auto.
    - injection A as _ A. auto. }
  destruct (fast_seq_result (rounded u) lw l' true Ru Ln C ltac:(discriminate)) as (Ts & r & M1 & M2 & M3).
  exists Ts, (map snd l'), r. split; [congruence|]. split; [auto|].
  split; [|split; [auto|split]].
  - intros J. eapply (each_decodes _ _ (make_fitem (rounded u) lw) (fun t => fast_decode t []) snd l'); [|exact M1].
    assert (J' : Forall (fun x => f_enc x = true -> snd (fst (fst x)) = Some false) l').
    { unfold f_enc in *. clear -A J. revert l' A. induction J; intros [|y l'] A; try discriminate; constructor.
      - injection A as A _. rewrite A. auto.
      - injection A as _ A. auto. }
    apply Forall_forall. intros x Hx. rewrite Forall_forall in C, J'. apply fitem_decodes; auto.
  - intros s1 s2 hc runs H1 H2.
    destruct (fast_seq_result (rounded u) lw l' runs Ru Ln C) as (Ts' & r' & Q1 & Q2 & Q3); [auto|].
    rewrite M1 in Q1. injection Q1 as <-. rewrite Q3 by auto. f_equal. eapply inter_unique; eauto; tauto.
  - intros s1 s2 hc [|] H1 H2 V1 V2 H3.
    + destruct (fast_par_runs_exact (rounded u) lw l' hc s1 s2) as (Ts' & r' & Q1 & Q2 & Q3); auto; try lia.
      * unfold thread_block in *. rewrite rounded_idem. auto.
      * rewrite M1 in Q1. injection Q1 as <-. rewrite Q2. f_equal. eapply inter_unique; eauto; tauto.
    + destruct (fast_parallel (rounded u) lw l' Ru Ln C (Enc H3)) as (Ts' & r' & Q1 & Q2 & Q3).
      rewrite M1 in Q1. injection Q1 as <-. destruct (Q3 hc s1 s2) as (_ & ->); auto; [lia|].
      f_equal. eapply inter_unique; eauto; tauto.
Qed.

(** * Sorted lists with repetitions *)

Lemma kept_sorted : forall w u r l k, w <> 0%N -> (u <= r)%N -> words_in_order w l -> below u l ->
  kept_set w r l k -> is_set_of l k.
Proof.
  intros w u r l k Hw Hr Ho Hb (s & K & I). rewrite wrapped_below in K by (eapply below_mono; eauto).
  rewrite (kept_in_order w l s Hw Ho K) in I. exact I.
Qed.

Lemma sets_inter : forall ls ks r, Forall2 is_set_of ls ks -> is_intersection ks r -> is_intersection ls r.
Proof.
  intros ls ks r F (I & H). split; auto. intros x. rewrite H. clear -F.
  induction F as [|l k ls ks (_ & E) F IH]; split; intros Q; constructor; inversion Q; subst; firstorder.
Qed.

Lemma kept_all_sorted : forall w u r ls ks, w <> 0%N -> (u <= r)%N ->
  Forall (fun s => words_in_order w s /\ below u s) ls -> Forall2 (kept_set w r) ls ks -> Forall2 is_set_of ls ks.
Proof.
  intros w u r ls ks Hw Hr H F. induction F as [|l k ls ks K F IH]; constructor; inversion H; subst.
  - eapply kept_sorted; eauto; tauto.
  - auto.
Qed.

Theorem bin_sorted : forall u (l : list pitem), (2 <= u <= 2 ^ 48)%N -> 1 <= length l <= 16 ->
  Forall (fun x => list_ok u (fst x) (snd x) /\ sorted_list u (snd x)) l ->
  exists Ts r, each_ok (make_pitem u) l = Ok Ts /\ is_intersection (map snd l) r /\
    forall hc s1 s2, (1 <= hc < 2 ^ 16)%N -> (3 <= u \/ hc <= 3)%N -> valid_scheduler s1 -> valid_scheduler s2 ->
      Intersect Bin s1 s2 hc (map bin_ops Ts) false false = Ok r /\
      Intersect Bin s1 s2 hc (map bin_ops Ts) false true = Ok r.
Proof.
  intros u l Hu Hn Hl. destruct (bin_lists u l Hu Hn) as (Ts & ks & r & A & B & _ & C & D).
  { eapply Forall_impl; [|exact Hl]. tauto. }
  exists Ts, r. split; [auto|]. split; [|auto]. eapply sets_inter; [|exact C].
  eapply (kept_all_sorted 1 u (rounded u)); [discriminate|apply rounded_ge; lia| |exact B].
  apply Forall_map. eapply Forall_impl; [|exact Hl]. intros x (_ & Q1 & Q2). split; [apply words_one|]; auto.
Qed.

Lemma mixed_set : forall s k, is_set_of s k -> mixed_block s -> mixed_block k.
Proof. intros s k (_ & E) (x & y & A & B & C). exists x, y. rewrite !E. auto. Qed.

Lemma no_block_set : forall b s k, is_set_of s k -> no_block b s -> no_block b k.
Proof. intros b s k (_ & E) H q. destruct (H q) as (x & A & B). exists x. rewrite E. auto. Qed.

Lemma no_block_sets : forall b ls ks, Forall2 is_set_of ls ks -> Forall (no_block b) ls -> Forall (no_block b) ks.
Proof.
  intros b ls ks F H. induction F; inversion H; subst; constructor; auto. eapply no_block_set; eauto.
Qed.

Theorem bin_sorted_runs : forall u (l : list bitem), (2 <= u <= 2 ^ 48)%N -> 1 <= length l <= 16 ->
  Forall (fun x => list_ok u (fst (fst x)) (snd x) /\ sorted_list u (snd x) /\
    match fst (fst x) with VFlat _ => snd (fst x) = true -> mixed_block (snd x) | _ => True end) l ->
  exists Ts r, each_ok (make_bitem u) l = Ok Ts /\ is_intersection (map snd l) r /\
    (forall s1 s2 hc, (1 <= hc)%N -> Intersect Bin s1 s2 hc (map bin_ops Ts) true false = Ok r) /\
    forall s1 s2 hc, (1 <= hc < 2 ^ 16)%N -> (3 <= u)%N -> valid_scheduler s1 -> valid_scheduler s2 ->
      Forall (no_block (thread_block u hc)) (map snd l) \/ (rounded u < 4 * 2 ^ N.log2 hc)%N ->
      Intersect Bin s1 s2 hc (map bin_ops Ts) true true = Ok r.
Proof.
  intros u l Hu Hn Hl. destruct (bin_lists_runs u l Hu Hn) as (ks & B & H).
  { eapply Forall_impl; [|exact Hl]. tauto. }
  assert (S : Forall2 is_set_of (map snd l) ks).
  { eapply (kept_all_sorted 1 u (rounded u)); [discriminate|apply rounded_ge; lia| |exact B].
    apply Forall_map. eapply Forall_impl; [|exact Hl]. intros x (_ & (Q1 & Q2) & _). split; [apply words_one|]; auto. }
  destruct H as (Ts & r & A & _ & C & D & E).
  { clear -S Hl. revert ks S. induction Hl as [|x l (_ & _ & M) Hl IH]; intros ks S; inversion S; subst; constructor; auto.
    destruct (fst (fst x)); auto. intros e. eapply mixed_set; eauto. }
  exists Ts, r. split; [auto|]. split; [eapply sets_inter; eauto|]. split; [auto|].
  intros s1 s2 hc H1 H2 V1 V2 [H3|H3]; apply E; auto. left. eapply no_block_sets; eauto.
Qed.

Theorem fast_sorted : forall u lw (l : list fitem), fast_universe u lw -> 1 <= length l <= 16 ->
  Forall (fun x => fast_list_ok (snd x) /\ words_in_order (2 ^ N.of_nat lw) (snd x) /\ below u (snd x)) l ->
  exists Ts r, each_ok (make_fitem u lw) l = Ok Ts /\ is_intersection (map snd l) r /\
    (forall s1 s2 hc (runs : bool), (1 <= hc)%N -> (runs = false -> Forall (fun x => f_enc x = false) l) ->
       Intersect (Fast lw) s1 s2 hc (map fast_ops Ts) runs false = Ok r) /\
    (forall s1 s2 hc (runs : bool), (1 <= hc < 2 ^ 16)%N -> (2 ^ N.of_nat lw < u)%N -> valid_scheduler s1 -> valid_scheduler s2 ->
       (if runs then Forall (no_block (thread_block u hc)) (map snd l) \/
                     (rounded u < 2 * 2 ^ N.of_nat lw * 2 ^ N.log2 hc)%N
        else Forall (fun x => f_enc x = false) l) ->
       Intersect (Fast lw) s1 s2 hc (map fast_ops Ts) runs true = Ok r).
Proof.
  intros u lw l Hu Hn Hl. destruct (fast_lists u lw l Hu Hn) as (Ts & ks & r & A & B & _ & C & D & E).
  { eapply Forall_impl; [|exact Hl]. tauto. }
  assert (S : Forall2 is_set_of (map snd l) ks).
  { eapply (kept_all_sorted (2 ^ N.of_nat lw) u (rounded u)); [apply N.pow_nonzero; discriminate|apply (rounded_fast u lw Hu)| |exact B].
    apply Forall_map. eapply Forall_impl; [|exact Hl]. tauto. }
  exists Ts, r. split; [auto|]. split; [eapply sets_inter; eauto|]. split; [auto|].
  intros s1 s2 hc [|] H1 H2 V1 V2 H3; apply E; auto.
  destruct H3 as [H3|H3]; [left|right; auto]. eapply no_block_sets; eauto.
Qed.

(** * Lists out of order *)

Lemma lists_refuted :
  ~ (forall u (l : list pitem), (2 <= u <= 2 ^ 48)%N -> 1 <= length l <= 16 ->
       Forall (fun x => list_ok u (fst x) (snd x) /\ NoDup (snd x) /\ below u (snd x)) l ->
       exists Ts r, each_ok (make_pitem u) l = Ok Ts /\ is_intersection (map snd l) r /\
         Intersect Bin in_order in_order 1 (map bin_ops Ts) false false = Ok r).
Proof.
  intros H. destruct (H 8%N [(VFlat false, [5; 2]%N); (VLevel true, [6]%N)]) as (Ts & r & A & (_ & B) & C).
  - lia.
  - cbn; lia.
  - repeat constructor; try discriminate; cbn; try lia; intuition discriminate.
  - vm_compute in A. injection A as <-. vm_compute in C. injection C as <-.
    assert (Q := proj1 (B 6%N) (or_introl eq_refl)). inversion Q as [|? ? X]. cbn in X. intuition discriminate.
Qed.
