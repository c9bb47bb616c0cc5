(** Consequences of the intersection theorems: agreement of parallel and
    sequential calls, agreement of the variants, laws, heights, memory, counter
    examples. *)

From Coq Require Import Permutation.
From Verif Require Import Base FlatTrie LevelTrie FastTrie ParallelFor Intersection Tries Facts
  Spec SpecTries RoundTrip RoundTripFacts RunsThms InterMain InterThms ParForThms.

Lemma inter_unique : forall sets sets' r r', (forall s, In s sets <-> In s sets') ->
  is_intersection sets r -> is_intersection sets' r' -> r = r'.
Proof.
  intros sets sets' r r' E (S1 & H1) (S2 & H2). apply sorted_unique; auto.
  intros x. rewrite H1, H2, !Forall_forall. split; intros H s Hs; apply H; apply E; auto.
Qed.

Lemma inter_mono : forall sets sets' r r', (forall s, In s sets -> In s sets') ->
  is_intersection sets r -> is_intersection sets' r' -> forall x, In x r' -> In x r.
Proof.
  intros sets sets' r r' E (S1 & H1) (S2 & H2) x. rewrite H1, H2, !Forall_forall. auto.
Qed.

Lemma inter_self : forall s, increasing s -> is_intersection [s] s.
Proof.
  intros s Hs. split; auto. intros x. split; intros H; [repeat constructor; auto|].
  inversion H; auto.
Qed.

Lemma same_members_sets : forall X (f : X -> list N) l l', (forall x, In x l <-> In x l') ->
  forall s, In s (map f l) <-> In s (map f l').
Proof.
  intros X f l l' H s. rewrite !in_map_iff. split; intros (x & E & Hx); exists x; split; auto; apply H; auto.
Qed.

(** ** C09, C12 *)

Theorem bin_plain_sequential : forall u (l : list pitem), (2 <= u <= 2 ^ 48)%N -> 1 <= length l <= 16 ->
  Forall (pitem_ok u) l ->
  exists Ts r, each_ok (make_pitem u) l = Ok Ts /\ is_intersection (map snd l) r /\
    forall s1 s2 hc, (1 <= hc)%N -> Intersect Bin s1 s2 hc (map bin_ops Ts) false false = Ok r.
Proof.
  intros u l Hu Hn Hl. destruct (bin_plain_outcome u l Hu Hn Hl) as (Ts & E & H).
  destruct (H in_order in_order 1%N false ltac:(lia) ltac:(discriminate)) as (r & m & Er & Hi & _).
  exists Ts, r. split; auto. split; auto. intros s1 s2 hc Hhc. unfold Intersect.
  destruct (H s1 s2 hc false Hhc ltac:(discriminate)) as (r' & m' & -> & Hi' & _). cbn [bind].
  f_equal. eapply inter_unique; eauto. tauto.
Qed.

Theorem bin_parallel : forall u (l : list pitem), (2 <= u <= 2 ^ 48)%N -> 1 <= length l <= 16 ->
  Forall (pitem_ok u) l ->
  exists Ts r, each_ok (make_pitem u) l = Ok Ts /\ is_intersection (map snd l) r /\
    forall hc s1 s2, (1 <= hc < 2 ^ 16)%N -> (3 <= u \/ hc <= 3)%N -> valid_scheduler s1 -> valid_scheduler s2 ->
      Intersect Bin s1 s2 hc (map bin_ops Ts) false false = Ok r /\
      Intersect Bin s1 s2 hc (map bin_ops Ts) false true = Ok r.
Proof.
  intros u l Hu Hn Hl. destruct (bin_plain_outcome u l Hu Hn Hl) as (Ts & E & H).
  destruct (bin_plain_sequential u l Hu Hn Hl) as (Ts' & r & E' & Hi & Hr).
  assert (Ts' = Ts) by congruence. subst Ts'. exists Ts, r. split; auto. split; auto.
  intros hc s1 s2 Hhc H3 V1 V2. split; [apply Hr; lia|]. unfold Intersect.
  destruct (H s1 s2 hc true ltac:(lia)) as (r' & m' & -> & Hi' & _).
  { intros _. split; auto. lia. }
  cbn [bind]. f_equal. eapply inter_unique; eauto. tauto.
Qed.

Theorem fast_parallel : forall u lw (l : list fitem), fast_universe u lw -> 1 <= length l <= 16 ->
  Forall (fitem_ok u) l -> Forall (fun x => f_enc x = false) l ->
  exists Ts r, each_ok (make_fitem u lw) l = Ok Ts /\ is_intersection (map snd l) r /\
    forall hc s1 s2, (1 <= hc < 2 ^ 16)%N -> (2 ^ N.of_nat lw < u \/ hc = 1)%N ->
      valid_scheduler s1 -> valid_scheduler s2 ->
      Intersect (Fast lw) s1 s2 hc (map fast_ops Ts) false false = Ok r /\
      Intersect (Fast lw) s1 s2 hc (map fast_ops Ts) false true = Ok r.
Proof.
  intros u lw l Hu Hn Hl He.
  destruct (fast_sequential u lw l false in_order in_order 1%N Hu Hn Hl ltac:(auto) ltac:(lia))
    as (Ts & r & E & Er & Hi).
  exists Ts, r. split; auto. split; auto. intros hc s1 s2 Hhc H3 V1 V2. split.
  - destruct (fast_sequential u lw l false s1 s2 hc Hu Hn Hl ltac:(auto) ltac:(lia))
      as (Ts' & r' & E' & Er' & Hi').
    assert (Ts' = Ts) by congruence. subst Ts'. rewrite Er'. f_equal. eapply inter_unique; eauto. tauto.
  - destruct (fast_par_outcome u lw l false s1 s2 hc Hu Hn Hl ltac:(auto) ltac:(lia) H3 V1 V2)
      as (Ts' & E' & (r' & m & Er' & _ & _ & Hi' & _)).
    assert (Ts' = Ts) by congruence. subst Ts'. unfold Intersect. rewrite Er'. cbn [bind]. f_equal.
    eapply inter_unique; eauto. tauto.
Qed.

(** ** C10, C11 with the same result for every scheduler *)

Theorem bin_runs_seq : forall u (l : list bitem), (2 <= u <= 2 ^ 48)%N -> 1 <= length l <= 16 ->
  Forall (bitem_ok u) l ->
  exists Ts r, each_ok (make_bitem u) l = Ok Ts /\ is_intersection (map snd l) r /\
    forall s1 s2 hc, (1 <= hc)%N -> Intersect Bin s1 s2 hc (map bin_ops Ts) true false = Ok r.
Proof.
  intros u l Hu Hn Hl.
  destruct (bin_runs_sequential u l in_order in_order 1%N Hu Hn Hl ltac:(lia)) as (Ts & r & E & Er & Hi).
  exists Ts, r. split; auto. split; auto. intros s1 s2 hc Hhc.
  destruct (bin_runs_sequential u l s1 s2 hc Hu Hn Hl Hhc) as (Ts' & r' & E' & Er' & Hi').
  assert (Ts' = Ts) by congruence. subst Ts'. rewrite Er'. f_equal. eapply inter_unique; eauto. tauto.
Qed.

Theorem fast_seq_result : forall u lw (l : list fitem) runs, fast_universe u lw -> 1 <= length l <= 16 ->
  Forall (fitem_ok u) l -> (runs = false -> Forall (fun x => f_enc x = false) l) ->
  exists Ts r, each_ok (make_fitem u lw) l = Ok Ts /\ is_intersection (map snd l) r /\
    forall s1 s2 hc, (1 <= hc)%N -> Intersect (Fast lw) s1 s2 hc (map fast_ops Ts) runs false = Ok r.
Proof.
  intros u lw l runs Hu Hn Hl He.
  destruct (fast_sequential u lw l runs in_order in_order 1%N Hu Hn Hl He ltac:(lia)) as (Ts & r & E & Er & Hi).
  exists Ts, r. split; auto. split; auto. intros s1 s2 hc Hhc.
  destruct (fast_sequential u lw l runs s1 s2 hc Hu Hn Hl He Hhc) as (Ts' & r' & E' & Er' & Hi').
  assert (Ts' = Ts) by congruence. subst Ts'. rewrite Er'. f_equal. eapply inter_unique; eauto. tauto.
Qed.

(** ** C13, C14, C15 *)

Theorem bin_par_runs_sound : forall u (l : list bitem) hc s1 s2,
  (2 <= u <= 2 ^ 48)%N -> 1 <= length l <= 16 -> Forall (bitem_ok u) l ->
  (1 <= hc < 2 ^ 16)%N -> (3 <= u \/ hc <= 3)%N -> valid_scheduler s1 -> valid_scheduler s2 ->
  exists Ts r, each_ok (make_bitem u) l = Ok Ts /\
    Intersect Bin s1 s2 hc (map bin_ops Ts) true true = Ok r /\ NoDup r /\
    forall x, In x r -> Forall (fun s => In x s) (map snd l).
Proof.
  intros u l hc s1 s2 Hu Hn Hl Hhc H3 V1 V2.
  destruct (bin_par_outcome u l true s1 s2 hc Hu Hn Hl ltac:(discriminate) Hhc H3 V1 V2)
    as (Ts & E & (r & m & Er & Hd & Hs & _)).
  exists Ts, r. split; auto. unfold Intersect. rewrite Er. auto.
Qed.

Theorem fast_par_runs_sound : forall u lw (l : list fitem) hc s1 s2,
  fast_universe u lw -> 1 <= length l <= 16 -> Forall (fitem_ok u) l ->
  (1 <= hc < 2 ^ 16)%N -> (2 ^ N.of_nat lw < u \/ hc = 1)%N -> valid_scheduler s1 -> valid_scheduler s2 ->
  exists Ts r, each_ok (make_fitem u lw) l = Ok Ts /\
    Intersect (Fast lw) s1 s2 hc (map fast_ops Ts) true true = Ok r /\ NoDup r /\
    forall x, In x r -> Forall (fun s => In x s) (map snd l).
Proof.
  intros u lw l hc s1 s2 Hu Hn Hl Hhc H3 V1 V2.
  destruct (fast_par_outcome u lw l true s1 s2 hc Hu Hn Hl ltac:(discriminate) Hhc H3 V1 V2)
    as (Ts & E & (r & m & Er & Hd & Hs & _)).
  exists Ts, r. split; auto. unfold Intersect. rewrite Er. auto.
Qed.

Theorem bin_par_runs_exact : forall u (l : list bitem) hc s1 s2,
  (3 <= u <= 2 ^ 48)%N -> 1 <= length l <= 16 -> Forall (bitem_ok u) l ->
  (1 <= hc < 2 ^ 16)%N -> valid_scheduler s1 -> valid_scheduler s2 ->
  Forall (no_block (thread_block u hc)) (map snd l) \/ (rounded u < 4 * 2 ^ N.log2 hc)%N ->
  exists Ts r, each_ok (make_bitem u) l = Ok Ts /\
    Intersect Bin s1 s2 hc (map bin_ops Ts) true true = Ok r /\ is_intersection (map snd l) r.
Proof.
  intros u l hc s1 s2 Hu Hn Hl Hhc V1 V2 Hb.
  destruct (bin_par_outcome u l true s1 s2 hc ltac:(lia) Hn Hl ltac:(discriminate) Hhc ltac:(lia) V1 V2)
    as (Ts & E & (r & m & Er & Hd & Hs & Hi & _)).
  exists Ts, r. split; auto. unfold Intersect. rewrite Er. split; auto. apply Hi.
  right. destruct Hb; [left; auto|right; split; auto; lia].
Qed.

Theorem fast_par_runs_exact : forall u lw (l : list fitem) hc s1 s2,
  fast_universe u lw -> (2 ^ N.of_nat lw < u)%N -> 1 <= length l <= 16 -> Forall (fitem_ok u) l ->
  (1 <= hc < 2 ^ 16)%N -> valid_scheduler s1 -> valid_scheduler s2 ->
  Forall (no_block (thread_block u hc)) (map snd l) \/
    (rounded u < 2 * 2 ^ N.of_nat lw * 2 ^ N.log2 hc)%N ->
  exists Ts r, each_ok (make_fitem u lw) l = Ok Ts /\
    Intersect (Fast lw) s1 s2 hc (map fast_ops Ts) true true = Ok r /\ is_intersection (map snd l) r.
Proof.
  intros u lw l hc s1 s2 Hu Hw Hn Hl Hhc V1 V2 Hb.
  destruct (fast_par_outcome u lw l true s1 s2 hc Hu Hn Hl ltac:(discriminate) Hhc ltac:(auto) V1 V2)
    as (Ts & E & (r & m & Er & Hd & Hs & Hi & _)).
  exists Ts, r. split; auto. unfold Intersect. rewrite Er. split; auto. apply Hi. right.
  destruct Hb; auto.
Qed.

(** ** C16 *)

Theorem height_mismatch : forall k s1 s2 hc Ts runs parallel T T',
  In T Ts -> In T' Ts -> t_height T <> t_height T' ->
  Intersect_mem k s1 s2 hc Ts runs parallel = Ok ([], mkMem 0 []).
Proof.
  intros k s1 s2 hc Ts runs parallel T T' H1 H2 Hne. unfold Intersect_mem.
  destruct Ts as [|T0 Tl]; [destruct H1|]. cbn [vget nth_error bind].
  destruct (same_height (t_height T0) (T0 :: Tl)) eqn:E; auto.
  exfalso. unfold same_height in E. rewrite forallb_forall in E.
  apply E in H1. apply E in H2. apply Nat.eqb_eq in H1, H2. congruence.
Qed.

(** Tries over universes that need different numbers of bits. *)
Theorem universe_mismatch : forall u u' (x x' : bitem) t t' l k s1 s2 hc runs parallel,
  (2 <= u <= 2 ^ 48)%N -> (2 <= u' <= 2 ^ 48)%N -> rounded u <> rounded u' ->
  bitem_ok u x -> bitem_ok u' x' -> make_bitem u x = Ok t -> make_bitem u' x' = Ok t' ->
  In (bin_ops t) l -> In (bin_ops t') l ->
  Intersect_mem k s1 s2 hc l runs parallel = Ok ([], mkMem 0 []).
Proof.
  intros u u' [[v e] s] [[v' e'] s'] t t' l k s1 s2 hc runs parallel Hu Hu' Hr Hx Hx' Et Et' Hl Hl'.
  apply height_mismatch with (T := bin_ops t) (T' := bin_ops t'); auto. intros Eh. apply Hr.
  destruct (height_of_spec u Hu) as (h & Hh & H1 & Hp & H2 & _).
  destruct (height_of_spec u' Hu') as (h' & Hh' & H1' & Hp' & H2' & _).
  destruct (bin_make_rep u h v e s Hh Hu H1 Hp H2 Hx) as (t0 & T & E0 & (R & _) & _).
  destruct (bin_make_rep u' h' v' e' s' Hh' Hu' H1' Hp' H2' Hx') as (t0' & T' & E0' & (R' & _) & _).
  unfold make_bitem in Et, Et'. cbn [fst snd] in Et, Et'.
  assert (t0 = t) by congruence. assert (t0' = t') by congruence. subst.
  rewrite (height_rounded u _) by (eauto; lia). rewrite (height_rounded u' _) by (eauto; lia). congruence.
Qed.

(** ** C30, C31 *)

Lemma bitem_decodes : forall u (x : bitem), (2 <= u <= 2 ^ 48)%N -> bitem_ok u x ->
  exists t, make_bitem u x = Ok t /\ bin_decode t [] = Ok (snd x).
Proof.
  intros u [[v e] s] Hu ((Hs & Hb & Hv) & Hne & Hm). unfold make_bitem, bin_make, bin_build. cbn [fst snd] in *.
  destruct v as [il|il].
  - destruct Hv as (H3 & _ & Hl). destruct e.
    + destruct (flat_runs_round_trip u s []) as (t & t' & E & E' & D); auto; try lia.
      rewrite E. cbn [bind bin_encodeRuns]. rewrite E'. cbn [bind]. eexists; split; [reflexivity|]. auto.
    + destruct (flat_round_trip_set u s) as (t & E & D); auto; try lia.
      rewrite E. cbn [bind]. eexists; split; [reflexivity|]. auto.
  - destruct e.
    + destruct (level_runs_round_trip il u s []) as (t & t' & E & E' & D); auto; try lia.
      rewrite E. cbn [bind bin_encodeRuns]. rewrite E'. cbn [bind]. eexists; split; [reflexivity|]. auto.
    + destruct (level_round_trip_set il u s) as (t & E & D); auto; try lia.
      rewrite E. cbn [bind]. eexists; split; [reflexivity|]. auto.
Qed.

Lemma pitem_decodes : forall u (x : pitem), (2 <= u <= 2 ^ 48)%N -> pitem_ok u x ->
  exists t, make_pitem u x = Ok t /\ bin_decode t [] = Ok (snd x).
Proof.
  intros u [v s] Hu (Hs & Hb & Hv). unfold make_pitem, bin_build. cbn [fst snd] in *.
  destruct v as [il|il].
  - destruct Hv as (H3 & Hne & Hl). destruct (flat_round_trip_set u s) as (t & E & D); auto; try lia.
    rewrite E. cbn [bind]. eexists; split; [reflexivity|]. auto.
  - destruct (level_round_trip_set il u s) as (t & E & D); auto; try lia.
    rewrite E. cbn [bind]. eexists; split; [reflexivity|]. auto.
Qed.

Lemma fitem_decodes : forall u lw (x : fitem), fast_universe u lw -> fitem_ok u x ->
  (f_enc x = true -> snd (fst (fst x)) = Some false) ->
  exists t, make_fitem u lw x = Ok t /\ fast_decode t [] = Ok (snd x).
Proof.
  intros u lw [[[jh je] e] s] (Hlw & Hu) (Hne & Hs & Hb & Hl) He. unfold make_fitem, fast_make, f_enc in *.
  cbn [fst snd] in *. destruct e.
  - rewrite He by auto. destruct (fast_runs_round_trip lw jh u s []) as (t & t' & E & E' & D); auto.
    rewrite E. cbn [bind]. exists t'. auto.
  - destruct (fast_round_trip_app lw jh je u s []) as (t & E & D); auto.
    rewrite E. cbn [bind]. exists t. auto.
Qed.

(** The plain tries, the run-encoded tries and the fast tries of the same sets. *)
Theorem variants_agree : forall u lw (l : list pitem) (lb : list bitem) (lf : list fitem) runs,
  (2 <= u <= 2 ^ 48)%N -> 1 <= length l <= 16 -> fast_universe u lw ->
  map snd lb = map snd l -> map snd lf = map snd l ->
  Forall (pitem_ok u) l -> Forall (bitem_ok u) lb -> Forall (fitem_ok u) lf ->
  (runs = false -> Forall (fun x => f_enc x = false) lf) ->
  exists Ts Tb Tf r,
    each_ok (make_pitem u) l = Ok Ts /\ each_ok (make_bitem u) lb = Ok Tb /\
    each_ok (make_fitem u lw) lf = Ok Tf /\
    forall s1 s2 hc, (1 <= hc)%N ->
      Intersect Bin s1 s2 hc (map bin_ops Ts) false false = Ok r /\
      Intersect Bin s1 s2 hc (map bin_ops Tb) true false = Ok r /\
      Intersect (Fast lw) s1 s2 hc (map fast_ops Tf) runs false = Ok r.
Proof.
  intros u lw l lb lf runs Hu Hn Hf Eb Ef Hl Hlb Hlf He.
  assert (Lb : length lb = length l) by (apply (f_equal (@length _)) in Eb; rewrite !map_length in Eb; exact Eb).
  assert (Lf : length lf = length l) by (apply (f_equal (@length _)) in Ef; rewrite !map_length in Ef; exact Ef).
  destruct (bin_plain_sequential u l Hu Hn Hl) as (Ts & r & E1 & I1 & H1).
  destruct (bin_runs_seq u lb Hu (eq_ind_r (fun n => 1 <= n <= 16) Hn Lb) Hlb) as (Tb & r2 & E2 & I2 & H2).
  destruct (fast_seq_result u lw lf runs Hf (eq_ind_r (fun n => 1 <= n <= 16) Hn Lf) Hlf He) as (Tf & r3 & E3 & I3 & H3).
  exists Ts, Tb, Tf, r. split; auto. split; auto. split; auto. intros s1 s2 hc Hhc.
  split; [apply H1; auto|]. split.
  - rewrite H2 by auto. f_equal. eapply inter_unique; [|exact I2|exact I1]. rewrite Eb. tauto.
  - rewrite H3 by auto. f_equal. eapply inter_unique; [|exact I3|exact I1]. rewrite Ef. tauto.
Qed.

(** Decoding. *)
Theorem variants_decode : forall u lw il jh je s, (3 <= u <= 2 ^ 48)%N -> fast_universe u lw ->
  s <> [] -> increasing s -> below u s -> shorter 32 s ->
  exists tf tl tx, flat_build s u = Ok tf /\ level_build il s u = Ok tl /\ fast_build lw jh je s u = Ok tx /\
    flat_decode tf [] = Ok s /\ level_decode tl [] = Ok s /\ fast_decode tx [] = Ok s.
Proof.
  intros u lw il jh je s Hu (Hlw & Hf) Hne Hs Hb Hl.
  destruct (flat_round_trip_set u s) as (tf & E1 & D1); auto.
  destruct (level_round_trip_set il u s) as (tl & E2 & D2); auto; try lia.
  destruct (fast_round_trip_app lw jh je u s []) as (tx & E3 & D3); auto.
  exists tf, tl, tx. auto 8.
Qed.

Theorem single_is_decode : forall u (x : pitem) s1 s2 hc, (2 <= u <= 2 ^ 48)%N -> pitem_ok u x -> (1 <= hc)%N ->
  exists t r, make_pitem u x = Ok t /\ bin_decode t [] = Ok r /\
    Intersect Bin s1 s2 hc [bin_ops t] false false = Ok r.
Proof.
  intros u x s1 s2 hc Hu Hx Hhc. destruct (pitem_decodes u x Hu Hx) as (t & E & D).
  destruct (bin_plain_sequential u [x] Hu) as (Ts & r & E' & Hi & Hr); auto; [cbn; lia|].
  cbn [each_ok] in E'. rewrite E in E'. cbn [bind] in E'. injection E' as <-.
  exists t, (snd x). split; auto. split; auto. cbn [map] in Hr. rewrite Hr by auto. f_equal.
  eapply inter_unique; [|exact Hi|apply inter_self; apply Hx]. tauto.
Qed.

Theorem single_is_decode_runs : forall u (x : bitem) s1 s2 hc, (2 <= u <= 2 ^ 48)%N -> bitem_ok u x -> (1 <= hc)%N ->
  exists t r, make_bitem u x = Ok t /\ bin_decode t [] = Ok r /\
    Intersect Bin s1 s2 hc [bin_ops t] true false = Ok r.
Proof.
  intros u x s1 s2 hc Hu Hx Hhc. destruct (bitem_decodes u x Hu Hx) as (t & E & D).
  destruct (bin_runs_seq u [x] Hu) as (Ts & r & E' & Hi & Hr); auto; [cbn; lia|].
  cbn [each_ok] in E'. rewrite E in E'. cbn [bind] in E'. injection E' as <-.
  exists t, (snd x). split; auto. split; auto. cbn [map] in Hr. rewrite Hr by auto. f_equal.
  eapply inter_unique; [|exact Hi|apply inter_self; apply Hx]. tauto.
Qed.

Theorem single_is_decode_fast : forall u lw (x : fitem) runs s1 s2 hc, fast_universe u lw -> fitem_ok u x ->
  (runs = false -> f_enc x = false) -> (f_enc x = true -> snd (fst (fst x)) = Some false) -> (1 <= hc)%N ->
  exists t r, make_fitem u lw x = Ok t /\ fast_decode t [] = Ok r /\
    Intersect (Fast lw) s1 s2 hc [fast_ops t] runs false = Ok r.
Proof.
  intros u lw x runs s1 s2 hc Hu Hx He Hj Hhc. destruct (fitem_decodes u lw x Hu Hx Hj) as (t & E & D).
  destruct (fast_seq_result u lw [x] runs Hu) as (Ts & r & E' & Hi & Hr); auto; [cbn; lia|].
  cbn [each_ok] in E'. rewrite E in E'. cbn [bind] in E'. injection E' as <-.
  exists t, (snd x). split; auto. split; auto. cbn [map] in Hr. rewrite Hr by auto. f_equal.
  eapply inter_unique; [|exact Hi|apply inter_self; apply Hx]. tauto.
Qed.

(** Order and multiplicity do not matter; more tries, fewer values. *)
Theorem plain_laws : forall u (l l' : list pitem) s1 s2 hc, (2 <= u <= 2 ^ 48)%N ->
  1 <= length l <= 16 -> 1 <= length l' <= 16 -> Forall (pitem_ok u) l -> Forall (pitem_ok u) l' ->
  (forall x, In x l -> In x l') -> (1 <= hc)%N ->
  exists Ts Ts' r r', each_ok (make_pitem u) l = Ok Ts /\ each_ok (make_pitem u) l' = Ok Ts' /\
    Intersect Bin s1 s2 hc (map bin_ops Ts) false false = Ok r /\
    Intersect Bin s1 s2 hc (map bin_ops Ts') false false = Ok r' /\
    (forall x, In x r' -> In x r) /\ ((forall x, In x l' -> In x l) -> r' = r).
Proof.
  intros u l l' s1 s2 hc Hu Hn Hn' Hl Hl' Hsub Hhc.
  destruct (bin_plain_sequential u l Hu Hn Hl) as (Ts & r & E1 & I1 & H1).
  destruct (bin_plain_sequential u l' Hu Hn' Hl') as (Ts' & r' & E2 & I2 & H2).
  exists Ts, Ts', r, r'. split; auto. split; auto. split; auto. split; auto. split.
  - eapply inter_mono; [|exact I1|exact I2]. intros s Hs. apply in_map_iff in Hs. destruct Hs as (x & <- & Hx).
    apply in_map. auto.
  - intros Hsup. eapply inter_unique; [|exact I2|exact I1]. apply same_members_sets. intros x. split; auto.
Qed.

Theorem runs_laws : forall u (l l' : list bitem) s1 s2 hc, (2 <= u <= 2 ^ 48)%N ->
  1 <= length l <= 16 -> 1 <= length l' <= 16 -> Forall (bitem_ok u) l -> Forall (bitem_ok u) l' ->
  (forall x, In x l -> In x l') -> (1 <= hc)%N ->
  exists Ts Ts' r r', each_ok (make_bitem u) l = Ok Ts /\ each_ok (make_bitem u) l' = Ok Ts' /\
    Intersect Bin s1 s2 hc (map bin_ops Ts) true false = Ok r /\
    Intersect Bin s1 s2 hc (map bin_ops Ts') true false = Ok r' /\
    (forall x, In x r' -> In x r) /\ ((forall x, In x l' -> In x l) -> r' = r).
Proof.
  intros u l l' s1 s2 hc Hu Hn Hn' Hl Hl' Hsub Hhc.
  destruct (bin_runs_seq u l Hu Hn Hl) as (Ts & r & E1 & I1 & H1).
  destruct (bin_runs_seq u l' Hu Hn' Hl') as (Ts' & r' & E2 & I2 & H2).
  exists Ts, Ts', r, r'. split; auto. split; auto. split; auto. split; auto. split.
  - eapply inter_mono; [|exact I1|exact I2]. intros s Hs. apply in_map_iff in Hs. destruct Hs as (x & <- & Hx).
    apply in_map. auto.
  - intros Hsup. eapply inter_unique; [|exact I2|exact I1]. apply same_members_sets. intros x. split; auto.
Qed.

Theorem fast_laws : forall u lw runs (l l' : list fitem) s1 s2 hc, fast_universe u lw ->
  1 <= length l <= 16 -> 1 <= length l' <= 16 -> Forall (fitem_ok u) l -> Forall (fitem_ok u) l' ->
  (runs = false -> Forall (fun x => f_enc x = false) (l ++ l')) ->
  (forall x, In x l -> In x l') -> (1 <= hc)%N ->
  exists Ts Ts' r r', each_ok (make_fitem u lw) l = Ok Ts /\ each_ok (make_fitem u lw) l' = Ok Ts' /\
    Intersect (Fast lw) s1 s2 hc (map fast_ops Ts) runs false = Ok r /\
    Intersect (Fast lw) s1 s2 hc (map fast_ops Ts') runs false = Ok r' /\
    (forall x, In x r' -> In x r) /\ ((forall x, In x l' -> In x l) -> r' = r).
Proof.
  intros u lw runs l l' s1 s2 hc Hu Hn Hn' Hl Hl' He Hsub Hhc.
  assert (He1 : runs = false -> Forall (fun x => f_enc x = false) l).
  { intros Hr. specialize (He Hr). apply Forall_app in He. apply He. }
  assert (He2 : runs = false -> Forall (fun x => f_enc x = false) l').
  { intros Hr. specialize (He Hr). apply Forall_app in He. apply He. }
  destruct (fast_seq_result u lw l runs Hu Hn Hl He1) as (Ts & r & E1 & I1 & H1).
  destruct (fast_seq_result u lw l' runs Hu Hn' Hl' He2) as (Ts' & r' & E2 & I2 & H2).
  exists Ts, Ts', r, r'. split; auto. split; auto. split; auto. split; auto. split.
  - eapply inter_mono; [|exact I1|exact I2]. intros s Hs. apply in_map_iff in Hs. destruct Hs as (x & <- & Hx).
    apply in_map. auto.
  - intros Hsup. eapply inter_unique; [|exact I2|exact I1]. apply same_members_sets. intros x. split; auto.
Qed.

(** ** C40 *)

Theorem bin_memory : forall u (l : list bitem) runs s1 s2 hc,
  (2 <= u <= 2 ^ 48)%N -> 1 <= length l <= 16 -> Forall (bitem_ok u) l ->
  (runs = false -> Forall (fun x : bitem => snd (fst x) = false) l) ->
  (1 <= hc < 2 ^ 16)%N -> (3 <= u \/ hc <= 3)%N -> valid_scheduler s1 -> valid_scheduler s2 ->
  exists Ts r m, each_ok (make_bitem u) l = Ok Ts /\
    Intersect_mem Bin s1 s2 hc (map bin_ops Ts) runs true = Ok (r, m) /\
    NoDup (m_freed m) /\ (forall a, In a (m_freed m) -> a < m_next m) /\
    ((hc <= 3)%N -> Permutation (m_freed m) (seq 0 (m_next m))).
Proof.
  intros u l runs s1 s2 hc Hu Hn Hl He Hhc H3 V1 V2.
  destruct (bin_par_outcome u l runs s1 s2 hc Hu Hn Hl He Hhc H3 V1 V2)
    as (Ts & E & (r & m & Er & _ & _ & _ & M)).
  exists Ts, r, m. split; auto.
Qed.

Theorem fast_memory : forall u lw (l : list fitem) runs s1 s2 hc,
  fast_universe u lw -> 1 <= length l <= 16 -> Forall (fitem_ok u) l ->
  (runs = false -> Forall (fun x => f_enc x = false) l) ->
  (1 <= hc < 2 ^ 16)%N -> (2 ^ N.of_nat lw < u \/ hc = 1)%N -> valid_scheduler s1 -> valid_scheduler s2 ->
  exists Ts r m, each_ok (make_fitem u lw) l = Ok Ts /\
    Intersect_mem (Fast lw) s1 s2 hc (map fast_ops Ts) runs true = Ok (r, m) /\
    NoDup (m_freed m) /\ (forall a, In a (m_freed m) -> a < m_next m) /\
    ((hc <= 3)%N -> Permutation (m_freed m) (seq 0 (m_next m))).
Proof.
  intros u lw l runs s1 s2 hc Hu Hn Hl He Hhc H3 V1 V2.
  destruct (fast_par_outcome u lw l runs s1 s2 hc Hu Hn Hl He Hhc H3 V1 V2)
    as (Ts & E & (r & m & Er & _ & _ & _ & M)).
  exists Ts, r, m. split; auto.
Qed.

(** ** C32 *)

Theorem level_two_values : forall il s, increasing s -> below 2 s ->
  (exists t, level_build il s 2 = Ok t /\ level_decode t [] = Ok s) /\
  (forall (l : list pitem), 1 <= length l <= 16 -> Forall (pitem_ok 2) l ->
   exists Ts r, each_ok (make_pitem 2) l = Ok Ts /\ is_intersection (map snd l) r /\
     forall s1 s2 hc, (1 <= hc)%N -> Intersect Bin s1 s2 hc (map bin_ops Ts) false false = Ok r).
Proof.
  intros il s Hs Hb. assert (H2 : (2 <= 2 <= 2 ^ 48)%N) by (split; discriminate).
  split; [apply level_round_trip_set; auto|].
  intros l Hn Hl. apply bin_plain_sequential; auto.
Qed.

Theorem fast_one_word : forall lw u jh je s, In lw [3; 4; 5; 6] ->
  (2 ^ N.of_nat lw < 2 * u)%N -> (u <= 2 ^ N.of_nat lw)%N -> fast_ok u s ->
  (exists t, fast_build lw jh je s u = Ok t /\ fast_decode t [] = Ok s) /\
  (forall (l : list fitem), 1 <= length l <= 16 -> Forall (fitem_ok u) l -> Forall (fun x => f_enc x = false) l ->
   exists Ts r, each_ok (make_fitem u lw) l = Ok Ts /\ is_intersection (map snd l) r /\
     forall s1 s2 hc, (1 <= hc)%N -> Intersect (Fast lw) s1 s2 hc (map fast_ops Ts) false false = Ok r).
Proof.
  intros lw u jh je s Hlw Hl Hu (Hne & Hs & Hb & Hlen).
  assert (Hf : fast_universe u lw).
  { split; auto. split; auto. assert (2 ^ N.of_nat lw <= 2 ^ 6)%N; [|lia].
    apply N.pow_le_mono_r; [lia|]. cbn in Hlw. lia. }
  split; [apply (fast_round_trip_app lw jh je u s []); auto; apply Hf|].
  intros l Hn Hok He. apply fast_seq_result; auto.
Qed.
