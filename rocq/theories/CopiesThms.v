(** Proofs about copies of tries. *)

From Verif Require Import Base FlatTrie LevelTrie FastTrie ParallelFor Intersection Tries Copies Facts
  Spec SpecTries SpecFiles SpecCopies Split Tree Groups Reps Layout BuildFlat BuildLevel BuildFast WordBits DecodeFast
  RoundTrip RoundTripFacts Compress WriteOnes CompressFast RunsFacts RunsThms SerializeSound.

Lemma put_spec : forall m a o m', put m a o = Ok m' ->
  a < length m /\ length m' = length m /\ nth_error m' a = Some o /\
  forall b, b <> a -> nth_error m' b = nth_error m b.
Proof.
  intros m a o m' H. unfold put in H. apply bind_inv in H. destruct H as (x & _ & H).
  assert (L : a < length m).
  { unfold vset in H. destruct (a <? length m) eqn:E; [|discriminate]. apply Nat.ltb_lt in E. auto. }
  destruct (vset_spec _ m a o L) as (l & E & EL & En). rewrite E in H. injection H as <-.
  split; auto. split; auto. rewrite En, Nat.eqb_refl. split; auto.
  intros b Hb. rewrite En. destruct (b =? a) eqn:X; auto. apply Nat.eqb_eq in X. congruence.
Qed.

(** An event leaves the cells it does not touch. *)
Lemma step_keeps : forall m e m' a, step m e = Ok m' -> a < length m -> ~ touches a e ->
  nth_error m' a = nth_error m a /\ a < length m'.
Proof.
  intros m e m' a H Ha Ht. destruct e; cbn [step touches] in *.
  - apply bind_inv in H. destruct H as (t & _ & H). injection H as <-. rewrite app_length, nth_error_app1; auto. split; auto. lia.
  - apply bind_inv in H. destruct H as (t & _ & H). injection H as <-. rewrite app_length, nth_error_app1; auto. split; auto. lia.
  - apply bind_inv in H. destruct H as (t & _ & H). apply put_spec in H. destruct H as (H1 & H2 & H3 & H4).
    rewrite H4 by auto. split; auto. lia.
  - apply put_spec in H. destruct H as (H1 & H2 & H3 & H4). rewrite H4 by auto. split; auto. lia.
  - apply bind_inv in H. destruct H as (t & _ & H). apply bind_inv in H. destruct H as (t' & _ & H).
    apply put_spec in H. destruct H as (H1 & H2 & H3 & H4). rewrite H4 by auto. split; auto. lia.
  - apply put_spec in H. destruct H as (H1 & H2 & H3 & H4). rewrite H4 by auto. split; auto. lia.
  - apply bind_inv in H. destruct H as (t & _ & H). apply bind_inv in H. destruct H as (t' & _ & H).
    injection H as <-. auto.
Qed.

Lemma run_keeps : forall es m m' a, run m es = Ok m' -> a < length m -> Forall (fun e => ~ touches a e) es ->
  nth_error m' a = nth_error m a.
Proof.
  induction es as [|e es IH]; intros m m' a H Ha Ht; cbn [run] in H.
  - injection H as <-. auto.
  - apply bind_inv in H. destruct H as (m1 & H1 & H). inversion Ht; subst.
    destruct (step_keeps _ _ _ _ H1 Ha) as (E & L); auto. rewrite <- E. eapply IH; eauto.
Qed.

Lemma at_address_inv : forall m a o, at_address m a = Ok o -> nth_error m a = Some (Some o).
Proof. intros m a o H. unfold at_address in H. destruct (nth_error m a) as [[x|]|]; try discriminate. congruence. Qed.

Lemma decode_at_same : forall m m' a b o, nth_error m a = Some (Some o) -> nth_error m' b = Some (Some o) ->
  nth_error m' (o_src o) = nth_error m (o_src o) -> decode_at m' b = decode_at m a.
Proof.
  intros m m' a b o H1 H2 H3. unfold decode_at, view, at_address, rank_valid. rewrite H1, H2. cbn [bind].
  rewrite H3. reflexivity.
Qed.

Theorem copy_stays : forall m a o m' es,
  at_address m a = Ok o -> o_src o < length m ->
  run m (Copy a :: es) = Ok m' ->
  Forall (fun e => ~ touches (length m) e /\ ~ touches (o_src o) e) es ->
  decode_at m' (length m) = decode_at m a.
Proof.
  intros m a o m' es Ha Hs H Ht. cbn [run step] in H. rewrite Ha in H. cbn [bind] in H.
  apply at_address_inv in Ha.
  assert (K1 : nth_error m' (length m) = Some (Some o)).
  { erewrite run_keeps; [|exact H| |].
    - rewrite nth_error_app2, Nat.sub_diag; auto.
    - rewrite app_length. cbn. lia.
    - eapply Forall_impl; [|exact Ht]. intros e (X & _). exact X. }
  assert (K2 : nth_error m' (o_src o) = nth_error m (o_src o)).
  { erewrite run_keeps; [|exact H| |].
    - apply nth_error_app1. auto.
    - rewrite app_length. cbn. lia.
    - eapply Forall_impl; [|exact Ht]. intros e (_ & X). exact X. }
  eapply decode_at_same; eauto.
Qed.

(** The original does not depend on its copies. *)
Theorem original_stays : forall m a o m' es,
  at_address m a = Ok o -> o_src o < length m ->
  run m (Copy a :: es) = Ok m' ->
  Forall (fun e => ~ touches a e /\ ~ touches (o_src o) e) es ->
  decode_at m' a = decode_at m a.
Proof.
  intros m a o m' es Ha Hs H Ht. cbn [run step] in H. rewrite Ha in H. cbn [bind] in H.
  apply at_address_inv in Ha.
  assert (La : a < length m) by (apply nth_error_Some; congruence).
  assert (K1 : nth_error m' a = Some (Some o)).
  { erewrite run_keeps; [|exact H| |].
    - rewrite nth_error_app1; auto.
    - rewrite app_length. lia.
    - eapply Forall_impl; [|exact Ht]. intros e (X & _). exact X. }
  assert (K2 : nth_error m' (o_src o) = nth_error m (o_src o)).
  { erewrite run_keeps; [|exact H| |].
    - apply nth_error_app1. auto.
    - rewrite app_length. cbn. lia.
    - eapply Forall_impl; [|exact Ht]. intros e (_ & X). exact X. }
  eapply decode_at_same; eauto.
Qed.

(** In a reachable memory every object points to an address that exists. *)
Definition closed (m : memory) : Prop :=
  forall a o, nth_error m a = Some (Some o) -> o_src o < length m.

Lemma step_closed : forall m e m', closed m -> step m e = Ok m' -> closed m'.
Proof.
  intros m e m' C H.
  assert (App : forall o, o_src o <= length m -> closed (m ++ [Some o])).
  { intros o Ho a p Hp. rewrite app_length. cbn [length]. destruct (Nat.lt_ge_cases a (length m)).
    - rewrite nth_error_app1 in Hp by auto. apply C in Hp. lia.
    - rewrite nth_error_app2 in Hp by auto. destruct (a - length m) as [|n]; cbn in Hp.
      + injection Hp as <-. lia.
      + destruct n; discriminate. }
  assert (Put : forall a o, (forall p, o = Some p -> o_src p < length m) -> put m a o = Ok m' -> closed m').
  { intros a o Ho Hp. apply put_spec in Hp. destruct Hp as (H1 & H2 & H3 & H4). intros b p Hb. rewrite H2.
    destruct (Nat.eq_dec b a) as [->|Hne].
    - rewrite H3 in Hb. injection Hb as ->. apply Ho. auto.
    - rewrite H4 in Hb by auto. eapply C; eauto. }
  assert (Alive : forall a o, put m a o = Ok m' -> a < length m).
  { intros a o Hp. apply put_spec in Hp. tauto. }
  destruct e; cbn [step] in H.
  - apply bind_inv in H. destruct H as (t & _ & H). injection H as <-. apply App. cbn. auto.
  - apply bind_inv in H. destruct H as (o & Ho & H). injection H as <-. apply App.
    apply at_address_inv in Ho. apply C in Ho. lia.
  - apply bind_inv in H. destruct H as (o & Ho & H). eapply Put; [|exact H]. intros p [= <-].
    apply at_address_inv in Ho. eapply C; eauto.
  - eapply Put; [|exact H]. discriminate.
  - apply bind_inv in H. destruct H as (t & _ & H). apply bind_inv in H. destruct H as (t' & _ & H).
    eapply Put; [|exact H]. intros p [= <-]. cbn. eauto.
  - eapply Put; [|exact H]. intros p [= <-]. cbn. eauto.
  - apply bind_inv in H. destruct H as (t & _ & H). apply bind_inv in H. destruct H as (t' & _ & H).
    injection H as <-. auto.
Qed.

Lemma run_closed : forall es m m', closed m -> run m es = Ok m' -> closed m'.
Proof.
  induction es as [|e es IH]; intros m m' C H; cbn [run] in H.
  - injection H as <-. auto.
  - apply bind_inv in H. destruct H as (m1 & H1 & H). eapply IH; [|exact H]. eapply step_closed; eauto.
Qed.

Theorem copies_partial : forall before m a o es m',
  run [] before = Ok m -> at_address m a = Ok o ->
  run m (Copy a :: es) = Ok m' ->
  Forall (fun e => ~ touches (length m) e /\ ~ touches (o_src o) e) es ->
  decode_at m' (length m) = decode_at m a.
Proof.
  intros before m a o es m' Hb Ha H Ht. eapply copy_stays; eauto.
  assert (C : closed m). { eapply run_closed; [|exact Hb]. intros x p Hx. destruct x; discriminate. }
  eapply C. apply at_address_inv. eauto.
Qed.

(** * A copy whose original is gone *)

Lemma decode_needs_left : forall h gn gl gr v, 2 <= h <= 48 ->
  gl 0 0 = UB OutOfBounds -> gr 0 0 = UB OutOfBounds ->
  (exists n, gn 0 0 = Ok n /\ (n =? 1 = true \/ n =? 2 = true \/ n =? 3 = true)%N) ->
  recursiveDecode h h gn gl gr (S h) v 0 0 0 = UB OutOfBounds.
Proof.
  intros h gn gl gr v Hh Hl Hr (n & Hn & Hc). cbn [recursiveDecode].
  destruct (0 =? h) eqn:H0; [apply Nat.eqb_eq in H0; lia|]. rewrite Hn. cbn [bind].
  destruct (n =? 2)%N eqn:E2, (n =? 3)%N eqn:E3; cbn [orb]; rewrite ?Hl; cbn [bind]; auto.
  destruct (n =? 1)%N eqn:E1; cbn [orb].
  - rewrite shl1_pow2 by lia. cbn [bind]. rewrite Hr. auto.
  - destruct Hc as [|[|]]; discriminate.
Qed.

Lemma unranked_decode : forall k s u t, needs_rank k s u -> any_make k s u = Ok t ->
  any_decode (unranked t) [] = UB OutOfBounds.
Proof.
  intros k s u t H Ht. destruct k as [v|lw jh je]; cbn [needs_rank any_make] in *.
  - destruct H as (Hu & Hne & Hp). apply bind_inv in Ht. destruct Ht as (b & Hb & Ht). injection Ht as <-.
    destruct Hp as (Hs & Hbl & Hv). destruct v as [il|il].
    + destruct Hv as (_ & _ & Hsh). cbn [bin_build] in Hb. apply bind_inv in Hb. destruct Hb as (f & Hf & Hb). injection Hb as <-.
      destruct (flat_built u s ltac:(lia) Hne Hs Hbl Hsh) as (h & t1 & Ht1 & Hh & Hpw & L & Hpl & Hr & He & E).
      rewrite Hf in Ht1. injection Ht1 as <-.
      assert (Hd : flat_decode f [] = Ok s).
      { destruct (flat_round_trip_app u s [] ltac:(lia) Hne Hs Hbl Hsh) as (t1 & H1 & H2). rewrite Hf in H1. injection H1 as <-. exact H2. }
      assert (EH : f_height f = h) by apply L.
      assert (H2 : 2 <= h).
      { destruct h as [|[|h]]; [cbn in Hpw; lia|change (pow2 1) with 2%N in Hpw; lia|lia]. }
      cbn [unranked any_decode bin_decode]. unfold flat_decode in *. cbn [f_runs_encoded f_height]. rewrite Hr in *. rewrite EH in *.
      set (f' := mkFlat _ _ _ _ _ _ _).
      assert (EH' : f_height f' <=? 1 = false).
      { unfold f'. cbn [f_height]. apply Nat.leb_gt. lia. }
      apply decode_needs_left; [lia| | |].
      * unfold flat_getLeftChild. rewrite EH'. reflexivity.
      * unfold flat_getRightChild. rewrite EH'. reflexivity.
      * replace (flat_getNode f' 0 0) with (flat_getNode f 0 0)
          by (unfold f', flat_getNode; cbn [f_height f_bTrie f_lastLevel]; rewrite ?EH; reflexivity). revert Hd. cbn [recursiveDecode].
        destruct (0 =? h) eqn:H0; [apply Nat.eqb_eq in H0; lia|].
        destruct (flat_getNode f 0 0) as [n| |]; cbn [bind]; try discriminate. intros Hd. exists n. split; auto.
        destruct (n =? 1)%N, (n =? 2)%N, (n =? 3)%N; auto. cbn [orb bind] in Hd. congruence.
    + cbn [bin_build] in Hb. apply bind_inv in Hb. destruct Hb as (f & Hf & Hb). injection Hb as <-.
      destruct (level_built il u s ltac:(lia) Hne Hs Hbl) as (h & t1 & Ht1 & Hh & Hpw & L & Hpl & Hr & He & E).
      rewrite Hf in Ht1. injection Ht1 as <-.
      assert (Hd : level_decode f [] = Ok s).
      { destruct (level_round_trip_app il u s [] ltac:(lia) Hs Hbl) as (t1 & H1 & H2). rewrite Hf in H1. injection H1 as <-. exact H2. }
      assert (EH := level_height _ _ _ L).
      assert (H2 : 2 <= h).
      { destruct h as [|[|h]]; [cbn in Hpw; lia|change (pow2 1) with 2%N in Hpw; lia|lia]. }
      cbn [unranked any_decode bin_decode]. unfold level_decode in *. cbn [l_runs_encoded]. rewrite Hr in *.
      set (f' := mkLevel _ _ _ _ _ _).
      change (level_getHeight f') with (level_getHeight f). rewrite EH in *.
      assert (EH' : level_getHeight f' <=? 1 = false).
      { change (level_getHeight f') with (level_getHeight f). rewrite EH. apply Nat.leb_gt. lia. }
      apply decode_needs_left; [lia| | |].
      * unfold level_getLeftChild. rewrite EH'. reflexivity.
      * unfold level_getRightChild. rewrite EH'. reflexivity.
      * change (level_getNode f' 0 0) with (level_getNode f 0 0). revert Hd. cbn [recursiveDecode].
        destruct (0 =? h) eqn:H0; [apply Nat.eqb_eq in H0; lia|].
        destruct (level_getNode f 0 0) as [n| |]; cbn [bind]; try discriminate. intros Hd. exists n. split; auto.
        destruct (n =? 1)%N, (n =? 2)%N, (n =? 3)%N; auto. cbn [orb bind] in Hd. congruence.
  - destruct H as ((Hlw & Hu) & Hbig & (Hne & Hs & Hbl & Hsh)). apply bind_inv in Ht. destruct Ht as (f & Hf & Ht). injection Ht as <-.
    destruct (fast_built lw jh je u s Hlw Hu Hne Hs Hbl Hsh)
      as (d & t & Ht & Hd & Hp & L & Hpl & Hr & He & E1 & E2 & Hal & E).
    rewrite Hf in Ht. injection Ht as <-.
    assert (Hdec : fast_decode f [] = Ok s).
    { destruct (fast_round_trip_app lw jh je u s [] Hlw Hu Hne Hs Hbl Hsh) as (t1 & H1 & H2). rewrite Hf in H1. injection H1 as <-. exact H2. }
    assert (EH : x_height f = S d) by apply L.
    assert (H1 : 1 <= d).
    { destruct d; [|lia]. exfalso. clear - Hp Hbig. unfold pow2 in Hp. rewrite Nat.add_0_l in Hp. lia. }
    cbn [unranked any_decode]. unfold fast_decode in *. cbn [x_runs_encoded x_height]. rewrite Hr in *. rewrite EH in *.
    set (f' := mkFast _ _ _ _ _ _ _ _ _).
    assert (EH' : x_height f' <=? 1 = false).
    { unfold f'. cbn [x_height]. apply Nat.leb_gt. lia. }
    revert Hdec. cbn [fast_recursiveDecode].
    assert (E1' : 1 =? x_height f = false) by (rewrite EH; apply Nat.eqb_neq; lia).
    replace (x_height f') with (S d) by reflexivity. rewrite EH in E1'. rewrite EH, E1'.
    replace (fast_getNode f' 0 0) with (fast_getNode f 0 0)
      by (unfold f', fast_getNode; cbn [x_height x_bTrie x_lastLevel]; rewrite ?EH; reflexivity). destruct (fast_getNode f 0 0) as [n| |]; cbn [bind]; try discriminate.
    assert (UL : fast_getLeftChild f' 0 0 = UB OutOfBounds) by (unfold fast_getLeftChild; rewrite EH'; reflexivity).
    assert (UR : fast_getRightChild f' 0 0 = UB OutOfBounds) by (unfold fast_getRightChild; rewrite EH'; reflexivity).
    rewrite UL, UR. destruct ((n =? 2)%N || (n =? 3)%N)%bool; cbn [bind]; auto.
    destruct ((n =? 1)%N || (n =? 3)%N)%bool; [|intros [= X]; congruence]. intros _.
    rewrite shl1_pow2; [reflexivity|]. replace (x_height_u f') with (d + lw) by (symmetry; exact E2). lia.
Qed.

Lemma made_ok : forall k s u, needs_rank k s u -> exists t, any_make k s u = Ok t /\ any_decode t [] = Ok s.
Proof.
  intros [v|lw jh je] s u H; cbn [needs_rank any_make] in *.
  - destruct H as (Hu & Hne & (Hs & Hbl & Hv)). destruct v as [il|il]; cbn [bin_build].
    + destruct Hv as (_ & _ & Hsh).
      destruct (flat_round_trip_app u s [] ltac:(lia) Hne Hs Hbl Hsh) as (t & H1 & H2).
      rewrite H1. cbn [bind]. eexists. split; [reflexivity|]. exact H2.
    + destruct (level_round_trip_app il u s [] ltac:(lia) Hs Hbl) as (t & H1 & H2).
      rewrite H1. cbn [bind]. eexists. split; [reflexivity|]. exact H2.
  - destruct H as ((Hlw & Hu) & Hbig & (Hne & Hs & Hbl & Hsh)).
    destruct (fast_round_trip_app lw jh je u s [] Hlw Hu Hne Hs Hbl Hsh) as (t & H1 & H2).
    rewrite H1. cbn [bind]. eexists. split; [reflexivity|]. exact H2.
Qed.

(** A destroyed object stays destroyed. *)
Lemma dead_stays : forall es m m' a, run m es = Ok m' -> nth_error m a = Some None -> nth_error m' a = Some None.
Proof.
  induction es as [|e es IH]; intros m m' a H Ha; cbn [run] in H.
  - injection H as <-. auto.
  - apply bind_inv in H. destruct H as (m1 & H1 & H). eapply IH; [exact H|].
    assert (La : a < length m) by (apply nth_error_Some; congruence).
    assert (P : forall b o, put m b o = Ok m1 -> nth_error m1 a = Some None).
    { intros b o Hp. assert (Q := Hp). apply put_spec in Q. destruct Q as (Q1 & Q2 & Q3 & Q4).
      destruct (Nat.eq_dec a b) as [->|Hne]; [|rewrite Q4; auto].
      unfold put, at_address in Hp. rewrite Ha in Hp. discriminate. }
    destruct e; cbn [step] in H1.
    + apply bind_inv in H1. destruct H1 as (x & _ & H1). injection H1 as <-. rewrite nth_error_app1; auto.
    + apply bind_inv in H1. destruct H1 as (x & _ & H1). injection H1 as <-. rewrite nth_error_app1; auto.
    + apply bind_inv in H1. destruct H1 as (x & _ & H1). eauto.
    + eauto.
    + apply bind_inv in H1. destruct H1 as (x & _ & H1). apply bind_inv in H1. destruct H1 as (y & _ & H1). eauto.
    + eauto.
    + apply bind_inv in H1. destruct H1 as (x & _ & H1). apply bind_inv in H1. destruct H1 as (y & _ & H1).
      injection H1 as <-. auto.
Qed.

Theorem copy_of_destroyed : forall k s u m, needs_rank k s u ->
  let a := length m in
  let c := S a in
  exists m1 m2,
    run m [Make k s u; Copy a] = Ok m1 /\ decode_at m1 a = Ok s /\ decode_at m1 c = Ok s /\
    run m1 [Destroy a] = Ok m2 /\
    forall es m3, run m2 es = Ok m3 -> Forall (fun e => ~ touches c e) es ->
      decode_at m3 c = UB OutOfBounds.
Proof.
  intros k s u m H a c. destruct (made_ok k s u H) as (t & Ht & Hd).
  assert (R : firstn (length (any_rank t)) (any_bits t) = any_rank t).
  { destruct k as [v|lw jh je]; cbn [any_make needs_rank] in *.
    - destruct H as (Hu & Hne & (Hs & Hbl & Hv)). apply bind_inv in Ht. destruct Ht as (b & Hb & Ht). injection Ht as <-.
      destruct v as [il|il]; cbn [bin_build] in Hb; apply bind_inv in Hb; destruct Hb as (f & Hf & Hb); injection Hb as <-.
      + destruct Hv as (_ & _ & Hsh).
        destruct (flat_built u s ltac:(lia) Hne Hs Hbl Hsh) as (h & t1 & Ht1 & Hh & Hpw & L & _).
        rewrite Hf in Ht1. injection Ht1 as <-. cbn. f_equal. symmetry. apply L.
      + destruct (level_built il u s ltac:(lia) Hne Hs Hbl) as (h & t1 & Ht1 & Hh & Hpw & L & _).
        rewrite Hf in Ht1. injection Ht1 as <-. cbn.
        destruct L as (L1 & L2 & L3 & L4). rewrite L4, L3.
        rewrite <- (firstn_skipn (h - 1) (levels h (tree_of (fun _ => tt) 0 h s))) at 2.
        rewrite firstn_app, Nat.sub_diag, firstn_all, app_nil_r. reflexivity.
    - destruct H as ((Hlw & Hu) & Hbig & (Hne & Hs & Hbl & Hsh)).
      apply bind_inv in Ht. destruct Ht as (f & Hf & Ht). injection Ht as <-.
      destruct (fast_built lw jh je u s Hlw Hu Hne Hs Hbl Hsh) as (d & t1 & Ht1 & Hd' & Hp & L & _).
      rewrite Hf in Ht1. injection Ht1 as <-. cbn. f_equal. symmetry. apply L. }
  set (o := mkObj t a).
  assert (Z : forall m1, nth_error m1 a = Some (Some o) -> rank_valid m1 o = true).
  { intros m1 E. unfold rank_valid. change (o_src o) with a. rewrite E. change (o_trie o) with t.
    destruct (list_eq_dec _ _ _); auto. }
  assert (D : forall m1 b, nth_error m1 a = Some (Some o) -> nth_error m1 b = Some (Some o) -> decode_at m1 b = Ok s).
  { intros m1 b E1 E2. unfold decode_at, view, at_address. rewrite E2. cbn [bind]. rewrite Z by auto. exact Hd. }
  assert (A1 : nth_error (m ++ [Some o]) a = Some (Some o)) by (rewrite nth_error_app2, Nat.sub_diag by auto; reflexivity).
  assert (La : length (m ++ [Some o]) = c) by (rewrite app_length; cbn; unfold c, a; lia).
  set (m1 := (m ++ [Some o]) ++ [Some o]).
  assert (B1 : nth_error m1 a = Some (Some o)) by (unfold m1; rewrite nth_error_app1; auto; unfold c in La; lia).
  assert (B2 : nth_error m1 c = Some (Some o)).
  { unfold m1. rewrite nth_error_app2 by lia. rewrite La, Nat.sub_diag. reflexivity. }
  assert (Lm : a < length m1) by (apply nth_error_Some; congruence).
  destruct (vset_spec _ m1 a None Lm) as (m2 & E & EL & En).
  exists m1, m2. split; [|split; [|split; [|split]]].
  - cbn [run step]. rewrite Ht. cbn [bind]. fold a. fold o. unfold at_address. rewrite A1. reflexivity.
  - apply D; auto.
  - apply D; auto.
  - cbn [run step]. unfold put, at_address. rewrite B1. cbn [bind]. rewrite E. reflexivity.
  - intros es m3 H3 Hes.
    assert (N1 : nth_error m2 a = Some None) by (rewrite En, Nat.eqb_refl; auto).
    assert (N2 : nth_error m2 c = Some (Some o)).
    { rewrite En. destruct (c =? a) eqn:X; auto. apply Nat.eqb_eq in X. unfold c in X. lia. }
    assert (Lc : c < length m2) by (apply nth_error_Some; congruence).
    apply (dead_stays _ _ _ _ H3) in N1. rewrite <- (run_keeps _ _ _ _ H3 Lc Hes) in N2.
    unfold decode_at, view, at_address. rewrite N2. cbn [bind]. unfold rank_valid. change (o_src o) with a.
    rewrite N1. apply (unranked_decode k s u); auto.
Qed.

Theorem original_partial : forall before m a o es m',
  run [] before = Ok m -> at_address m a = Ok o ->
  run m (Copy a :: es) = Ok m' ->
  Forall (fun e => ~ touches a e /\ ~ touches (o_src o) e) es ->
  decode_at m' a = decode_at m a.
Proof.
  intros before m a o es m' Hb Ha H Ht. eapply original_stays; eauto.
  assert (C : closed m). { eapply run_closed; [|exact Hb]. intros x p Hx. destruct x; discriminate. }
  eapply C. apply at_address_inv. eauto.
Qed.
