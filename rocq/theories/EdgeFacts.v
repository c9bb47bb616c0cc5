(** Empty sets and the one-argument constructors. *)

From Verif Require Import Base Split FlatTrie LevelTrie FastTrie Facts Spec BuildLevel RoundTrip.

(** ** The one-argument constructors *)

Lemma flat_one_arg : forall junk s t, s <> [] -> flat_build1 junk s = Ok t ->
  flat_decode t [] = (if junk =? 0 then Ok [0%N] else UB OutOfBounds).
Proof.
  intros junk s t Hs H. unfold flat_build1 in H. destruct s as [|x s]; [contradiction|].
  apply bind_inv in H. destruct H as (t0 & _ & H). inversion H; subst t. clear H.
  unfold flat_decode. cbn [f_runs_encoded f_height].
  destruct junk as [|[|junk]]; reflexivity.
Qed.

Lemma level_one_arg : forall il s t, s <> [] -> level_build1 il s = Ok t ->
  level_decode t [] = Ok [0%N].
Proof.
  intros il s t Hs H. unfold level_build1 in H. destruct s as [|x s]; [contradiction|].
  apply bind_inv in H. destruct H as (t0 & _ & H). inversion H; subst t. reflexivity.
Qed.

Lemma height_of_0 : height_of 0 = UB Unmodelled.
Proof. reflexivity. Qed.

Lemma flat_one_arg_loses : forall junk s t, s <> [] -> flat_build1 junk s = Ok t ->
  flat_decode t [] <> Ok s.
Proof.
  intros junk s t Hs H E. rewrite (flat_one_arg junk s t Hs H) in E.
  destruct (junk =? 0); [|discriminate]. inversion E; subst s.
  unfold flat_build1 in H. cbn [last] in H. unfold flat_build in H. rewrite height_of_0 in H.
  discriminate.
Qed.

Lemma level_one_arg_loses : forall il s t, s <> [] -> level_build1 il s = Ok t ->
  level_decode t [] <> Ok s.
Proof.
  intros il s t Hs H E. rewrite (level_one_arg il s t Hs H) in E. inversion E; subst s.
  unfold level_build1 in H. cbn [last] in H. unfold level_build in H. rewrite height_of_0 in H.
  discriminate.
Qed.

Lemma fast_one_arg_loses : forall lw jh jhu jr je s t, s <> [] ->
  fast_build1 lw jh jhu jr je s = Ok t -> fast_decode t [] <> Ok s.
Proof.
  intros lw jh jhu jr je s t Hs H E. unfold fast_build1 in H. destruct s as [|x s]; [contradiction|].
  apply bind_inv in H. destruct H as (t0 & _ & H). inversion H; subst t. clear H.
  unfold fast_decode in E. cbn [x_runs_encoded x_empty_trie x_height] in E.
  destruct jr.
  - destruct je as [[|]|]; cbn [oget bind] in E; try discriminate.
    cbn [fast_runsRecursiveDecode x_height] in E. destruct (1 =? jh); discriminate.
  - cbn [fast_recursiveDecode x_height] in E. destruct (1 =? jh); discriminate.
Qed.

(** ** Empty sets *)

Lemma flat_empty_ub : forall u h, height_of u = Ok h -> 1 <= h <= 48 ->
  flat_build [] u = UB OutOfBounds.
Proof.
  intros u h Hu Hh. unfold flat_build. rewrite Hu. cbn [bind].
  destruct h as [|h]; [lia|]. unfold fb_fuel. cbn [length].
  replace (S h * 1) with (S h) by lia. cbn [fb_loop fb_q fb_init].
  unfold fb_step, first_seg32, Split.split. cbn [fb_level length fb_init].
  replace ((S h - 0 =? 0) || (64 <? S h - 0))%bool with false
    by (symmetry; apply orb_false_iff; split; [reflexivity | apply Nat.ltb_ge; lia]).
  reflexivity.
Qed.

Lemma fast_empty_ub : forall lw jh je u h, height_of u = Ok h -> 1 <= h <= 48 -> lw <= h ->
  fast_build lw jh je [] u = UB OutOfBounds.
Proof.
  intros lw jh je u h Hu Hh Hl. unfold fast_build. rewrite Hu. cbn [bind].
  replace (h + 1 <? lw) with false by (symmetry; apply Nat.ltb_ge; lia).
  cbn [length]. replace (S h * 1) with (S h) by lia.
  cbn [xb_loop xb_q xb_init]. unfold xb_step, first_seg32. cbn [xb_level xb_init].
  destruct (1 =? h + 1 - lw).
  - reflexivity.
  - unfold Split.split. cbn [xb_level].
    replace ((h - 0 =? 0) || (64 <? h - 0))%bool with false
      by (symmetry; apply orb_false_iff; split; [apply Nat.eqb_neq; lia | apply Nat.ltb_ge; lia]).
    reflexivity.
Qed.

Lemma empty_sizes : forall n i bt ll p, length bt <= length p -> Forall (fun x => x = 0) p ->
  i + n <= length p ->
  for_loop n i (fun level '(bt, last_level) =>
    let* p := vget p level in
    if 0 <? p
    then let* bt := vset bt level (bv_make p) in Ok (bt, level)
    else Ok (bt, last_level)) (bt, ll) = Ok (bt, ll).
Proof.
  induction n as [|n IH]; intros i bt ll p H1 H2 H3; cbn [for_loop]; auto.
  destruct (nth_error p i) as [x|] eqn:E; [|apply nth_error_None in E; lia].
  rewrite (vget_nth _ _ _ _ E). cbn [bind].
  rewrite Forall_forall in H2. apply nth_error_In in E as E'. rewrite (H2 x E').
  cbn [Nat.ltb Nat.leb bind]. apply IH; auto; [|lia]. apply Forall_forall; auto.
Qed.

Lemma repeat_all : forall A (x : A) n, Forall (fun y => y = x) (repeat x n).
Proof. intros. apply Forall_forall. intros y Hy. eapply repeat_spec; eauto. Qed.

Lemma vset_same : forall A (l : list A) i x, nth_error l i = Some x -> vset l i x = Ok l.
Proof.
  intros A l i x H. destruct (split_at _ _ _ _ H) as (a & b & -> & L).
  apply vset_app_mid. auto.
Qed.

Lemma empty_write : forall n i h, i + n <= h ->
  for_loop n i (fun level bt =>
      let* os := vget (repeat (@nil nat) h) level in
      let* bv := vget bt level in
      let* bv := set_ones bv 0 os in
      vset bt level bv) (repeat (@nil bool) h) = Ok (repeat [] h).
Proof.
  induction n as [|n IH]; intros i h H; cbn [for_loop]; auto.
  assert (E1 : nth_error (repeat (@nil nat) h) i = Some []) by (apply nth_error_repeat; lia).
  assert (E2 : nth_error (repeat (@nil bool) h) i = Some []) by (apply nth_error_repeat; lia).
  rewrite (vget_nth _ _ _ _ E1). cbn [bind]. rewrite (vget_nth _ _ _ _ E2). cbn [bind].
  unfold set_ones at 1. cbn [length for_loop bind]. rewrite (vset_same _ _ _ _ E2). cbn [bind].
  apply IH. lia.
Qed.

(** After encodeRuns the empty level-wise trie cannot be decoded: with a universe of
    two values it decodes to both, with any other the first access is out of range. *)
Lemma level_empty_runs : forall il u t, (2 <= u <= 2 ^ 48)%N -> level_build il [] u = Ok t ->
  exists t', level_encodeRuns t = Ok t' /\
    level_decode t' [] = if N.eqb u 2 then Ok [0; 1]%N else UB OutOfBounds.
Proof.
  intros il u t Hu H.
  destruct (height_of_spec u ltac:(lia)) as (h & Hh & Hr & Hp & H2 & _).
  destruct (N.eqb_spec u 2) as [->|Hn].
  - rewrite level_build_empty1 in H. inversion H; subst t.
    destruct il; eexists; split; reflexivity.
  - rewrite (level_build_empty il u h) in H by (auto; lia). inversion H; subst t. clear H.
    assert (HH : forall a b c d, level_getHeight (mkLevel a b c d (empty_levels h)
                    (firstn (h - 1) (empty_levels h))) = h).
    { intros. unfold level_getHeight, empty_levels. cbn [l_bTrie]. rewrite map_length, seq_length. auto. }
    unfold level_encodeRuns, compress_run. rewrite HH.
    assert (G : forall f g, writeCompressTrie h (level_getNode (mkLevel il 0 false false (empty_levels h)
                    (firstn (h - 1) (empty_levels h)))) f g (S h) (repeat [] h, repeat 0 h) 0 0 false
                = Ok ((repeat [] h, repeat 0 h), false)).
    { intros f g. cbn [writeCompressTrie]. destruct h as [|[|h]]; [lia|lia|].
      unfold level_getNode. unfold empty_levels at 1. cbn [l_bTrie seq map]. reflexivity. }
    rewrite G. cbn [bind]. unfold level_writeOnes. rewrite HH. unfold level_sizes.
    rewrite empty_sizes by (rewrite ?repeat_length; auto using repeat_all).
    cbn [bind l_il]. rewrite empty_write by (destruct il; lia). cbn [bind].
    eexists. split; [reflexivity|].
    unfold level_decode. cbn [l_runs_encoded l_empty_trie l_height_with_runs].
    cbn [runsRecursiveDecode Nat.eqb]. unfold level_getNode. cbn [l_bTrie].
    destruct h as [|h]; [lia|]. reflexivity.
Qed.

Lemma flat_empty : forall u, (2 <= u <= 2 ^ 48)%N -> flat_build [] u = UB OutOfBounds.
Proof.
  intros u Hu. destruct (height_of_spec u ltac:(lia)) as (h & Hh & Hr & _).
  exact (flat_empty_ub u h Hh Hr).
Qed.

Lemma fast_empty : forall lw jh je u, In lw [3; 4; 5; 6] -> (2 ^ N.of_nat lw < 2 * u <= 2 * 2 ^ 48)%N ->
  fast_build lw jh je [] u = UB OutOfBounds.
Proof.
  intros lw jh je u Hlw Hu.
  assert (H2 : (2 <= u <= 2 ^ 48)%N).
  { destruct Hlw as [<-|[<-|[<-|[<-|[]]]]]; lia. }
  destruct (height_of_spec u ltac:(lia)) as (h & Hh & Hr & Hp & _ & Hk).
  apply (fast_empty_ub lw jh je u h Hh Hr).
  destruct lw as [|lw]; [lia|].
  assert (lw < h); [|lia]. apply Hk. change (2 ^ N.of_nat (S lw))%N with (pow2 (S lw)) in Hu.
  rewrite pow2_S in Hu. lia.
Qed.
