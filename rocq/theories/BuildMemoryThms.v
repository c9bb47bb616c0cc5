(** What the constructors hold while they run. *)

From Verif Require Import Spec SpecTries Base Facts Tree Groups Reps Layout BuildFlat BuildLevel Split FlatTrie LevelTrie FastTrie
  RoundTrip RoundTripFacts Compress WriteOnes RunsFacts RunsThms EdgeFacts SpecMeasures SpecMemory SpecLayout NodeCount LayoutThms
  SpaceThms SerializeSound CallsThms CutThms BuildReads BuildReadsThms BuildMemory.

(** * The record leaves the result as it is *)

Lemma fb_loop_forget : forall fuel set h st, drop (fb_loop_held fuel set h st) = fb_loop fuel set h st.
Proof.
  induction fuel as [|fuel IH]; intros set h st; cbn [fb_loop fb_loop_held].
  - destruct (fb_q st); reflexivity.
  - destruct (fb_q st) as [|sg q]; [reflexivity|]. unfold drop.
    destruct (fb_step set h sg q st) as [st'| |]; cbn [bind]; [|reflexivity|reflexivity].
    destruct (fb_level st' =? h); [reflexivity|]. rewrite <- IH. unfold drop.
    destruct (fb_loop_held fuel set h st') as [[a b]| |]; reflexivity.
Qed.

Theorem flat_build_forget : forall set u, drop (flat_build_held set u) = flat_build set u.
Proof.
  intros set u. unfold flat_build_held, flat_build, drop.
  destruct (height_of u) as [h| |]; cbn [bind]; [|reflexivity|reflexivity].
  rewrite <- (fb_loop_forget _ set h (fb_init set h)). unfold drop.
  destruct (fb_loop_held _ _ _ _) as [[a b]| |]; reflexivity.
Qed.

Lemma lb_loop_forget : forall fuel set h st, drop (lb_loop_held fuel set h st) = lb_loop fuel set h st.
Proof.
  induction fuel as [|fuel IH]; intros set h st; cbn [lb_loop lb_loop_held].
  - destruct (lb_q st); reflexivity.
  - destruct (lb_q st) as [|sg q]; [reflexivity|]. unfold drop.
    destruct (lb_step set h sg q st) as [st'| |]; cbn [bind]; [|reflexivity|reflexivity].
    destruct (lb_level st' =? h); [reflexivity|]. rewrite <- IH. unfold drop.
    destruct (lb_loop_held fuel set h st') as [[a b]| |]; reflexivity.
Qed.

Theorem level_build_forget : forall il set u, drop (level_build_held il set u) = level_build il set u.
Proof.
  intros il set u. unfold level_build_held, level_build, drop.
  destruct (height_of u) as [h| |]; cbn [bind]; [|reflexivity|reflexivity].
  rewrite <- (lb_loop_forget _ set h (lb_init set h)). unfold drop.
  destruct (lb_loop_held _ _ _ _) as [[a b]| |]; reflexivity.
Qed.

Lemma xb_loop_forget : forall fuel lw set h hu st, drop (xb_loop_held fuel lw set h hu st) = xb_loop fuel lw set h hu st.
Proof.
  induction fuel as [|fuel IH]; intros lw set h hu st; cbn [xb_loop xb_loop_held].
  - destruct (xb_q st); reflexivity.
  - destruct (xb_q st) as [|sg q]; [reflexivity|]. unfold drop.
    destruct (xb_step lw set h hu sg q st) as [[st' b]| |]; cbn [bind]; [|reflexivity|reflexivity].
    destruct b; [reflexivity|]. destruct (xb_level st' =? h); [reflexivity|]. rewrite <- IH. unfold drop.
    destruct (xb_loop_held fuel lw set h hu st') as [[a b]| |]; reflexivity.
Qed.

Theorem fast_build_forget : forall lw jh je set u, drop (fast_build_held lw jh je set u) = fast_build lw jh je set u.
Proof.
  intros lw jh je set u. unfold fast_build_held, fast_build, drop.
  destruct (height_of u) as [h| |]; cbn [bind]; [|reflexivity|reflexivity].
  destruct (h + 1 <? lw); [reflexivity|].
  match goal with |- context [xb_loop ?f ?w ?s ?a ?b ?st] => rewrite <- (xb_loop_forget f w s a b st) end. unfold drop.
  destruct (xb_loop_held _ _ _ _ _ _) as [[a b]| |]; reflexivity.
Qed.

(** * The segments *)

Definition size (s : seg) : N := let '(l, r, _) := s in (r + 1 - l)%N.
Fixpoint total (q : list seg) : N := match q with [] => 0%N | s :: q' => (size s + total q')%N end.

Lemma total_app : forall a b, total (a ++ b) = (total a + total b)%N.
Proof. induction a as [|s a IH]; intros b; cbn [app total]; [lia|]. rewrite IH. lia. Qed.

Lemma sound_size : forall s, sound_seg s -> (1 <= size s)%N.
Proof. intros [[l r] n] (H & _). cbn [size]. lia. Qed.

Lemma total_length : forall q, Forall sound_seg q -> (N.of_nat (length q) <= total q)%N.
Proof.
  induction 1 as [|s q Hs _ IH]; cbn [length total]; [lia|]. apply sound_size in Hs. lia.
Qed.

Lemma kids_total : forall l r n o ch, left_ok l r o -> right_ok l r o -> kids o ch -> (total ch <= size (l, r, n))%N.
Proof.
  intros l r n o ch HL HR (a & b & -> & Ha & Hb). unfold left_ok, right_ok in *.
  destruct (N.ltb_spec 0 (so_left o)) as [L|L].
  - destruct Ha as (s & Es & ->). destruct (HL L) as (m & E1 & E2 & Hm & Hk).
    unfold left_seg in Es. rewrite E1, E2 in Es. cbn [oget bind] in Es. injection Es as <-.
    destruct (N.ltb_spec 0 (so_right o)) as [R|R].
    + destruct Hb as (s' & Es' & ->). destruct (HR R) as (k & F1 & F2 & Hkr).
      destruct (Hk R) as (k' & F1' & Hmk). rewrite F1 in F1'. injection F1' as <-.
      unfold right_seg in Es'. rewrite F1, F2 in Es'. cbn [oget bind] in Es'. injection Es' as <-.
      cbn [app total size]. lia.
    + subst b. cbn [app total size]. lia.
  - subst a. destruct (N.ltb_spec 0 (so_right o)) as [R|R].
    + destruct Hb as (s' & Es' & ->). destruct (HR R) as (k & F1 & F2 & Hkr).
      unfold right_seg in Es'. rewrite F1, F2 in Es'. cbn [oget bind] in Es'. injection Es' as <-.
      cbn [app total size]. lia.
    + subst b. cbn [app total size]. lia.
Qed.

(** One step of a queue: what is left and the children are sound and no larger than before. *)
Lemma step_queue_sound : forall set j l r n q o c ch, split_reads set j l r = Ok (o, c) -> kids o ch ->
  Forall sound_seg ((l, r, n) :: q) -> Forall sound_seg (q ++ ch) /\ (total (q ++ ch) <= total ((l, r, n) :: q))%N.
Proof.
  intros set j l r n q o c ch E K S1. apply split_spec in E. destruct E as (HL & HR & _ & _).
  inversion S1 as [|x y Hs Hq]; subst. split.
  - apply Forall_app. split; auto. eapply (kids_spec 0%N l r n o ch); eauto.
  - rewrite total_app. cbn [total]. assert (K' := kids_total l r n o ch HL HR K). lia.
Qed.

Lemma fb_step_reads_ex : forall set h sg q st st', fb_step set h sg q st = Ok st' -> exists c, fb_step_reads set h sg q st = Ok (st', c).
Proof. intros. apply drop_ok. rewrite fb_step_erase. auto. Qed.

Lemma lb_step_reads_ex : forall set h sg q st st', lb_step set h sg q st = Ok st' -> exists c, lb_step_reads set h sg q st = Ok (st', c).
Proof. intros. apply drop_ok. rewrite lb_step_erase. auto. Qed.

Lemma xb_step_reads_ex : forall lw set h hu sg q st st' b, xb_step lw set h hu sg q st = Ok (st', b) ->
  exists c, xb_step_reads lw set h hu sg q st = Ok (st', b, c).
Proof.
  intros lw set h hu sg q st st' b H. rewrite <- xb_step_erase in H.
  destruct (xb_step_reads lw set h hu sg q st) as [[[a b'] c]| |]; cbn in H; try discriminate. injection H as <- <-. eauto.
Qed.

Definition fits (n : nat) (q : list seg) (k : nat) : Prop :=
  Forall sound_seg q /\ (total q + N.of_nat k <= N.of_nat n)%N.

Lemma fits_length : forall n q k, fits n q k -> length q + k <= n.
Proof. intros n q k (S1 & T). apply total_length in S1. lia. Qed.

Lemma fb_step_fits : forall set h sg q st st' n, fb_step set h sg q st = Ok st' -> fits n (sg :: q) 0 -> fits n (fb_q st') 0.
Proof.
  intros set h [[l r] m] q st st' n E (S1 & T). apply fb_step_reads_ex in E. destruct E as (c & E).
  apply fb_step_shape in E. destruct E as (o & ch & Eo & K & Eq & _). rewrite Eq.
  destruct (step_queue_sound _ _ _ _ m q _ _ _ Eo K S1) as (A & B). split; auto. etransitivity; [|exact T]. apply N.add_le_mono_r. exact B.
Qed.

Lemma lb_step_fits : forall set h sg q st st' n, lb_step set h sg q st = Ok st' -> fits n (sg :: q) 0 -> fits n (lb_q st') 0.
Proof.
  intros set h [[l r] m] q st st' n E (S1 & T). apply lb_step_reads_ex in E. destruct E as (c & E).
  apply lb_step_shape in E. destruct E as (o & ch & Eo & K & Eq & _). rewrite Eq.
  destruct (step_queue_sound _ _ _ _ m q _ _ _ Eo K S1) as (A & B). split; auto. etransitivity; [|exact T]. apply N.add_le_mono_r. exact B.
Qed.

(** * Bits *)

Lemma fb_child_len : forall h p mk st st', fb_child h p mk st = Ok st' ->
  length (fb_bTrie st') = length (fb_bTrie st) /\ length (fb_last st') = length (fb_last st).
Proof.
  intros h p mk st st' E. unfold fb_child in E. destruct p.
  - apply bind_inv in E. destruct E as (sg & _ & E). apply bind_inv in E. destruct E as ((a & b) & Eb & E).
    injection E as <-. cbn [fst snd fb_bTrie fb_last]. destruct (_ =? h); apply bind_inv in Eb; destruct Eb as (v & Ev & Eb);
      injection Eb as <- <-; apply vset_len in Ev; auto.
  - injection E as <-. auto.
Qed.

Lemma fb_step_len : forall set h sg q st st', fb_step set h sg q st = Ok st' ->
  length (fb_bTrie st') = length (fb_bTrie st) /\ length (fb_last st') = length (fb_last st).
Proof.
  intros set h [[l r] n] q st st' E. unfold fb_step in E. apply bind_inv in E. destruct E as (o & _ & E).
  apply bind_inv in E. destruct E as (s1 & E1 & E). apply bind_inv in E. destruct E as (s2 & E2 & E). injection E as <-.
  apply fb_child_len in E1, E2. cbn [fb_bTrie fb_last] in E1. unfold fb_end_level. destruct (_ =? _); cbn [fb_bTrie fb_last]; intuition congruence.
Qed.

Lemma xb_child_len : forall p mk st st', xb_child p mk st = Ok st' ->
  length (xb_bTrie st') = length (xb_bTrie st) /\ xb_last st' = xb_last st.
Proof.
  intros p mk st st' E. unfold xb_child in E. destruct p.
  - apply bind_inv in E. destruct E as (v & Ev & E). apply bind_inv in E. destruct E as (sg & _ & E).
    injection E as <-. apply vset_len in Ev. auto.
  - injection E as <-. auto.
Qed.

Lemma xb_step_held : forall lw set h hu sg q st st' b n, xb_step lw set h hu sg q st = Ok (st', b) ->
  fits n (sg :: q) (length (xb_last st)) ->
  fits n (xb_q st') (length (xb_last st')) /\ length (xb_bTrie st') = length (xb_bTrie st).
Proof.
  intros lw set h hu [[l r] m] q st st' b n E (S1 & T). destruct (xb_step_reads_ex _ _ _ _ _ _ _ _ _ E) as (c & E').
  apply xb_step_shape in E'. unfold xb_step in E. destruct (S (xb_level st) =? h).
  - apply bind_inv in E. destruct E as (w & _ & E). injection E as <- <-. cbn [xb_q xb_last xb_bTrie]. split; auto.
    inversion S1 as [|x y Hs Hq]; subst. split; auto. apply sound_size in Hs. rewrite app_length. cbn [total length] in *. lia.
  - destruct E' as (_ & o & ch & Eo & K & Eq & _).
    destruct (step_queue_sound _ _ _ _ m q _ _ _ Eo K S1) as (A & B).
    apply bind_inv in E. destruct E as (o' & _ & E).
    apply bind_inv in E. destruct E as (s1 & E1 & E). apply bind_inv in E. destruct E as (s2 & E2 & E). injection E as <- _.
    apply xb_child_len in E1, E2. cbn [xb_bTrie xb_last] in E1.
    assert (L : xb_last (xb_end_level s2) = xb_last st /\ length (xb_bTrie (xb_end_level s2)) = length (xb_bTrie st)).
    { unfold xb_end_level. destruct (_ =? _); cbn [xb_bTrie xb_last]; intuition congruence. }
    destruct L as (L1 & L2). split; auto. rewrite L1, Eq. split; auto. etransitivity; [|exact T]. apply N.add_le_mono_r. exact B.
Qed.

(** * The loops *)

Lemma fb_loop_held_spec : forall fuel set h st st' ms n, fb_loop_held fuel set h st = Ok (st', ms) ->
  fits n (fb_q st) 0 ->
  Forall (fun m => held_segments m <= n /\ held_bits m = held_bits (fb_held st)) ms /\
  exists r, fb_held st :: ms = r ++ [fb_held st'].
Proof.
  induction fuel as [|fuel IH]; intros set h st st' ms n E F; cbn [fb_loop_held] in E.
  - destruct (fb_q st); [|discriminate]. injection E as <- <-. split; [constructor|exists []; reflexivity].
  - destruct (fb_q st) as [|sg q] eqn:Eq; [injection E as <- <-; split; [constructor|exists []; reflexivity]|].
    apply bind_inv in E. destruct E as (s1 & E1 & E).
    assert (F1 := fb_step_fits _ _ _ _ _ _ n E1 F). assert (L1 := fits_length _ _ _ F1). apply fb_step_len in E1. destruct E1 as (A & B).
    assert (Eb : held_bits (fb_held s1) = held_bits (fb_held st)) by (unfold fb_held; cbn [held_bits]; lia).
    destruct (fb_level s1 =? h).
    + injection E as <- <-. split; [|exists [fb_held st]; reflexivity]. repeat constructor; auto. cbn [fb_held held_segments]. lia.
    + apply bind_inv in E. destruct E as ((s2 & ms2) & E2 & E). injection E as <- <-.
      destruct (IH _ _ _ _ _ n E2 F1) as (P & Q). rewrite Eb in P. split.
      * constructor; auto. split; auto. cbn [fb_held held_segments]. lia.
      * destruct Q as (r & Q). exists (fb_held st :: r). rewrite Q. reflexivity.
Qed.

Lemma xb_loop_held_spec : forall fuel lw set h hu st st' ms n, xb_loop_held fuel lw set h hu st = Ok (st', ms) ->
  fits n (xb_q st) (length (xb_last st)) ->
  Forall (fun m => held_segments m + held_words m <= n /\ held_bits m = held_bits (xb_held st)) ms.
Proof.
  induction fuel as [|fuel IH]; intros lw set h hu st st' ms n E F; cbn [xb_loop_held] in E.
  - destruct (xb_q st); [|discriminate]. injection E as <- <-. constructor.
  - destruct (xb_q st) as [|sg q] eqn:Eq; [injection E as <- <-; constructor|].
    apply bind_inv in E. destruct E as ((s1 & b) & E1 & E).
    destruct (xb_step_held _ _ _ _ _ _ _ _ _ n E1 F) as (F1 & Eb). assert (L1 := fits_length _ _ _ F1).
    assert (P1 : held_segments (xb_held s1) + held_words (xb_held s1) <= n /\ held_bits (xb_held s1) = held_bits (xb_held st)) by (split; [exact L1|exact Eb]).
    destruct b; [injection E as <- <-; repeat constructor; apply P1|].
    destruct (xb_level s1 =? h); [injection E as <- <-; repeat constructor; apply P1|].
    apply bind_inv in E. destruct E as ((s2 & ms2) & E2 & E). injection E as <- <-.
    assert (P := IH _ _ _ _ _ _ _ n E2 F1). rewrite (proj2 P1) in P. constructor; auto.
Qed.

(** Level-wise: the vectors never grow, as a level has no more nodes than its vector has room for. *)
Definition room (bt : list (list bool)) : Prop := forall i v, nth_error bt i = Some v -> length v <= 2 * 2 ^ i.

Lemma room_set : forall bt i v bt', room bt -> vset bt i v = Ok bt' -> length v <= 2 * 2 ^ i -> room bt' /\ length bt' = length bt.
Proof.
  intros bt i v bt' R E L. unfold vset in E. destruct (Nat.ltb_spec i (length bt)); [|discriminate].
  destruct (vset_spec _ bt i v H) as (l' & E' & L' & N'). unfold vset in E'. destruct (Nat.ltb_spec i (length bt)); [|lia].
  rewrite E in E'. injection E' as <-. split; auto. intros j w Hj. rewrite N' in Hj.
  destruct (Nat.eqb_spec j i) as [->|]; [injection Hj as <-; auto|apply R; auto].
Qed.

Lemma lb_child_room : forall p mk st st', lb_child p mk st = Ok st' -> room (lb_bTrie st) ->
  room (lb_bTrie st') /\ length (lb_bTrie st') = length (lb_bTrie st).
Proof.
  intros p mk st st' E R. unfold lb_child in E. destruct p.
  - apply bind_inv in E. destruct E as (v & Ev & E). apply bind_inv in E. destruct E as (v' & Ev' & E).
    apply bind_inv in E. destruct E as (bt & Eb & E). apply bind_inv in E. destruct E as (sg & _ & E). injection E as <-.
    cbn [lb_bTrie]. apply vset_len in Ev'. apply (room_set _ _ _ _ R Eb). rewrite Ev'. apply R. apply vget_inv. auto.
  - injection E as <-. auto.
Qed.

Definition few (st : lb_state) (q : list seg) : Prop :=
  lb_nodes_curr st <= 2 ^ lb_level st /\ lb_nodes_next st <= 2 * lb_count st /\
  length q + lb_count st = lb_nodes_curr st + lb_nodes_next st /\ (q <> [] -> lb_count st < lb_nodes_curr st).

Lemma kids_two : forall o ch, kids o ch -> length ch <= 2.
Proof.
  intros o ch (a & b & -> & Ha & Hb). rewrite app_length.
  destruct (N.ltb 0 (so_left o)); [destruct Ha as (? & _ & ->)|subst a];
    (destruct (N.ltb 0 (so_right o)); [destruct Hb as (? & _ & ->)|subst b]); cbn; lia.
Qed.

Lemma lb_step_room : forall set h sg q st st', lb_step set h sg q st = Ok st' -> room (lb_bTrie st) -> few st (sg :: q) ->
  room (lb_bTrie st') /\ length (lb_bTrie st') = length (lb_bTrie st) /\
  few st' (lb_q st').
Proof.
  intros set h [[l r] n] q st st' E R (C1 & C3 & C4 & C2). specialize (C2 ltac:(discriminate)). cbn [length] in C4. destruct (lb_step_reads_ex _ _ _ _ _ _ E) as (c & E').
  apply lb_step_shape in E'. destruct E' as (o & ch & Eo & K & Eq & Sh). apply kids_two in K.
  unfold lb_step in E. apply bind_inv in E. destruct E as (o' & _ & E).
  apply bind_inv in E. destruct E as (s1 & E1 & E). apply bind_inv in E. destruct E as (s2 & E2 & E).
  assert (Sh1 := lb_child_shape _ _ _ _ E1). assert (Sh2 := lb_child_shape _ _ _ _ E2).
  destruct Sh1 as (ch1 & _ & _ & V1 & U1 & T1 & _). destruct Sh2 as (ch2 & _ & _ & V2 & U2 & T2 & _).
  cbn [lb_level lb_nodes_curr lb_count] in *.
  apply lb_child_room in E1; auto. destruct E1 as (R1 & L1). apply lb_child_room in E2; auto. destruct E2 as (R2 & L2).
  cbn [lb_bTrie] in *. unfold lb_end_level in E. rewrite T2, T1, U2, U1 in E.
  destruct (Nat.eqb_spec (S (lb_count st)) (lb_nodes_curr st)) as [Ec|Ec].
  - apply bind_inv in E. destruct E as (v & Ev & E). apply bind_inv in E. destruct E as (bt & Eb & E). injection E as <-.
    cbn [lb_bTrie lb_q lb_nodes_curr lb_count lb_level lb_nodes_next] in *.
    assert (L : length (bv_resize v (2 * lb_count s2)) <= 2 * 2 ^ lb_level s2).
    { unfold bv_resize. rewrite app_length, firstn_length, repeat_length. rewrite T2, T1, V2, V1. lia. }
    rewrite T2, T1 in L. destruct (room_set _ _ _ _ R2 Eb L) as (R3 & L3). split; auto. split; [congruence|].
    destruct Sh as (S1 & S2 & S3 & S4). unfold few. cbn [lb_nodes_curr lb_count lb_level lb_nodes_next].
    rewrite Eq, app_length. rewrite S1, S2. cbn [Nat.pow]. split; [lia|]. split; [lia|]. split; [lia|].
    intros Hq. destruct (q ++ ch) eqn:Ez; [congruence|]. apply (f_equal (@length seg)) in Ez. rewrite app_length in Ez. cbn [length] in Ez. lia.
  - injection E as <-. split; auto. split; [congruence|]. destruct Sh as (S1 & S2 & S3 & S4). unfold few.
    rewrite Eq, app_length, S1, S2, S3, S4. split; [lia|]. split; [lia|]. split; lia.
Qed.

Fixpoint room_sum (k i : nat) : nat := match k with O => 0 | S k' => 2 * 2 ^ i + room_sum k' (S i) end.

Lemma room_total : forall bt i, (forall j v, nth_error bt j = Some v -> length v <= 2 * 2 ^ (i + j)) ->
  list_sum (map (@length bool) bt) <= room_sum (length bt) i.
Proof.
  induction bt as [|v bt IH]; intros i H; [reflexivity|].
  change (list_sum (map (@length bool) (v :: bt))) with (length v + list_sum (map (@length bool) bt)). cbn [length room_sum].
  assert (H0 := H 0 v eq_refl). rewrite Nat.add_0_r in H0.
  assert (H1 : list_sum (map (@length bool) bt) <= room_sum (length bt) (S i)).
  { apply IH. intros j w Hj. specialize (H (S j) w Hj). replace (S i + j) with (i + S j) by lia. auto. }
  lia.
Qed.

Lemma room_sum_pow : forall k i, room_sum k i + 2 * 2 ^ i = 2 * 2 ^ (i + k).
Proof.
  induction k as [|k IH]; intros i; cbn [room_sum]; [rewrite Nat.add_0_r; lia|].
  specialize (IH (S i)). replace (i + S k) with (S i + k) by lia. rewrite <- IH. cbn [Nat.pow]. lia.
Qed.

Lemma room_held : forall st h, room (lb_bTrie st) -> length (lb_bTrie st) = h -> held_bits (lb_held st) <= 2 * (2 ^ h - 1).
Proof.
  intros st h R L. cbn [lb_held held_bits]. assert (H := room_total (lb_bTrie st) 0 R). rewrite L in H.
  assert (S1 := room_sum_pow h 0). cbn [Nat.pow Nat.add] in S1. lia.
Qed.

Lemma init_held : forall s h, held_bits (lb_held (lb_init s h)) = 2 * (2 ^ h - 1).
Proof.
  intros s h. cbn [lb_held held_bits lb_init lb_bTrie]. rewrite map_map.
  assert (H : forall k i, list_sum (map (fun x => length (bv_make (2 * 2 ^ x))) (seq i k)) = room_sum k i).
  { induction k as [|k IH]; intros i; [reflexivity|]. cbn [seq map room_sum]. rewrite <- IH.
    change (list_sum (?a :: ?l)) with (a + list_sum l). unfold bv_make at 1. rewrite repeat_length. reflexivity. }
  rewrite H. assert (S1 := room_sum_pow h 0). cbn [Nat.pow Nat.add] in S1. lia.
Qed.

Lemma init_room : forall s h, room (lb_bTrie (lb_init s h)) /\ length (lb_bTrie (lb_init s h)) = h.
Proof.
  intros s h. cbn [lb_init lb_bTrie]. split; [|rewrite map_length, seq_length; auto]. intros i v Hi.
  rewrite nth_error_map in Hi. destruct (nth_error (seq 0 h) i) as [x|] eqn:E; [|discriminate]. cbn [option_map] in Hi.
  injection Hi as <-. assert (I : i < length (seq 0 h)) by (apply nth_error_Some; congruence).
  apply (nth_error_nth _ _ 0) in E. rewrite seq_length in I. rewrite seq_nth in E by auto. subst x. unfold bv_make. rewrite repeat_length. auto.
Qed.

Lemma lb_loop_held_spec : forall fuel set h k st st' ms n, lb_loop_held fuel set h st = Ok (st', ms) ->
  fits n (lb_q st) 0 -> room (lb_bTrie st) -> length (lb_bTrie st) = k -> few st (lb_q st) ->
  Forall (fun m => held_segments m <= n /\ held_bits m <= 2 * (2 ^ k - 1)) ms /\
  exists r, lb_held st :: ms = r ++ [lb_held st'].
Proof.
  induction fuel as [|fuel IH]; intros set h k st st' ms n E F R L W; cbn [lb_loop_held] in E.
  - destruct (lb_q st); [|discriminate]. injection E as <- <-. split; [constructor|exists []; reflexivity].
  - destruct (lb_q st) as [|sg q] eqn:Eq; [injection E as <- <-; split; [constructor|exists []; reflexivity]|].
    apply bind_inv in E. destruct E as (s1 & E1 & E).
    assert (F1 := lb_step_fits _ _ _ _ _ _ n E1 F). assert (L1 := fits_length _ _ _ F1).
    destruct (lb_step_room _ _ _ _ _ _ E1 R W) as (R1 & K1 & W1). rewrite L in K1.
    assert (P1 : held_segments (lb_held s1) <= n /\ held_bits (lb_held s1) <= 2 * (2 ^ k - 1)).
    { split; [cbn [lb_held held_segments]; lia|apply room_held; auto]. }
    destruct (lb_level s1 =? h).
    + injection E as <- <-. split; [repeat constructor; apply P1|exists [lb_held st]; reflexivity].
    + apply bind_inv in E. destruct E as ((s2 & ms2) & E2 & E). injection E as <- <-.
      destruct (IH _ _ k _ _ _ n E2 F1 R1 K1 W1) as (P & Q). split; [constructor; auto|].
      destruct Q as (r & Q). exists (lb_held st :: r). rewrite Q. reflexivity.
Qed.

(** * The constructors *)

Lemma height_cap : forall u h, height_of u = Ok h -> (u <= 2 ^ 48)%N.
Proof.
  intros u h H. unfold height_of in H. destruct (N.eqb_spec u 1); [lia|]. destruct (N.eqb_spec u 0); [discriminate|].
  destruct (N.ltb_spec (2 ^ 48) u); [discriminate|]. auto.
Qed.

Lemma first32_fits : forall s, s <> [] -> fits (length s) [first_seg32 s] 0.
Proof.
  intros s Hs. split; [constructor; [apply first32_sound|constructor]|]. unfold first_seg32. cbn [total size].
  assert (1 <= N.of_nat (length s))%N by (destruct s; [congruence|cbn [length]; lia]).
  set (n := N.of_nat (length s)) in *. clearbody n. clear s Hs.
  assert (M := N.mod_le n (2 ^ 32) ltac:(discriminate)). assert (L := N.mod_lt n (2 ^ 32) ltac:(discriminate)).
  destruct (N.eq_dec (n mod 2 ^ 32) 0) as [E|E].
  - rewrite E. change ((0 + (2 ^ 32 - 1)) mod 2 ^ 32)%N with (2 ^ 32 - 1)%N.
    assert (D := N.div_mod n (2 ^ 32) ltac:(discriminate)). rewrite E in D.
    assert (n / 2 ^ 32 <> 0)%N by (intros Z; rewrite Z in D; lia). nia.
  - assert (R : ((n mod 2 ^ 32 + (2 ^ 32 - 1)) mod 2 ^ 32 = n mod 2 ^ 32 - 1)%N).
    { set (k := (n mod 2 ^ 32)%N) in *. clearbody k. replace (k + (2 ^ 32 - 1))%N with (k - 1 + 1 * 2 ^ 32)%N by lia.
      rewrite N.mod_add by discriminate. apply N.mod_small. lia. }
    rewrite R. lia.
Qed.

Lemma first64_fits : forall s, s <> [] -> (N.of_nat (length s) < 2 ^ 64)%N -> fits (length s) [first_seg64 s] 0.
Proof.
  intros s Hs Hl. split; [constructor; [apply first64_sound; auto|constructor]|]. rewrite first_seg64_tup by auto.
  unfold tup. cbn [total size]. assert (0 < length s) by (destruct s; [congruence|cbn [length]; lia]). lia.
Qed.

Lemma pair_Forall : forall (P Q : held -> Prop) ms, Forall (fun m => P m /\ Q m) ms -> Forall P ms /\ Forall Q ms.
Proof. intros P Q ms H. split; eapply Forall_impl; [|exact H| |exact H]; cbn; intros; tauto. Qed.

Theorem flat_holds : forall s u t ms, (2 <= u)%N -> flat_build_held s u = Ok (t, ms) ->
  at_most (length s) (map held_segments ms) /\ always (3 * 2 ^ digits u - 2) (map held_bits ms).
Proof.
  intros s u t ms Hu E. assert (B : flat_build s u = Ok t) by (rewrite <- flat_build_forget, E; reflexivity).
  unfold flat_build_held in E. apply bind_inv in E. destruct E as (h & Hh & E).
  assert (Hs : s <> []). { intros ->. rewrite flat_empty in B; [discriminate|]. apply height_cap in Hh. lia. }
  destruct (digits_pos u h Hu Hh) as (Ed & H1). apply bind_inv in E. destruct E as ((st & m0) & El & E). injection E as _ <-.
  destruct (fb_loop_held_spec _ _ _ _ _ _ (length s) El (first32_fits s Hs)) as (P & _).
  assert (Eb : held_bits (fb_held (fb_init s h)) = 3 * 2 ^ h - 2).
  { cbn [fb_held held_bits fb_init fb_bTrie fb_last]. unfold bv_make. rewrite !repeat_length.
    assert (2 ^ h <> 0) by (apply Nat.pow_nonzero; lia). lia. }
  rewrite Eb in P. apply pair_Forall in P. destruct P as (P1 & P2). rewrite <- Ed. unfold at_most, always. rewrite !Forall_map. split.
  - constructor; [|exact P1]. cbn. destruct s; [congruence|cbn [length]; lia].
  - constructor; [exact Eb|exact P2].
Qed.

Theorem level_holds : forall il s u t ms, (2 <= u)%N -> s <> [] -> (N.of_nat (length s) < 2 ^ 64)%N ->
  level_build_held il s u = Ok (t, ms) ->
  at_most (length s) (map held_segments ms) /\
  starts_at (2 ^ (digits u + 1) - 2) (map held_bits ms) /\ at_most (2 ^ (digits u + 1) - 2) (map held_bits ms) /\
  ends_at (length (concat (l_bTrie t))) (map held_bits ms).
Proof.
  intros il s u t ms Hu Hs Hl E. unfold level_build_held in E. apply bind_inv in E. destruct E as (h & Hh & E).
  destruct (digits_pos u h Hu Hh) as (Ed & H1). apply bind_inv in E. destruct E as ((st & m0) & El & E). injection E as <- <-.
  destruct (init_room s h) as (R & L). assert (Eb := init_held s h).
  destruct (lb_loop_held_spec _ _ _ h _ _ _ (length s) El (first64_fits s Hs Hl) R L) as (P & r & Q).
  { unfold few. cbn [lb_init lb_nodes_curr lb_level lb_nodes_next lb_count lb_q length Nat.pow]. lia. }
  replace (2 ^ (digits u + 1) - 2) with (2 * (2 ^ h - 1)) by (rewrite <- Ed, Nat.pow_add_r; cbn [Nat.pow]; lia).
  apply pair_Forall in P. destruct P as (P1 & P2). unfold at_most. rewrite !Forall_map.
  split; [|split; [|split]].
  - constructor; [|exact P1]. cbn. destruct s; [congruence|cbn [length]; lia].
  - exists (map held_bits m0). cbn [map]. rewrite Eb. reflexivity.
  - constructor; [lia|exact P2].
  - exists (map held_bits r). rewrite Q, map_app. cbn [map l_bTrie]. rewrite length_concat. reflexivity.
Qed.

Theorem fast_holds : forall lw jh je s u t ms, (2 <= u)%N -> lw <= digits u -> fast_build_held lw jh je s u = Ok (t, ms) ->
  together_at_most (length s) (map held_segments ms) (map held_words ms) /\ always (2 ^ (digits u + 1) - 2) (map held_bits ms).
Proof.
  intros lw jh je s u t ms Hu Hlw E.
  assert (B : fast_build lw jh je s u = Ok t) by (rewrite <- fast_build_forget, E; reflexivity).
  unfold fast_build_held in E. apply bind_inv in E. destruct E as (h & Hh & E).
  destruct (digits_pos u h Hu Hh) as (Ed & H1). destruct (h + 1 <? lw); [discriminate|].
  assert (Hs : s <> []).
  { intros ->. rewrite (fast_empty_ub lw jh je u h Hh) in B; [discriminate| |lia]. apply height_cap in Hh.
    destruct (height_of_spec u ltac:(lia)) as (h' & Hh' & Hr & _). rewrite Ed. rewrite (height_digits u h' Hu Hh') in Hr. lia. }
  apply bind_inv in E. destruct E as ((st & m0) & El & E). injection E as _ <-.
  assert (P := xb_loop_held_spec _ _ _ _ _ _ _ _ (length s) El (first32_fits s Hs)).
  assert (Eb : held_bits (xb_held (xb_init s h)) = 2 ^ (h + 1) - 2).
  { cbn [xb_held held_bits xb_init xb_bTrie]. unfold bv_make. rewrite repeat_length, Nat.pow_add_r. cbn [Nat.pow]. lia. }
  rewrite Eb in P. apply pair_Forall in P. destruct P as (P1 & P2). rewrite <- Ed. unfold together_at_most, always. split.
  - cbn [map]. constructor; [cbn; destruct s; [congruence|cbn [length]; lia]|].
    clear - P1. induction P1; cbn [map]; constructor; auto.
  - rewrite Forall_map. constructor; [exact Eb|exact P2].
Qed.

(** * Sets *)

Lemma flat_held_ex : forall s u t, flat_build s u = Ok t -> exists ms, flat_build_held s u = Ok (t, ms).
Proof. intros. apply drop_ok. rewrite flat_build_forget. auto. Qed.
Lemma level_held_ex : forall il s u t, level_build il s u = Ok t -> exists ms, level_build_held il s u = Ok (t, ms).
Proof. intros. apply drop_ok. rewrite level_build_forget. auto. Qed.
Lemma fast_held_ex : forall lw jh je s u t, fast_build lw jh je s u = Ok t -> exists ms, fast_build_held lw jh je s u = Ok (t, ms).
Proof. intros. apply drop_ok. rewrite fast_build_forget. auto. Qed.

Lemma tups_length : forall G o, length (tups o G) = length G.
Proof. induction G as [|g G IH]; intros o; cbn [tups length]; auto. Qed.

(** The last level has one group for each value. *)
Lemma last_groups : forall h s, 1 <= h -> s <> [] -> increasing s -> (forall x, In x s -> (x < pow2 h)%N) ->
  sel umem h (tree_of unit_leaf 0 h s) 0 = s -> length (groups 0 h h s) = length s.
Proof.
  intros h s Hh Hne Hs Hb E. set (T0 := tree_of unit_leaf 0 h s) in *.
  assert (W : wf h T0) by apply tree_of_wf.
  assert (Ef : length (F T0 h) = length (groups 0 h h s)).
  { unfold F, T0. rewrite groups_forest by auto. apply map_length. }
  rewrite <- Ef. replace h with (h - 0) at 1 by lia.
  destruct (level_counts h s T0 W ltac:(apply tree_of_plain) E Hb 0 ltac:(lia)) as (l & N & <- & Hl').
  assert (Ns : NoDup s).
  { clear - Hs. induction Hs as [|x s Hs IH Hx]; constructor; auto. intros Hin.
    rewrite Forall_forall in Hx. specialize (Hx x Hin). lia. }
  apply Nat.le_antisymm; apply NoDup_incl_length; auto; intros x Hx.
  - apply Hl' in Hx. destruct Hx as (y & Hy & ->). change (2 ^ N.of_nat 0)%N with 1%N. rewrite N.div_1_r. auto.
  - apply Hl'. exists x. change (2 ^ N.of_nat 0)%N with 1%N. rewrite N.div_1_r. auto.
Qed.

Theorem flat_set_holds : forall u s, (3 <= u <= 2 ^ 48)%N -> s <> [] -> increasing s -> below u s -> shorter 32 s ->
  exists t ms, flat_build s u = Ok t /\ flat_build_held s u = Ok (t, ms) /\
    at_most (length s) (map held_segments ms) /\ ends_at (length s) (map held_segments ms) /\
    always (3 * 2 ^ digits u - 2) (map held_bits ms).
Proof.
  intros u s Hu Hne Hs Hb Hl. destruct (flat_built_digits u s Hu Hne Hs Hb Hl) as (t & Ht & H2 & Hp & L & Hpl & E).
  destruct (flat_held_ex s u t Ht) as (ms & Hm). exists t, ms. split; auto. split; auto.
  destruct (flat_holds s u t ms ltac:(lia) Hm) as (P1 & P2). split; auto. split; auto.
  unfold flat_build_held in Hm. apply bind_inv in Hm. destruct Hm as (h & Hh & Hm).
  destruct (digits_pos u h ltac:(lia) Hh) as (Ed & H1). rewrite <- Ed in *.
  apply bind_inv in Hm. destruct Hm as ((st & m0) & El & Hm). injection Hm as _ <-.
  destruct (fb_loop_held_spec _ _ _ _ _ _ (length s) El (first32_fits s Hne)) as (_ & r & Q).
  exists (map held_segments r). rewrite Q, map_app. cbn [map fb_held held_segments]. f_equal. f_equal.
  assert (El' : fb_loop (fb_fuel s h) s h (fb_init s h) = Ok st) by (rewrite <- fb_loop_forget, El; reflexivity).
  assert (Hb' : forall x, In x s -> (x < pow2 h)%N).
  { intros x Hx. unfold below in Hb. rewrite Forall_forall in Hb. specialize (Hb x Hx). lia. }
  assert (Hl' : (N.of_nat (length s) <= 2 ^ 32)%N) by (unfold shorter in Hl; lia).
  replace (fb_loop (fb_fuel s h) s h (fb_init s h))
    with (fb_loop (fb_fuel s h) s h (st_in s h 0 [] (groups 0 h 0 s))) in El'.
  2:{ unfold st_in, fb_init. destruct (first_seg32_at s Hne Hl') as (n & ->).
      cbn [groups tups concat length flat_map app off prebits Nat.mul Nat.add].
      unfold bv_make, cap, tup. rewrite !Nat.sub_0_r. cbn [Nat.add].
      replace (N.of_nat (length s - 1)) with (N.of_nat (length s) - 1)%N by lia. apply fb_loop_count. }
  assert (H64 : h <= 64). { destruct (height_of_spec u ltac:(lia)) as (h' & Hh' & Hr & _). rewrite Hh in Hh'. injection Hh' as <-. lia. }
  rewrite (loop_all s h Hne ltac:(clear - Hl'; lia) H64 h 0) in El'; auto.
  2:{ unfold fb_fuel. nia. }
  injection El' as <-. cbn [st_end fb_q]. rewrite tups_length.
  rewrite <- (last_groups h s H1 Hne Hs Hb' E). clear - H1. destruct h as [|h]; [lia|]. cbn [groups]. rewrite !Nat.sub_succ, !Nat.sub_0_r, Nat.sub_diag. reflexivity.
Qed.

Theorem level_set_holds : forall il u s, (2 <= u <= 2 ^ 48)%N -> s <> [] -> increasing s -> below u s ->
  exists t ms, level_build il s u = Ok t /\ level_build_held il s u = Ok (t, ms) /\
    at_most (length s) (map held_segments ms) /\ ends_at (length s) (map held_segments ms) /\
    starts_at (2 ^ (digits u + 1) - 2) (map held_bits ms) /\ at_most (2 ^ (digits u + 1) - 2) (map held_bits ms).
Proof.
  intros il u s Hu Hne Hs Hb. destruct (level_built_digits il u s Hu Hne Hs Hb) as (t & Ht & H2 & Hp & L & Hpl & E).
  assert (Hl := below_short u s ltac:(lia) Hs Hb).
  destruct (level_held_ex il s u t Ht) as (ms & Hm). exists t, ms. split; auto. split; auto.
  destruct (level_holds il s u t ms ltac:(lia) Hne Hl Hm) as (P1 & P2 & P3 & _). split; auto.
  split; [|split; auto].
  unfold level_build_held in Hm. apply bind_inv in Hm. destruct Hm as (h & Hh & Hm).
  destruct (digits_pos u h ltac:(lia) Hh) as (Ed & H1). rewrite <- Ed in *.
  apply bind_inv in Hm. destruct Hm as ((st & m0) & El & Hm). injection Hm as _ <-.
  destruct (init_room s h) as (R & L').
  destruct (lb_loop_held_spec _ _ _ h _ _ _ (length s) El (first64_fits s Hne Hl) R L') as (_ & r & Q).
  { unfold few. cbn [lb_init lb_nodes_curr lb_level lb_nodes_next lb_count lb_q length Nat.pow]. lia. }
  exists (map held_segments r). rewrite Q, map_app. cbn [map lb_held held_segments]. f_equal. f_equal.
  assert (El' : lb_loop (fb_fuel s h) s h (lb_init s h) = Ok st) by (rewrite <- lb_loop_forget, El; reflexivity).
  assert (Hb' : forall x, In x s -> (x < pow2 h)%N).
  { intros x Hx. unfold below in Hb. rewrite Forall_forall in Hb. specialize (Hb x Hx). lia. }
  replace (lb_init s h) with (lst s h 0 [] (groups 0 h 0 s)) in El'.
  2:{ unfold lst, lb_init. rewrite first_seg64_tup by auto.
      cbn [groups tups concat length flat_map app Nat.mul Nat.add done_levels map].
      rewrite Nat.sub_0_r. clear - H1. destruct h as [|h]; [lia|].
      cbn [seq map zero_levels]. rewrite Nat.sub_succ, Nat.sub_0_r. reflexivity. }
  assert (H64 : h <= 64). { destruct (height_of_spec u ltac:(lia)) as (h' & Hh' & Hr & _). rewrite Hh in Hh'. injection Hh' as <-. lia. }
  rewrite (lloop_all s h Hne Hl H64 h 0) in El'; auto.
  2:{ unfold fb_fuel. nia. }
  injection El' as <-. cbn [lend lb_q]. rewrite tups_length. apply last_groups; auto.
Qed.

Theorem fast_set_holds : forall u lw jh je s, fast_universe u lw -> s <> [] -> increasing s -> below u s -> shorter 32 s ->
  exists t ms, fast_build lw jh je s u = Ok t /\ fast_build_held lw jh je s u = Ok (t, ms) /\
    together_at_most (length s) (map held_segments ms) (map held_words ms) /\ always (2 ^ (digits u + 1) - 2) (map held_bits ms).
Proof.
  intros u lw jh je s (Hlw & Hu) Hs Hi Hb Hl. destruct (fast_round_trip_set lw jh je u s Hlw Hu Hs Hi Hb Hl) as (t & Ht & _).
  destruct (fast_held_ex lw jh je s u t Ht) as (ms & Hm). exists t, ms. split; auto. split; auto.
  assert (P : (2 ^ N.of_nat lw = 2 * 2 ^ N.of_nat (lw - 1))%N /\ (4 <= 2 ^ N.of_nat (lw - 1))%N).
  { clear - Hlw. cbn [In] in Hlw. destruct Hlw as [<-|[<-|[<-|[<-|[]]]]]; split; (reflexivity || discriminate). }
  destruct P as (P1 & P2). rewrite P1 in Hu.
  assert (H0 : lw <= digits u).
  { unfold digits. assert (D : (N.of_nat (lw - 1) < N.log2_up u)%N); [|lia]. apply N.log2_up_lt_pow2; lia. }
  apply (fast_holds lw jh je s u t ms ltac:(lia) H0 Hm).
Qed.

(** * One value *)

Lemma digits_pow : forall k, digits (2 ^ N.of_nat k) = k.
Proof. intros k. unfold digits. rewrite N.log2_up_pow2 by lia. apply Nat2N.id. Qed.

Lemma one_levels : forall x n h, length (concat (map (fun l => level_bits [x] (h - l)) (seq n h))) = 2 * h.
Proof.
  intros x n h. assert (H : forall k m, length (concat (map (fun l => level_bits [x] (h - l)) (seq m k))) = 2 * k).
  { induction k as [|k IH]; intros m; [reflexivity|]. cbn [seq map concat]. rewrite app_length, IH.
    change (length (level_bits [x] (h - m))) with 2. lia. }
  apply H.
Qed.

Lemma concat_last : forall A (L : list (list A)), L <> [] -> length (concat (removelast L)) + length (last L []) = length (concat L).
Proof.
  intros A L H. rewrite (app_removelast_last [] H) at 3. rewrite concat_app, app_length. cbn [concat]. rewrite app_nil_r. auto.
Qed.

Theorem flat_one_value : forall k x, 2 <= k <= 48 -> (x < 2 ^ N.of_nat k)%N ->
  exists t ms, flat_build_held [x] (2 ^ N.of_nat k) = Ok (t, ms) /\
    always (3 * 2 ^ k - 2) (map held_bits ms) /\ length (f_bTrie t) + length (f_lastLevel t) = 2 * k.
Proof.
  intros k x Hk Hx.
  assert (Hu : (3 <= 2 ^ N.of_nat k <= 2 ^ 48)%N).
  { split; [|apply N.pow_le_mono_r; lia]. assert (2 ^ 2 <= 2 ^ N.of_nat k)%N by (apply N.pow_le_mono_r; lia).
    change (2 ^ 2)%N with 4%N in H. lia. }
  assert (Hne : [x] <> []) by discriminate.
  assert (Hi : increasing [x]) by (repeat constructor). assert (Hb : below (2 ^ N.of_nat k) [x]) by (repeat constructor; auto).
  assert (Hl : shorter 32 [x]) by reflexivity.
  destruct (flat_set_holds _ _ Hu Hne Hi Hb Hl) as (t & ms & E1 & E2 & _ & _ & P).
  destruct (flat_stored _ _ Hu Hne Hi Hb Hl) as (t' & E1' & _ & B & L). rewrite E1 in E1'. injection E1' as <-.
  rewrite digits_pow in *. exists t, ms. split; auto. split; auto. rewrite B, L, concat_last.
  - apply one_levels.
  - unfold set_levels. destruct k; [lia|discriminate].
Qed.
