(** The tries that constructors and encodeRuns make can be stored: heights fit in
    16 bits, rank structures are those of the bit vectors, words fit in wordType. *)

From Verif Require Import Base Split FlatTrie LevelTrie FastTrie Tries Serialize SpecFiles Facts
  SerializeFacts.

Ltac binv H := let a := fresh "a" in let E := fresh "E" in
  apply bind_inv in H; destruct H as (a & E & H).

Lemma height_of_bounds : forall u h, height_of u = Ok h -> 1 <= h <= 48.
Proof.
  intros u h H. unfold height_of in H.
  destruct (N.eqb_spec u 1); [discriminate|]. destruct (N.eqb_spec u 0); [discriminate|].
  destruct (N.ltb_spec (2 ^ 48) u); [discriminate|]. injection H as <-.
  assert (N.log2 (u - 1) < 48)%N.
  { apply N.log2_lt_pow2; lia. }
  lia.
Qed.

Lemma u16_small : forall h, h <= 48 -> u16 h.
Proof. intros. unfold u16. change (2 ^ 16)%N with 65536%N. lia. Qed.

Lemma for_loop_keeps : forall S (P : S -> Prop) (f : nat -> S -> result S) n i s s',
  for_loop n i f s = Ok s' -> P s ->
  (forall j s s', i <= j < i + n -> P s -> f j s = Ok s' -> P s') -> P s'.
Proof.
  induction n; cbn [for_loop]; intros i s s' H H0 Hf.
  - injection H as <-. auto.
  - binv H. eapply (IHn (Datatypes.S i)); eauto.
    + apply (Hf i s); auto. lia.
    + intros j t t' Hj. apply Hf. lia.
Qed.

Lemma vset_len : forall A (l : list A) i x l', vset l i x = Ok l' -> length l' = length l.
Proof.
  intros A l i x l' H. destruct (Nat.lt_ge_cases i (length l)) as [L|L].
  - destruct (vset_spec A l i x L) as (l2 & E & EL & _). congruence.
  - unfold vset in H. apply Nat.ltb_ge in L. rewrite L in H. discriminate.
Qed.

Lemma count_levels_last : forall h ps n k, count_levels h ps = Ok (n, k) -> k <= h - 1.
Proof.
  intros h ps n k H. unfold count_levels in H.
  apply (for_loop_keeps _ (fun st => snd st <= h - 1)) in H; cbn; auto; try lia.
  intros j [b l] st' Hj Hl H'. binv H'. injection H' as <-. destruct a; cbn in *; lia.
Qed.

Lemma flat_build_sound : forall s u t, flat_build s u = Ok t ->
  flat_sound t /\ 1 <= f_height t <= 48.
Proof.
  intros s u t H. unfold flat_build in H. binv H. binv H. injection H as <-.
  apply height_of_bounds in E. repeat split; cbn; try lia; apply u16_small; lia.
Qed.

Lemma flat_encode_sound : forall t t', flat_encodeRuns t = Ok t' -> 1 <= f_height t <= 48 ->
  flat_sound t'.
Proof.
  intros t t' H Hh. unfold flat_encodeRuns in H. binv H. unfold flat_writeOnes in H.
  destruct a as [ones lp]. binv H. destruct a as [nb ll]. binv H. binv H.
  destruct a0 as [[bt l] g]. injection H as <-. apply count_levels_last in E0.
  repeat split; cbn; apply u16_small; lia.
Qed.

Lemma lb_loop_len : forall fuel s h st st', lb_loop fuel s h st = Ok st' ->
  length (lb_bTrie st') = length (lb_bTrie st).
Proof.
  assert (C : forall p mk st st', lb_child p mk st = Ok st' -> length (lb_bTrie st') = length (lb_bTrie st)).
  { intros p mk st st' H. unfold lb_child in H. destruct p.
    - binv H. binv H. binv H. binv H. injection H as <-. cbn. eapply vset_len; eauto.
    - injection H as <-. reflexivity. }
  induction fuel; cbn [lb_loop]; intros s h st st' H.
  - destruct (lb_q st); [injection H as <-; auto|discriminate].
  - destruct (lb_q st) as [|sg q]; [injection H as <-; auto|]. binv H.
    assert (EL : length (lb_bTrie a) = length (lb_bTrie st)).
    { unfold lb_step in E. destruct sg as [[l r] n]. binv E. binv E. binv E.
      apply C in E1, E2. cbn [lb_bTrie] in E1.
      unfold lb_end_level in E. destruct (_ =? _).
      - binv E. binv E. injection E as <-. cbn [lb_bTrie]. apply vset_len in E4. congruence.
      - injection E as <-. congruence. }
    destruct (lb_level a =? h); [injection H as <-; auto|]. rewrite (IHfuel _ _ _ _ H). auto.
Qed.

Lemma level_build_sound : forall il s u t, level_build il s u = Ok t ->
  level_sound t /\ 1 <= length (l_bTrie t) <= 48 /\ l_il t = il.
Proof.
  intros il s u t H. unfold level_build in H. binv H. binv H. injection H as <-.
  apply height_of_bounds in E. apply lb_loop_len in E0. cbn [lb_bTrie lb_init] in E0.
  rewrite map_length, seq_length in E0.
  unfold level_sound. cbn [l_bTrie l_il l_rank l_height_with_runs]. rewrite E0.
  repeat split; try lia; try apply u16_small; try lia. intros X. rewrite X in E0. cbn in E0. lia.
Qed.

Lemma level_encode_sound : forall t t', level_encodeRuns t = Ok t' ->
  1 <= length (l_bTrie t) <= 48 -> level_sound t' /\ l_il t' = l_il t.
Proof.
  intros t t' H Hh. unfold level_encodeRuns in H. binv H. unfold level_writeOnes in H.
  destruct a as [ones lp]. unfold level_getHeight in *. binv H. destruct a as [bt ll]. binv H.
  injection H as <-.
  assert (B : length bt = length (l_bTrie t) /\ ll <= length (l_bTrie t) - 1).
  { unfold level_sizes in E0.
    apply (for_loop_keeps _ (fun st => length (fst st) = length (l_bTrie t) /\
                                       snd st <= length (l_bTrie t) - 1)) in E0; cbn; auto; try lia.
    - cbn. rewrite repeat_length. lia.
    - intros j [b l] st' Hj Hl H'. binv H'. destruct a0; cbn in *.
      + injection H' as <-. cbn. lia.
      + binv H'. injection H' as <-. match goal with E : vset _ _ _ = _ |- _ => apply vset_len in E end. cbn. lia. }
  destruct B as (B1 & B2).
  assert (Ea : length a = length bt).
  { apply (for_loop_keeps _ (fun b => length b = length bt)) in E1; auto.
    intros j b b' Hj Hl H'. binv H'. binv H'. binv H'. apply vset_len in H'. congruence. }
  unfold level_sound. cbn [l_bTrie l_il l_rank l_height_with_runs]. rewrite Ea, B1.
  repeat split; try lia; try apply u16_small; try lia. intros X. rewrite X in Ea. cbn in Ea. lia.
Qed.

Definition bin_sound (t : bin_trie) : Prop :=
  match t with BFlat t => flat_sound t | BLevel t => level_sound t end.

Lemma bin_make_sound : forall u v enc s t, bin_make u v enc s = Ok t ->
  bin_sound t /\ has_class v t.
Proof.
  intros u v enc s t H. unfold bin_make in H. binv H.
  destruct v as [il|il]; cbn [bin_build] in E; binv E; injection E as <-.
  - destruct (flat_build_sound _ _ _ E0) as (S & Hh). destruct enc.
    + cbn [bin_encodeRuns] in H. binv H. injection H as <-. split; [|exact I].
      eapply flat_encode_sound; eauto.
    + injection H as <-. split; [exact S|exact I].
  - destruct (level_build_sound _ _ _ _ E0) as (S & Hh & Ei). destruct enc.
    + cbn [bin_encodeRuns] in H. binv H. injection H as <-.
      destruct (level_encode_sound _ _ E Hh). split; cbn; auto. congruence.
    + injection H as <-. split; auto.
Qed.

Lemma bin_load_serialize : forall c t old rest, codecs_ok c -> bin_sound t -> fits t ->
  same_class t old -> ~ has_class (VLevel true) t ->
  exists bytes, bin_serialize c t = Ok (bytes, N.of_nat (length bytes)) /\
    bin_load c old (bytes ++ rest) = Ok (t, rest).
Proof.
  intros c t old rest C S F K NI. destruct t as [t|t], old as [old|old]; cbn in K; try easy.
  - exists (fst (flat_serialize c t)). cbn [bin_serialize bin_load]. split.
    + f_equal. rewrite <- flat_serialize_count. destruct (flat_serialize c t); reflexivity.
    + cbn in F. rewrite flat_load_serialize; auto; apply F.
  - cbn in NI. assert (E : l_il t = false) by (destruct (l_il t); auto; exfalso; apply NI; auto).
    destruct (level_load_serialize c t old rest C S E) as (b & n & H1 & H2 & H3); auto.
    { congruence. }
    exists b. cbn [bin_serialize bin_load]. rewrite H1, H3, H2. auto.
Qed.

(** Fast tries. *)
Lemma word_loop_bound : forall fuel lw s r i w w', word_loop fuel lw s r i w = Ok w' ->
  (w < 2 ^ wbits lw)%N -> (w' < 2 ^ wbits lw)%N.
Proof.
  induction fuel; cbn [word_loop]; intros lw s r i w w' H Hw.
  - destruct (N.ltb _ _); [discriminate|]. injection H as <-. auto.
  - destruct (N.ltb _ _); [|injection H as <-; auto]. binv H.
    apply IHfuel in H; auto. unfold wmax. rewrite N.land_ones. apply N.mod_lt.
    apply N.pow_nonzero. discriminate.
Qed.

Lemma xb_loop_words : forall lw (P : N -> Prop) fuel s h hu st st', xb_loop fuel lw s h hu st = Ok st' ->
  (forall n r l w, word_loop n lw s r l 0 = Ok w -> P w) ->
  Forall P (xb_last st) -> Forall P (xb_last st').
Proof.
  intros lw P.
  assert (C : forall p mk st st', xb_child p mk st = Ok st' -> xb_last st' = xb_last st).
  { intros p mk st st' H. unfold xb_child in H. destruct p.
    - binv H. binv H. injection H as <-. reflexivity.
    - injection H as <-. reflexivity. }
  induction fuel; cbn [xb_loop]; intros s h hu st st' H HP HF.
  - destruct (xb_q st); [injection H as <-; auto|discriminate].
  - destruct (xb_q st) as [|sg q]; [injection H as <-; auto|]. binv H. destruct a as [a brk].
    assert (EL : Forall P (xb_last a)).
    { unfold xb_step in E. destruct sg as [[l r] n]. destruct (_ =? h).
      - binv E. injection E as <- _. cbn [xb_last]. apply Forall_app. split; auto.
        repeat constructor. eapply HP; eauto.
      - binv E. binv E. binv E. apply C in E1, E2. cbn [xb_last] in E1. injection E as <- _.
        unfold xb_end_level. destruct (xb_count a2 =? xb_nodes_curr a2); cbn [xb_last]; rewrite E2, E1; auto. }
    destruct brk; [injection H as <-; auto|].
    destruct (xb_level a =? h); [injection H as <-; auto|]. eapply IHfuel; eauto.
Qed.

Lemma fast_build_sound : forall lw jh je s u t, fast_build lw jh je s u = Ok t -> 3 <= lw ->
  u16_member jh -> fast_sound t /\ x_height t <= 48 /\ x_lw t = lw.
Proof.
  intros lw jh je s u t H Hl Hj. unfold fast_build in H. binv H. apply height_of_bounds in E.
  destruct (a + 1 <? lw) eqn:H1; [discriminate|]. apply Nat.ltb_ge in H1. binv H. injection H as <-.
  assert (E0' := E0).
  apply (xb_loop_words lw (fun w => (w < 2 ^ wbits lw)%N)) in E0; cbn; auto.
  2:{ intros n r l w Hw. apply word_loop_bound in Hw; auto.
      apply N.neq_0_lt_0. apply N.pow_nonzero. discriminate. }
  unfold fast_sound. cbn. repeat split; auto; try lia. apply u16_small. lia.
Qed.

Lemma writeCompress_words : forall t (P : N -> Prop), Forall P (x_lastLevel t) ->
  forall fuel st ws lev id b st' ws' b',
  fast_writeCompress fuel t st ws lev id b = Ok (st', ws', b') -> Forall P ws -> Forall P ws'.
Proof.
  intros t P HP.
  assert (Hpop : forall ws ws', for_loop 2 0 (fun _ (ws : list N) => vpop ws) ws = Ok ws' ->
                  Forall P ws -> Forall P ws').
  { intros ws ws' H HF. eapply (for_loop_keeps _ (Forall P)); eauto. intros j w w' _ Hw Hv.
    unfold vpop in Hv. destruct w as [|x w]; [discriminate|]. injection Hv as <-.
    apply (Forall_forall P). intros y Hy. rewrite Forall_forall in Hw. apply Hw.
    rewrite (app_removelast_last 0%N (l := x :: w)) by discriminate. apply in_or_app. auto. }
  induction fuel; cbn [fast_writeCompress]; intros st ws lev id b st' ws' b' H HF; [discriminate|].
  destruct (_ =? x_height t).
  - binv H. binv H. binv H. injection H as <- <- <-. apply Forall_app. split; auto.
    repeat constructor. unfold fast_getWord in E. destruct (_ <? _); [discriminate|].
    apply vget_inv in E. apply nth_error_In in E. rewrite Forall_forall in HP. auto.
  - binv H. binv H. destruct (N.eqb a 3); [|destruct (N.eqb a 2); [|destruct (N.eqb a 1)]].
    + binv H. binv H. destruct a2 as [[s1 w1] b1]. binv H. destruct a2 as [[s2 w2] b2].
      apply IHfuel in E2; auto. apply IHfuel in E3; auto. binv H. destruct a2 as [s3 w3]. binv H.
      injection H as <- <- <-. destruct (b1 && b2)%bool.
      * binv E4. binv E4. injection E4 as <- <-. destruct (S (S lev) =? x_height t).
        -- eapply Hpop; eauto.
        -- injection E6 as <-. auto.
      * binv E4. binv E4. binv E4. injection E4 as <- <-. auto.
    + binv H. binv H. binv H. binv H. destruct a4 as [[s1 w1] b1]. binv H. binv H.
      injection H as <- <- <-. eapply IHfuel; eauto.
    + binv H. binv H. binv H. binv H. binv H. destruct a5 as [[s1 w1] b1]. binv H.
      injection H as <- <- <-. eapply IHfuel; eauto.
    + injection H as <- <- <-. auto.
Qed.

Lemma fast_encode_sound : forall t t', fast_encodeRuns t = Ok t' -> fast_sound t -> x_height t <= 48 ->
  fast_sound t' /\ x_lw t' = x_lw t.
Proof.
  intros t t' H (S0 & S1 & S2 & S3 & S4 & S5) Hh. unfold fast_encodeRuns in H. binv H.
  destruct a as [[st ws] b]. unfold fast_writeOnes in H. destruct st as [ones lp]. binv H.
  destruct a as [nb ll]. binv H. destruct a as [bt g]. injection H as <-.
  apply count_levels_last in E0. apply (writeCompress_words t _ S5) in E; auto.
  unfold fast_sound. cbn. repeat split; auto. intros h [= <-]. apply u16_small. lia.
Qed.

Lemma fast_make_sound : forall u lw jh je enc s t, fast_make u lw jh je enc s = Ok t -> 3 <= lw ->
  u16_member jh -> fast_sound t /\ x_lw t = lw.
Proof.
  intros u lw jh je enc s t H Hl Hj. unfold fast_make in H. binv H.
  destruct (fast_build_sound _ _ _ _ _ _ E Hl Hj) as (S & Hh & El). destruct enc.
  - destruct (fast_encode_sound _ _ H S Hh). split; auto. congruence.
  - injection H as <-. auto.
Qed.
