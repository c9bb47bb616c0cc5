(** Proofs about what the constructors read. *)

From Verif Require Import Spec SpecTries RoundTripFacts Base Split FlatTrie LevelTrie FastTrie BuildReads Facts SpecMeasures SpecReads NodeCount CallsThms CutThms.

(** * The record changes nothing *)

Lemma split_loop_erase : forall fuel set sh l r i o c,
  drop (split_loop_reads fuel set sh l r i o c) = split_loop fuel set sh l r i o.
Proof.
  induction fuel as [|fuel IH]; intros set sh l r i o c; cbn [split_loop split_loop_reads].
  - destruct (N.ltb i _); reflexivity.
  - destruct (N.ltb i _); [|reflexivity]. unfold drop.
    destruct (vgetN set i) as [x| |]; cbn [bind]; [|reflexivity|reflexivity].
    destruct (N.testbit x _); [reflexivity|]. apply IH.
Qed.

Lemma split_erase : forall set j l r, drop (split_reads set j l r) = Split.split set j l r.
Proof.
  intros. unfold split_reads, Split.split. destruct (_ || _)%bool; [reflexivity|]. apply split_loop_erase.
Qed.

Lemma fb_step_erase : forall set h sg q st, drop (fb_step_reads set h sg q st) = fb_step set h sg q st.
Proof.
  intros set h [[l r] n] q st. unfold fb_step_reads, fb_step. rewrite <- split_erase. unfold drop.
  destruct (split_reads _ _ _ _) as [[o c]| |]; cbn [bind]; [|reflexivity|reflexivity].
  destruct (fb_child _ _ (left_seg o) _) as [s1| |]; cbn [bind]; [|reflexivity|reflexivity].
  destruct (fb_child _ _ (right_seg o) _) as [s2| |]; reflexivity.
Qed.

Lemma fb_loop_erase : forall fuel set h st cs, drop (fb_loop_reads fuel set h st cs) = fb_loop fuel set h st.
Proof.
  induction fuel as [|fuel IH]; intros set h st cs; cbn [fb_loop fb_loop_reads].
  - destruct (fb_q st); reflexivity.
  - destruct (fb_q st) as [|sg q]; [reflexivity|]. rewrite <- fb_step_erase. unfold drop.
    destruct (fb_step_reads _ _ _ _ _) as [[s c]| |]; cbn [bind]; [|reflexivity|reflexivity].
    destruct (fb_level s =? h); [reflexivity|]. apply IH.
Qed.

Theorem flat_build_erase : forall set u, drop (flat_build_reads set u) = flat_build set u.
Proof.
  intros set u. unfold flat_build_reads, flat_build, drop.
  destruct (height_of u) as [h| |]; cbn [bind]; [|reflexivity|reflexivity].
  rewrite <- (fb_loop_erase _ set h (fb_init set h) []). unfold drop.
  destruct (fb_loop_reads _ _ _ _ _) as [[s c]| |]; reflexivity.
Qed.

Lemma lb_step_erase : forall set h sg q st, drop (lb_step_reads set h sg q st) = lb_step set h sg q st.
Proof.
  intros set h [[l r] n] q st. unfold lb_step_reads, lb_step. rewrite <- split_erase. unfold drop.
  destruct (split_reads _ _ _ _) as [[o c]| |]; cbn [bind]; [|reflexivity|reflexivity].
  destruct (lb_child _ (left_seg o) _) as [s1| |]; cbn [bind]; [|reflexivity|reflexivity].
  destruct (lb_child _ (right_seg o) _) as [s2| |]; cbn [bind]; [|reflexivity|reflexivity].
  destruct (lb_end_level s2); reflexivity.
Qed.

Lemma lb_loop_erase : forall fuel set h st cs, drop (lb_loop_reads fuel set h st cs) = lb_loop fuel set h st.
Proof.
  induction fuel as [|fuel IH]; intros set h st cs; cbn [lb_loop lb_loop_reads].
  - destruct (lb_q st); reflexivity.
  - destruct (lb_q st) as [|sg q]; [reflexivity|]. rewrite <- lb_step_erase. unfold drop.
    destruct (lb_step_reads _ _ _ _ _) as [[s c]| |]; cbn [bind]; [|reflexivity|reflexivity].
    destruct (lb_level s =? h); [reflexivity|]. apply IH.
Qed.

Theorem level_build_erase : forall il set u, drop (level_build_reads il set u) = level_build il set u.
Proof.
  intros il set u. unfold level_build_reads, level_build, drop.
  destruct (height_of u) as [h| |]; cbn [bind]; [|reflexivity|reflexivity].
  rewrite <- (lb_loop_erase _ set h (lb_init set h) []). unfold drop.
  destruct (lb_loop_reads _ _ _ _ _) as [[s c]| |]; reflexivity.
Qed.

Lemma word_loop_erase : forall fuel lw set r i w c,
  drop (word_loop_reads fuel lw set r i w c) = word_loop fuel lw set r i w.
Proof.
  induction fuel as [|fuel IH]; intros lw set r i w c; cbn [word_loop word_loop_reads].
  - destruct (N.ltb i _); reflexivity.
  - destruct (N.ltb i _); [|reflexivity]. unfold drop.
    destruct (vgetN set i) as [x| |]; cbn [bind]; [|reflexivity|reflexivity]. apply IH.
Qed.

Lemma xb_step_erase : forall lw set h hu sg q st,
  drop (xb_step_reads lw set h hu sg q st) = xb_step lw set h hu sg q st.
Proof.
  intros lw set h hu [[l r] n] q st. unfold xb_step_reads, xb_step. destruct (S (xb_level st) =? h).
  - rewrite <- (word_loop_erase _ lw set r l 0%N []). unfold drop.
    destruct (word_loop_reads _ _ _ _ _ _ _) as [[w c]| |]; reflexivity.
  - rewrite <- split_erase. unfold drop.
    destruct (split_reads _ _ _ _) as [[o c]| |]; cbn [bind]; [|reflexivity|reflexivity].
    destruct (xb_child _ (left_seg o) _) as [s1| |]; cbn [bind]; [|reflexivity|reflexivity].
    destruct (xb_child _ (right_seg o) _) as [s2| |]; reflexivity.
Qed.

Lemma xb_loop_erase : forall fuel lw set h hu st cs,
  drop (xb_loop_reads fuel lw set h hu st cs) = xb_loop fuel lw set h hu st.
Proof.
  induction fuel as [|fuel IH]; intros lw set h hu st cs; cbn [xb_loop xb_loop_reads].
  - destruct (xb_q st); reflexivity.
  - destruct (xb_q st) as [|sg q]; [reflexivity|]. rewrite <- xb_step_erase. unfold drop.
    destruct (xb_step_reads _ _ _ _ _ _ _) as [[[s b] c]| |]; cbn [bind]; [|reflexivity|reflexivity].
    destruct b; [reflexivity|]. destruct (xb_level s =? h); [reflexivity|]. apply IH.
Qed.

Theorem fast_build_erase : forall lw jh je set u, drop (fast_build_reads lw jh je set u) = fast_build lw jh je set u.
Proof.
  intros lw jh je set u. unfold fast_build_reads, fast_build, drop.
  destruct (height_of u) as [h| |]; cbn [bind]; [|reflexivity|reflexivity].
  destruct (h + 1 <? lw); [reflexivity|].
  rewrite <- (xb_loop_erase _ lw set (h + 1 - lw) h (xb_init set h) []). unfold drop.
  destruct (xb_loop_reads _ _ _ _ _ _ _) as [[s c]| |]; reflexivity.
Qed.

(** * One iteration *)

Definition in_set (set : list N) (l r : N) (c : list N) : Prop :=
  NoDup c /\ Forall (fun x => l <= x <= r /\ x < N.of_nat (length set))%N c.

Lemma wrap_le : forall x, (wrap64 x <= x)%N.
Proof. intros x. unfold wrap64. apply N.mod_le. discriminate. Qed.

Lemma in_set_next : forall set l r i c x, in_set set l r c -> Forall (fun y => y < i)%N c ->
  vgetN set i = Ok x -> (l <= i <= r)%N -> in_set set l r (c ++ [i]) /\ Forall (fun y => y < i + 1)%N (c ++ [i]).
Proof.
  intros set l r i c x (Nd & F) L E Hi. apply vgetN_bound in E. split; [split|].
  - apply NoDup_both; auto. { constructor; [auto|constructor]. }
    intros y Hy [<-|[]]. rewrite Forall_forall in L. specialize (L _ Hy). lia.
  - apply Forall_app. split; auto.
  - apply Forall_app. split; [|constructor; [lia|constructor]].
    eapply Forall_impl; [|exact L]. cbn. intros. lia.
Qed.

(** What the splitting loop leaves. *)
Definition left_ok (l r : N) (o : split_out) : Prop :=
  (0 < so_left o)%N -> exists m, so_ll o = Some l /\ so_lr o = Some m /\ (l <= m <= r)%N /\
    ((0 < so_right o)%N -> exists k, so_rl o = Some k /\ (m < k)%N).
Definition right_ok (l r : N) (o : split_out) : Prop :=
  (0 < so_right o)%N -> exists k, so_rl o = Some k /\ so_rr o = Some r /\ (l <= k <= r)%N.

Lemma split_loop_spec : forall fuel set sh l r i o c o' c',
  split_loop_reads fuel set sh l r i o c = Ok (o', c') -> (l <= i)%N ->
  (so_left o = i - l)%N -> so_right o = 0%N -> ((l < i)%N -> so_ll o = Some l /\ so_lr o = Some (i - 1)%N /\ (i - 1 <= r)%N) ->
  in_set set l r c -> Forall (fun y => y < i)%N c -> ((l < i)%N -> c <> []) ->
  left_ok l r o' /\ right_ok l r o' /\ in_set set l r c' /\
  ((i < wrap64 (r + 1))%N \/ (l < i)%N -> c' <> [] /\ (0 < so_left o' \/ 0 < so_right o')%N).
Proof.
  induction fuel as [|fuel IH]; intros set sh l r i o c o' c' E Hl E1 E2 Hs Hc Hb Hn; cbn [split_loop_reads] in E.
  - destruct (N.ltb_spec i (wrap64 (r + 1))); [discriminate|]. injection E as <- <-.
    split; [|split; [|split; [assumption|]]].
    + intros H0. destruct Hs as (A & B & C); [lia|]. exists (i - 1)%N. repeat split; auto; lia.
    + intros H0. lia.
    + intros [H0|H0]; [lia|]. split; [auto|]. left. lia.
  - assert (Hw := wrap_le (r + 1)). destruct (N.ltb_spec i (wrap64 (r + 1))) as [Hi|Hi].
    + destruct (vgetN set i) as [x| |] eqn:Ex; cbn [bind] in E; try discriminate.
      destruct (in_set_next set l r i c x Hc Hb Ex ltac:(lia)) as (Hc' & Hb').
      destruct (N.testbit x _).
      * injection E as <- <-. cbn [so_left so_right so_ll so_lr so_rl so_rr].
        split; [|split; [|split; [assumption|]]].
        -- intros H0. cbn [so_left so_right so_ll so_lr so_rl so_rr] in *. destruct Hs as (A & B & C); [lia|].
           exists (i - 1)%N. repeat split; auto; try lia. intros _. exists i. split; auto. lia.
        -- intros H0. exists i. cbn. repeat split; auto; lia.
        -- intros _. split; [destruct c; discriminate|]. right. lia.
      * apply IH in E; cbn [so_left so_right so_ll so_lr so_rl so_rr]; auto; try lia.
        -- destruct E as (A & B & C & D). repeat (split; [assumption|]). intros _. apply D. right. lia.
        -- intros _. replace (i + 1 - 1)%N with i by lia. split; [|split; [reflexivity|lia]].
           destruct (N.eqb_spec i l); auto. apply Hs. lia.
        -- intros _. destruct c; discriminate.
    + injection E as <- <-. split; [|split; [|split; [assumption|]]].
      * intros H0. destruct Hs as (A & B & C); [lia|]. exists (i - 1)%N. repeat split; auto; try lia.
      * intros H0. lia.
      * intros [H0|H0]; [lia|]. split; [auto|]. left. lia.
Qed.

Lemma split_spec : forall set j l r o c, split_reads set j l r = Ok (o, c) ->
  left_ok l r o /\ right_ok l r o /\ in_set set l r c /\
  ((l < wrap64 (r + 1))%N -> c <> [] /\ (0 < so_left o \/ 0 < so_right o)%N).
Proof.
  intros set j l r o c E. unfold split_reads in E. destruct (_ || _)%bool; [discriminate|].
  apply split_loop_spec in E.
  - destruct E as (A & B & C & D). repeat (split; [assumption|]). intros H. apply D. left. exact H.
  - lia.
  - cbn. lia.
  - reflexivity.
  - intros H. lia.
  - split; constructor.
  - constructor.
  - intros H. lia.
Qed.

Lemma word_loop_spec : forall fuel lw set l r i w c w' c',
  word_loop_reads fuel lw set r i w c = Ok (w', c') -> (l <= i)%N ->
  in_set set l r c -> Forall (fun y => y < i)%N c ->
  in_set set l r c' /\ ((i < wrap64 (r + 1))%N \/ c <> [] -> c' <> []).
Proof.
  induction fuel as [|fuel IH]; intros lw set l r i w c w' c' E Hl Hc Hb; cbn [word_loop_reads] in E.
  - destruct (N.ltb_spec i (wrap64 (r + 1))); [discriminate|]. injection E as <- <-. split; auto.
    intros [H0|H0]; [lia|auto].
  - assert (Hw := wrap_le (r + 1)). destruct (N.ltb_spec i (wrap64 (r + 1))) as [Hi|Hi].
    + destruct (vgetN set i) as [x| |] eqn:Ex; cbn [bind] in E; try discriminate.
      destruct (in_set_next set l r i c x Hc Hb Ex ltac:(lia)) as (Hc' & Hb').
      apply (IH _ _ l) in E; auto; try lia. destruct E as (A & B). split; auto. intros _. apply B.
      right. destruct c; discriminate.
    + injection E as <- <-. split; auto. intros [H0|H0]; [lia|auto].
Qed.

(** * The queue *)

Section Queue.
  Variable set : list N.
  Variable x : N.

  Definition wt (s : seg) : nat := let '(l, r, _) := s in if (N.leb l x && N.leb x r)%bool then 1 else 0.
  Definition W (q : list seg) : nat := list_sum (map wt q).
  Definition cnt (c : list N) : nat := count_occ N.eq_dec c x.

  Lemma W_app : forall a b, W (a ++ b) = W a + W b.
  Proof. intros. unfold W. rewrite map_app, list_sum_app. auto. Qed.

  Lemma cnt_in_set : forall l r n c, in_set set l r c -> cnt c <= wt (l, r, n).
  Proof.
    intros l r n c (Nd & F). unfold cnt, wt. rewrite (NoDup_count_occ N.eq_dec) in Nd.
    specialize (Nd x). destruct (N.leb_spec l x); cbn [andb]; [destruct (N.leb_spec x r); auto|];
      (rewrite (proj1 (count_occ_not_In N.eq_dec c x)); [lia|]; intros Hin; rewrite Forall_forall in F;
       specialize (F x Hin); lia).
  Qed.

  Definition sound_seg (s : seg) : Prop := let '(l, r, _) := s in (l <= r /\ r + 1 < 2 ^ 64)%N.

  (** [ch] are the children that one iteration over [s] adds. *)
  Definition kids (o : split_out) (ch : list seg) : Prop :=
    exists a b, ch = a ++ b /\
      (if N.ltb 0 (so_left o) then exists s, left_seg o = Ok s /\ a = [s] else a = []) /\
      (if N.ltb 0 (so_right o) then exists s, right_seg o = Ok s /\ b = [s] else b = []).

  Lemma kids_spec : forall l r n o ch, left_ok l r o -> right_ok l r o -> kids o ch ->
    W ch <= wt (l, r, n) /\ (sound_seg (l, r, n) -> Forall sound_seg ch).
  Proof.
    intros l r n o ch HL HR (a & b & -> & Ha & Hb). unfold left_ok, right_ok in *.
    destruct (N.ltb_spec 0 (so_left o)) as [L|L].
    - destruct Ha as (s & Es & ->). destruct (HL L) as (m & E1 & E2 & Hm & Hk).
      unfold left_seg in Es. rewrite E1, E2 in Es. cbn [oget bind] in Es. injection Es as <-.
      destruct (N.ltb_spec 0 (so_right o)) as [R|R].
      + destruct Hb as (s' & Es' & ->). destruct (HR R) as (k & F1 & F2 & Hkr).
        destruct (Hk R) as (k' & F1' & Hmk). rewrite F1 in F1'. injection F1' as <-.
        unfold right_seg in Es'. rewrite F1, F2 in Es'. cbn [oget bind] in Es'. injection Es' as <-. split.
        * unfold W. cbn [app map list_sum fold_right wt].
          destruct (N.leb_spec l x), (N.leb_spec x m), (N.leb_spec k x), (N.leb_spec x r); cbn; lia.
        * intros Hs. cbn [app]. cbn [sound_seg] in *. repeat constructor; cbn [sound_seg]; lia.
      + subst b. split.
        * unfold W. cbn [app map list_sum fold_right wt].
          destruct (N.leb_spec l x), (N.leb_spec x m), (N.leb_spec x r); cbn; lia.
        * intros Hs. cbn [app]. cbn [sound_seg] in *. repeat constructor; cbn [sound_seg]; lia.
    - subst a. destruct (N.ltb_spec 0 (so_right o)) as [R|R].
      + destruct Hb as (s' & Es' & ->). destruct (HR R) as (k & F1 & F2 & Hkr).
        unfold right_seg in Es'. rewrite F1, F2 in Es'. cbn [oget bind] in Es'. injection Es' as <-. split.
        * unfold W. cbn [app map list_sum fold_right wt].
          destruct (N.leb_spec l x), (N.leb_spec k x), (N.leb_spec x r); cbn; lia.
        * intros Hs. cbn [app]. cbn [sound_seg] in *. repeat constructor; cbn [sound_seg]; lia.
      + subst b. cbn [app]. split; [cbn; lia|constructor].
  Qed.

  Definition inv (q : list seg) (level curr count next : nat) (cs : list (list N)) : Prop :=
    exists a b, q = a ++ b /\ length a + count = curr /\ length b = next /\ (a = [] -> b = []) /\
      W a + W b <= 1 /\ cnt (concat cs) + W a <= S level.

  Lemma inv_step : forall s q level curr count next cs ch c,
    inv (s :: q) level curr count next cs -> W ch <= wt s -> cnt c <= wt s ->
    (S count <> curr -> inv (q ++ ch) level curr (S count) (next + length ch) (cs ++ [c])) /\
    (S count = curr -> inv (q ++ ch) (S level) (next + length ch) 0 0 (cs ++ [c]) /\ cnt (concat (cs ++ [c])) <= S level).
  Proof.
    intros s q level curr count next cs ch c (a & b & Eq & La & Lb & Hab & HW & Hc) Hch Hcn.
    destruct a as [|s' a]; [rewrite Hab in Eq by auto; discriminate|].
    cbn [app] in Eq. injection Eq as <- ->. change (W (s :: a)) with (wt s + W a) in *. cbn [length] in La.
    assert (Hcs : cnt (concat (cs ++ [c])) = cnt (concat cs) + cnt c).
    { rewrite concat_app. unfold cnt. rewrite count_occ_app. cbn [concat]. rewrite app_nil_r. auto. }
    split; intros Hcount.
    - exists a, (b ++ ch). rewrite app_assoc. split; auto. split; [lia|]. split; [rewrite app_length; lia|]. split.
      { intros ->. cbn [length] in La. lia. }
      rewrite W_app, Hcs. lia.
    - assert (a = []) by (destruct a; auto; cbn [length] in La; lia). subst a. cbn [app] in *.
      change (W []) with 0 in *. split; [|rewrite Hcs; lia].
      exists (b ++ ch), []. rewrite app_nil_r. split; auto. split; [rewrite app_length; lia|]. split; auto. split; auto.
      change (W []) with 0. rewrite W_app, Hcs. lia.
  Qed.
End Queue.

(** * The three constructors *)

Lemma fb_child_shape : forall h p mk st st', fb_child h p mk st = Ok st' ->
  exists ch, (if p then exists s, mk = Ok s /\ ch = [s] else ch = []) /\ fb_q st' = fb_q st ++ ch /\
    fb_level st' = fb_level st /\ fb_nodes_curr st' = fb_nodes_curr st /\ fb_count st' = fb_count st /\
    fb_nodes_next st' = fb_nodes_next st + length ch.
Proof.
  intros h p mk st st' E. unfold fb_child in E. destruct p.
  - destruct mk as [s| |]; cbn [bind] in E; try discriminate. apply bind_inv in E. destruct E as ([bl ll] & _ & E).
    injection E as <-. exists [s]. cbn. repeat split; eauto. lia.
  - injection E as <-. exists []. cbn. rewrite app_nil_r. repeat split; auto.
Qed.

Lemma fb_step_shape : forall set h l r n q st st' c, fb_step_reads set h (l, r, n) q st = Ok (st', c) ->
  exists o ch, split_reads set (h - fb_level st) l r = Ok (o, c) /\ kids o ch /\ fb_q st' = q ++ ch /\
    if S (fb_count st) =? fb_nodes_curr st
    then fb_level st' = S (fb_level st) /\ fb_nodes_curr st' = fb_nodes_next st + length ch /\ fb_count st' = 0 /\ fb_nodes_next st' = 0
    else fb_level st' = fb_level st /\ fb_nodes_curr st' = fb_nodes_curr st /\ fb_count st' = S (fb_count st) /\
         fb_nodes_next st' = fb_nodes_next st + length ch.
Proof.
  intros set h l r n q st st' c E. unfold fb_step_reads in E.
  destruct (split_reads _ _ _ _) as [[o c0]| |]; cbn [bind] in E; try discriminate.
  apply bind_inv in E. destruct E as (s1 & E1 & E). apply bind_inv in E. destruct E as (s2 & E2 & E).
  injection E as <- <-. apply fb_child_shape in E1, E2.
  destruct E1 as (a & Ha & A1 & A2 & A3 & A4 & A5), E2 as (b & Hb & B1 & B2 & B3 & B4 & B5). cbn in A1, A2, A3, A4, A5.
  exists o, (a ++ b). split; auto. split; [exists a, b; auto|].
  unfold fb_end_level. rewrite B4, A4, B3, A3. destruct (S (fb_count st) =? fb_nodes_curr st); cbn;
    rewrite ?B1, ?A1, ?B2, ?A2, ?B3, ?A3, ?B4, ?A4, ?B5, ?A5, app_length, app_assoc; repeat split; auto; lia.
Qed.

Lemma lb_child_shape : forall p mk st st', lb_child p mk st = Ok st' ->
  exists ch, (if p then exists s, mk = Ok s /\ ch = [s] else ch = []) /\ lb_q st' = lb_q st ++ ch /\
    lb_level st' = lb_level st /\ lb_nodes_curr st' = lb_nodes_curr st /\ lb_count st' = lb_count st /\
    lb_nodes_next st' = lb_nodes_next st + length ch.
Proof.
  intros p mk st st' E. unfold lb_child in E. destruct p.
  - apply bind_inv in E. destruct E as (bv & _ & E). apply bind_inv in E. destruct E as (bv' & _ & E).
    apply bind_inv in E. destruct E as (bt & _ & E).
    destruct mk as [s| |]; cbn [bind] in E; try discriminate.
    injection E as <-. exists [s]. cbn. repeat split; eauto. lia.
  - injection E as <-. exists []. cbn. rewrite app_nil_r. repeat split; auto.
Qed.

Lemma lb_step_shape : forall set h l r n q st st' c, lb_step_reads set h (l, r, n) q st = Ok (st', c) ->
  exists o ch, split_reads set (h - lb_level st) l r = Ok (o, c) /\ kids o ch /\ lb_q st' = q ++ ch /\
    if S (lb_count st) =? lb_nodes_curr st
    then lb_level st' = S (lb_level st) /\ lb_nodes_curr st' = lb_nodes_next st + length ch /\ lb_count st' = 0 /\ lb_nodes_next st' = 0
    else lb_level st' = lb_level st /\ lb_nodes_curr st' = lb_nodes_curr st /\ lb_count st' = S (lb_count st) /\
         lb_nodes_next st' = lb_nodes_next st + length ch.
Proof.
  intros set h l r n q st st' c E. unfold lb_step_reads in E.
  destruct (split_reads _ _ _ _) as [[o c0]| |]; cbn [bind] in E; try discriminate.
  apply bind_inv in E. destruct E as (s1 & E1 & E). apply bind_inv in E. destruct E as (s2 & E2 & E).
  apply bind_inv in E. destruct E as (s3 & E3 & E).
  injection E as <- <-. apply lb_child_shape in E1, E2.
  destruct E1 as (a & Ha & A1 & A2 & A3 & A4 & A5), E2 as (b & Hb & B1 & B2 & B3 & B4 & B5). cbn in A1, A2, A3, A4, A5.
  exists o, (a ++ b). split; auto. split; [exists a, b; auto|].
  unfold lb_end_level in E3. rewrite B4, A4, B3, A3 in E3. destruct (S (lb_count st) =? lb_nodes_curr st).
  - apply bind_inv in E3. destruct E3 as (bv & _ & E3). apply bind_inv in E3. destruct E3 as (bt & _ & E3).
    injection E3 as <-. cbn. rewrite ?B1, ?A1, ?B2, ?A2, ?B5, ?A5, app_length, app_assoc. repeat split; auto; lia.
  - injection E3 as <-. rewrite ?B1, ?A1, ?B2, ?A2, ?B3, ?A3, ?B4, ?A4, ?B5, ?A5, app_length, app_assoc. repeat split; auto; lia.
Qed.

Lemma xb_child_shape : forall p mk st st', xb_child p mk st = Ok st' ->
  exists ch, (if p then exists s, mk = Ok s /\ ch = [s] else ch = []) /\ xb_q st' = xb_q st ++ ch /\
    xb_level st' = xb_level st /\ xb_nodes_curr st' = xb_nodes_curr st /\ xb_count st' = xb_count st /\
    xb_nodes_next st' = xb_nodes_next st + length ch.
Proof.
  intros p mk st st' E. unfold xb_child in E. destruct p.
  - apply bind_inv in E. destruct E as (bt & _ & E).
    destruct mk as [s| |]; cbn [bind] in E; try discriminate.
    injection E as <-. exists [s]. cbn. repeat split; eauto. lia.
  - injection E as <-. exists []. cbn. rewrite app_nil_r. repeat split; auto.
Qed.

Lemma xb_step_shape : forall lw set h hu l r n q st st' b c,
  xb_step_reads lw set h hu (l, r, n) q st = Ok (st', b, c) ->
  if S (xb_level st) =? h then
    (exists w, word_loop_reads (S (length set)) lw set r l 0 [] = Ok (w, c)) /\ xb_q st' = q /\
    xb_level st' = xb_level st /\ xb_nodes_curr st' = xb_nodes_curr st /\ xb_count st' = S (xb_count st) /\
    xb_nodes_next st' = xb_nodes_next st /\ b = (S (xb_count st) =? xb_nodes_curr st)
  else
    b = false /\
    exists o ch, split_reads set (hu - xb_level st) l r = Ok (o, c) /\ kids o ch /\ xb_q st' = q ++ ch /\
    if S (xb_count st) =? xb_nodes_curr st
    then xb_level st' = S (xb_level st) /\ xb_nodes_curr st' = xb_nodes_next st + length ch /\ xb_count st' = 0 /\ xb_nodes_next st' = 0
    else xb_level st' = xb_level st /\ xb_nodes_curr st' = xb_nodes_curr st /\ xb_count st' = S (xb_count st) /\
         xb_nodes_next st' = xb_nodes_next st + length ch.
Proof.
  intros lw set h hu l r n q st st' b c E. unfold xb_step_reads in E. destruct (S (xb_level st) =? h).
  - destruct (word_loop_reads _ _ _ _ _ _ _) as [[w c0]| |]; cbn [bind] in E; try discriminate.
    injection E as <- <- <-. cbn. repeat split; eauto.
  - destruct (split_reads _ _ _ _) as [[o c0]| |]; cbn [bind] in E; try discriminate.
    apply bind_inv in E. destruct E as (s1 & E1 & E). apply bind_inv in E. destruct E as (s2 & E2 & E).
    injection E as <- <- <-. split; auto. apply xb_child_shape in E1, E2.
    destruct E1 as (a & Ha & A1 & A2 & A3 & A4 & A5), E2 as (d & Hb & B1 & B2 & B3 & B4 & B5). cbn in A1, A2, A3, A4, A5.
    exists o, (a ++ d). split; auto. split; [exists a, d; auto|].
    unfold xb_end_level. rewrite B4, A4, B3, A3. destruct (S (xb_count st) =? xb_nodes_curr st); cbn;
      rewrite ?B1, ?A1, ?B2, ?A2, ?B3, ?A3, ?B4, ?A4, ?B5, ?A5, app_length, app_assoc; repeat split; auto; lia.
Qed.

Definition good (set : list N) (c : list N) : Prop := c <> [] /\ Forall (fun i => (i < N.of_nat (length set))%N) c.

Lemma sound_reads : forall l r n, sound_seg (l, r, n) -> (l < wrap64 (r + 1))%N.
Proof.
  intros l r n (H1 & H2). unfold wrap64. rewrite N.mod_small; [lia|]. exact H2.
Qed.

Lemma in_set_good : forall set l r c, in_set set l r c -> c <> [] -> good set c.
Proof.
  intros set l r c (_ & F) Hn. split; auto. eapply Forall_impl; [|exact F]. cbn. intros. tauto.
Qed.

Lemma good_snoc : forall set cs c, Forall (good set) cs -> good set c -> Forall (good set) (cs ++ [c]).
Proof. intros. apply Forall_app. auto. Qed.

Lemma fb_loop_cnt : forall fuel set h x st cs st' cs', fb_loop_reads fuel set h st cs = Ok (st', cs') ->
  inv x (fb_q st) (fb_level st) (fb_nodes_curr st) (fb_count st) (fb_nodes_next st) cs -> fb_level st < h ->
  cnt x (concat cs') <= h.
Proof.
  induction fuel as [|fuel IH]; intros set h x st cs st' cs' E I Hl; cbn [fb_loop_reads] in E.
  - destruct (fb_q st); [|discriminate]. injection E as <- <-. destruct I as (a & b & _ & _ & _ & _ & _ & I). lia.
  - destruct (fb_q st) as [|[[l r] n] q] eqn:Eq.
    { injection E as <- <-. destruct I as (a & b & _ & _ & _ & _ & _ & I). lia. }
    destruct (fb_step_reads _ _ _ _ _) as [[s c]| |] eqn:Es; cbn [bind] in E; try discriminate.
    apply fb_step_shape in Es. destruct Es as (o & ch & Sp & K & Q & R). apply split_spec in Sp.
    destruct Sp as (SL & SR & SI & _). destruct (kids_spec x l r n o ch SL SR K) as (Kw & _).
    destruct (inv_step x _ _ _ _ _ _ _ ch c I Kw (cnt_in_set set x l r n c SI)) as (I1 & I2).
    destruct (Nat.eqb_spec (S (fb_count st)) (fb_nodes_curr st)) as [Ec|Ec]; destruct R as (R1 & R2 & R3 & R4); rewrite R1 in E.
    + destruct (I2 Ec) as (I3 & I4). destruct (Nat.eqb_spec (S (fb_level st)) h).
      * injection E as <- <-. lia.
      * apply IH with (x := x) in E; auto; [rewrite Q, R1, R2, R3, R4; auto|lia].
    + destruct (Nat.eqb_spec (fb_level st) h); [lia|].
      apply IH with (x := x) in E; auto; [rewrite Q, R1, R2, R3, R4; auto|lia].
Qed.

Lemma fb_loop_good : forall fuel set h st cs st' cs', fb_loop_reads fuel set h st cs = Ok (st', cs') ->
  Forall sound_seg (fb_q st) -> Forall (good set) cs -> Forall (good set) cs'.
Proof.
  induction fuel as [|fuel IH]; intros set h st cs st' cs' E I G; cbn [fb_loop_reads] in E.
  - destruct (fb_q st); [|discriminate]. injection E as <- <-. auto.
  - destruct (fb_q st) as [|[[l r] n] q] eqn:Eq. { injection E as <- <-. auto. }
    destruct (fb_step_reads _ _ _ _ _) as [[s c]| |] eqn:Es; cbn [bind] in E; try discriminate.
    apply fb_step_shape in Es. destruct Es as (o & ch & Sp & K & Q & _). apply split_spec in Sp.
    destruct Sp as (SL & SR & SI & SN). destruct (kids_spec 0 l r n o ch SL SR K) as (_ & Kg).
    inversion I as [|? ? I0 I1]; subst. destruct (SN (sound_reads _ _ _ I0)) as (Hc & _).
    assert (G' := good_snoc set cs c G (in_set_good _ _ _ _ SI Hc)).
    destruct (fb_level s =? h). { injection E as <- <-. auto. }
    apply IH in E; auto. rewrite Q. apply Forall_app. auto.
Qed.

Lemma lb_loop_cnt : forall fuel set h x st cs st' cs', lb_loop_reads fuel set h st cs = Ok (st', cs') ->
  inv x (lb_q st) (lb_level st) (lb_nodes_curr st) (lb_count st) (lb_nodes_next st) cs -> lb_level st < h ->
  cnt x (concat cs') <= h.
Proof.
  induction fuel as [|fuel IH]; intros set h x st cs st' cs' E I Hl; cbn [lb_loop_reads] in E.
  - destruct (lb_q st); [|discriminate]. injection E as <- <-. destruct I as (a & b & _ & _ & _ & _ & _ & I). lia.
  - destruct (lb_q st) as [|[[l r] n] q] eqn:Eq.
    { injection E as <- <-. destruct I as (a & b & _ & _ & _ & _ & _ & I). lia. }
    destruct (lb_step_reads _ _ _ _ _) as [[s c]| |] eqn:Es; cbn [bind] in E; try discriminate.
    apply lb_step_shape in Es. destruct Es as (o & ch & Sp & K & Q & R). apply split_spec in Sp.
    destruct Sp as (SL & SR & SI & _). destruct (kids_spec x l r n o ch SL SR K) as (Kw & _).
    destruct (inv_step x _ _ _ _ _ _ _ ch c I Kw (cnt_in_set set x l r n c SI)) as (I1 & I2).
    destruct (Nat.eqb_spec (S (lb_count st)) (lb_nodes_curr st)) as [Ec|Ec]; destruct R as (R1 & R2 & R3 & R4); rewrite R1 in E.
    + destruct (I2 Ec) as (I3 & I4). destruct (Nat.eqb_spec (S (lb_level st)) h).
      * injection E as <- <-. lia.
      * apply IH with (x := x) in E; auto; [rewrite Q, R1, R2, R3, R4; auto|lia].
    + destruct (Nat.eqb_spec (lb_level st) h); [lia|].
      apply IH with (x := x) in E; auto; [rewrite Q, R1, R2, R3, R4; auto|lia].
Qed.

Lemma lb_loop_good : forall fuel set h st cs st' cs', lb_loop_reads fuel set h st cs = Ok (st', cs') ->
  Forall sound_seg (lb_q st) -> Forall (good set) cs -> Forall (good set) cs'.
Proof.
  induction fuel as [|fuel IH]; intros set h st cs st' cs' E I G; cbn [lb_loop_reads] in E.
  - destruct (lb_q st); [|discriminate]. injection E as <- <-. auto.
  - destruct (lb_q st) as [|[[l r] n] q] eqn:Eq. { injection E as <- <-. auto. }
    destruct (lb_step_reads _ _ _ _ _) as [[s c]| |] eqn:Es; cbn [bind] in E; try discriminate.
    apply lb_step_shape in Es. destruct Es as (o & ch & Sp & K & Q & _). apply split_spec in Sp.
    destruct Sp as (SL & SR & SI & SN). destruct (kids_spec 0 l r n o ch SL SR K) as (_ & Kg).
    inversion I as [|? ? I0 I1]; subst. destruct (SN (sound_reads _ _ _ I0)) as (Hc & _).
    assert (G' := good_snoc set cs c G (in_set_good _ _ _ _ SI Hc)).
    destruct (lb_level s =? h). { injection E as <- <-. auto. }
    apply IH in E; auto. rewrite Q. apply Forall_app. auto.
Qed.

Lemma xb_loop_cnt : forall fuel lw set h hu x st cs st' cs', xb_loop_reads fuel lw set h hu st cs = Ok (st', cs') ->
  inv x (xb_q st) (xb_level st) (xb_nodes_curr st) (xb_count st) (xb_nodes_next st) cs -> xb_level st < h ->
  cnt x (concat cs') <= h.
Proof.
  induction fuel as [|fuel IH]; intros lw set h hu x st cs st' cs' E I Hl; cbn [xb_loop_reads] in E.
  - destruct (xb_q st); [|discriminate]. injection E as <- <-. destruct I as (a & b & _ & _ & _ & _ & _ & I). lia.
  - destruct (xb_q st) as [|[[l r] n] q] eqn:Eq.
    { injection E as <- <-. destruct I as (a & b & _ & _ & _ & _ & _ & I). lia. }
    destruct (xb_step_reads _ _ _ _ _ _ _) as [[[s brk] c]| |] eqn:Es; cbn [bind] in E; try discriminate.
    apply xb_step_shape in Es. destruct (Nat.eqb_spec (S (xb_level st)) h) as [Eh|Eh].
    + destruct Es as ((w & Ew) & Q & R1 & R2 & R3 & R4 & Eb).
      apply (word_loop_spec _ _ _ l) in Ew; [|lia|split; constructor|constructor]. destruct Ew as (SI & _).
      destruct (inv_step x _ _ _ _ _ _ _ [] c I ltac:(cbn; lia) (cnt_in_set set x l r n c SI)) as (I1 & I2).
      rewrite app_nil_r in I1, I2. cbn [length] in I1, I2. rewrite Nat.add_0_r in I1, I2.
      destruct (Nat.eqb_spec (S (xb_count st)) (xb_nodes_curr st)) as [Ec|Ec]; subst brk.
      * injection E as <- <-. destruct (I2 Ec) as (_ & I4). lia.
      * rewrite R1 in E. destruct (Nat.eqb_spec (xb_level st) h); [lia|].
        apply IH with (x := x) in E; auto; [rewrite Q, R1, R2, R3, R4; auto|lia].
    + destruct Es as (-> & o & ch & Sp & K & Q & R). apply split_spec in Sp.
      destruct Sp as (SL & SR & SI & _). destruct (kids_spec x l r n o ch SL SR K) as (Kw & _).
      destruct (inv_step x _ _ _ _ _ _ _ ch c I Kw (cnt_in_set set x l r n c SI)) as (I1 & I2).
      destruct (Nat.eqb_spec (S (xb_count st)) (xb_nodes_curr st)) as [Ec|Ec]; destruct R as (R1 & R2 & R3 & R4); rewrite R1 in E.
      * destruct (I2 Ec) as (I3 & I4). destruct (Nat.eqb_spec (S (xb_level st)) h).
        -- injection E as <- <-. lia.
        -- apply IH with (x := x) in E; auto; [rewrite Q, R1, R2, R3, R4; auto|lia].
      * destruct (Nat.eqb_spec (xb_level st) h); [lia|].
        apply IH with (x := x) in E; auto; [rewrite Q, R1, R2, R3, R4; auto|lia].
Qed.

Lemma xb_loop_good : forall fuel lw set h hu st cs st' cs', xb_loop_reads fuel lw set h hu st cs = Ok (st', cs') ->
  Forall sound_seg (xb_q st) -> Forall (good set) cs -> Forall (good set) cs'.
Proof.
  induction fuel as [|fuel IH]; intros lw set h hu st cs st' cs' E I G; cbn [xb_loop_reads] in E.
  - destruct (xb_q st); [|discriminate]. injection E as <- <-. auto.
  - destruct (xb_q st) as [|[[l r] n] q] eqn:Eq. { injection E as <- <-. auto. }
    destruct (xb_step_reads _ _ _ _ _ _ _) as [[[s brk] c]| |] eqn:Es; cbn [bind] in E; try discriminate.
    apply xb_step_shape in Es. inversion I as [|? ? I0 I1]; subst.
    assert (Good : good set c /\ Forall sound_seg (xb_q s)).
    { destruct (S (xb_level st) =? h).
      - destruct Es as ((w & Ew) & Q & _). apply (word_loop_spec _ _ _ l) in Ew; [|lia|split; constructor|constructor].
        destruct Ew as (SI & Hn). split; [|rewrite Q; auto].
        eapply in_set_good; eauto. apply Hn. left. eapply sound_reads; eauto.
      - destruct Es as (_ & o & ch & Sp & K & Q & _). apply split_spec in Sp.
        destruct Sp as (SL & SR & SI & SN). destruct (kids_spec 0 l r n o ch SL SR K) as (_ & Kg).
        destruct (SN (sound_reads _ _ _ I0)) as (Hc & _). split; [eapply in_set_good; eauto|].
        rewrite Q. apply Forall_app. auto. }
    destruct Good as (Hc & Hq). assert (G' := good_snoc set cs c G Hc).
    destruct brk; [injection E as <- <-; auto|].
    destruct (xb_level s =? h). { injection E as <- <-. auto. }
    apply IH in E; auto.
Qed.

(** * Totals *)

Lemma count_total : forall n (c : list N), Forall (fun i => (i < N.of_nat n)%N) c ->
  length c = list_sum (map (fun i => count_occ N.eq_dec c (N.of_nat i)) (seq 0 n)).
Proof.
  intros n. induction c as [|y c IH]; intros H.
  - cbn. induction (seq 0 n); cbn; auto.
  - inversion H as [|? ? H1 H2]; subst. cbn [length]. rewrite (IH H2). clear IH H H2.
    assert (Hs : In (N.to_nat y) (seq 0 n)) by (apply in_seq; lia).
    assert (Nd := seq_NoDup n 0). revert Hs Nd. generalize (seq 0 n) as L.
    assert (Z : forall L, ~ In (N.to_nat y) L ->
      list_sum (map (fun i => count_occ N.eq_dec (y :: c) (N.of_nat i)) L) =
      list_sum (map (fun i => count_occ N.eq_dec c (N.of_nat i)) L)).
    { induction L as [|j L IL]; intros Hn; cbn; auto.
      destruct (N.eq_dec y (N.of_nat j)) as [->|]; [destruct Hn; left; lia|].
      f_equal. apply IL. intros Hi. apply Hn. right. auto. }
    induction L as [|j L IL]; intros Hs Nd; [destruct Hs|]. inversion Nd as [|? ? Hj Nd']; subst.
    destruct (Nat.eq_dec j (N.to_nat y)) as [->|Hne].
    + change (S (count_occ N.eq_dec c (N.of_nat (N.to_nat y)) + list_sum (map (fun i => count_occ N.eq_dec c (N.of_nat i)) L)) =
              count_occ N.eq_dec (y :: c) (N.of_nat (N.to_nat y)) + list_sum (map (fun i => count_occ N.eq_dec (y :: c) (N.of_nat i)) L)).
      rewrite (Z L Hj). cbn [count_occ]. destruct (N.eq_dec y (N.of_nat (N.to_nat y))); lia.
    + destruct Hs as [Hs|Hs]; [lia|]. specialize (IL Hs Nd').
      change (S (count_occ N.eq_dec c (N.of_nat j) + list_sum (map (fun i => count_occ N.eq_dec c (N.of_nat i)) L)) =
              count_occ N.eq_dec (y :: c) (N.of_nat j) + list_sum (map (fun i => count_occ N.eq_dec (y :: c) (N.of_nat i)) L)).
      cbn [count_occ]. destruct (N.eq_dec y (N.of_nat j)); [lia|].
      cbn [count_occ] in IL. lia.
Qed.

Lemma count_bound : forall n k (c : list N), Forall (fun i => (i < N.of_nat n)%N) c ->
  (forall i, count_occ N.eq_dec c i <= k) -> length c <= k * n.
Proof.
  intros n k c H Hk. rewrite (count_total n c H). rewrite <- (seq_length n 0) at 2. generalize (seq 0 n) as L.
  induction L as [|j L IL]; cbn [map list_sum fold_right length]; [lia|].
  change (fold_right Nat.add 0 (map (fun i => count_occ N.eq_dec c (N.of_nat i)) L))
    with (list_sum (map (fun i => count_occ N.eq_dec c (N.of_nat i)) L)).
  specialize (Hk (N.of_nat j)). nia.
Qed.

Lemma totals : forall set k cs, Forall (good set) cs -> (forall x, cnt x (concat cs) <= k) ->
  read_at_most k (length set) cs /\ each_step_reads cs.
Proof.
  intros set k cs G H.
  assert (F : Forall (fun i => (i < N.of_nat (length set))%N) (concat cs)).
  { clear H. induction G as [|c cs (_ & Hc) _ IH]; cbn [concat]; [constructor|]. apply Forall_app. auto. }
  split; [split; [auto|split; [auto|apply count_bound; auto]]|].
  eapply Forall_impl; [|exact G]. intros c (Hc & _). auto.
Qed.

Lemma inv_init : forall x s, inv x [s] 0 1 0 0 [].
Proof.
  intros x s. exists [s], []. cbn [app length]. repeat split; auto; try discriminate;
    change (W x []) with 0; change (W x [s]) with (wt x s + 0); destruct s as [[l r] n]; cbn [wt cnt concat count_occ];
    destruct (_ && _)%bool; cbn; lia.
Qed.

Lemma first32_sound : forall set, sound_seg (first_seg32 set).
Proof.
  intros set. unfold first_seg32, sound_seg. split; [lia|].
  assert (H : forall n, (N.modulo n (2 ^ 32) < 2 ^ 32)%N) by (intros; apply N.mod_lt; discriminate).
  assert (H' := H (N.modulo (N.of_nat (length set)) (2 ^ 32) + (2 ^ 32 - 1))%N).
  change (2 ^ 64)%N with 18446744073709551616%N. change (2 ^ 32)%N with 4294967296%N in *. lia.
Qed.

Lemma first64_sound : forall set, set <> [] -> (N.of_nat (length set) < 2 ^ 64)%N -> sound_seg (first_seg64 set).
Proof.
  intros set Hn H. unfold first_seg64, sound_seg. split; [lia|]. unfold wrap64.
  rewrite (N.mod_small _ _ H).
  assert (1 <= N.of_nat (length set))%N by (destruct set; [congruence|cbn [length]; lia]).
  replace (N.of_nat (length set) + (2 ^ 64 - 1))%N with ((N.of_nat (length set) - 1) + 1 * 2 ^ 64)%N
    by (change (2 ^ 64)%N with 18446744073709551616%N; lia).
  rewrite N.mod_add by discriminate. rewrite N.mod_small; lia.
Qed.

Lemma digits_pos : forall u h, (2 <= u)%N -> height_of u = Ok h -> h = digits u /\ 1 <= h.
Proof.
  intros u h Hu Hh. assert (E := height_digits u h Hu Hh). split; auto. subst h. unfold digits.
  assert (0 < N.log2_up u)%N by (apply N.log2_up_pos; lia). lia.
Qed.

Theorem flat_reads : forall s u t cs, (2 <= u)%N -> flat_build_reads s u = Ok (t, cs) ->
  read_at_most (digits u) (length s) cs /\ each_step_reads cs.
Proof.
  intros s u t cs Hu E. unfold flat_build_reads in E. apply bind_inv in E. destruct E as (h & Hh & E).
  destruct (digits_pos u h Hu Hh) as (Ed & H1). destruct (fb_loop_reads _ _ _ _ _) as [[st cs0]| |] eqn:El; try discriminate.
  cbn [bind] in E. injection E as _ <-. rewrite <- Ed. apply totals.
  - apply fb_loop_good in El; auto. constructor; [apply first32_sound|constructor].
  - intros x. apply (fb_loop_cnt _ _ _ x) in El; auto. apply inv_init.
Qed.

Theorem level_reads : forall il s u t cs, (2 <= u)%N -> s <> [] -> (N.of_nat (length s) < 2 ^ 64)%N ->
  level_build_reads il s u = Ok (t, cs) ->
  read_at_most (digits u) (length s) cs /\ each_step_reads cs.
Proof.
  intros il s u t cs Hu Hs Hl E. unfold level_build_reads in E. apply bind_inv in E. destruct E as (h & Hh & E).
  destruct (digits_pos u h Hu Hh) as (Ed & H1). destruct (lb_loop_reads _ _ _ _ _) as [[st cs0]| |] eqn:El; try discriminate.
  cbn [bind] in E. injection E as _ <-. rewrite <- Ed. apply totals.
  - apply lb_loop_good in El; auto. constructor; [apply first64_sound; auto|constructor].
  - intros x. apply (lb_loop_cnt _ _ _ x) in El; auto. apply inv_init.
Qed.

Theorem fast_reads : forall lw jh je s u t cs, (2 <= u)%N -> lw <= digits u -> fast_build_reads lw jh je s u = Ok (t, cs) ->
  read_at_most (digits u + 1 - lw) (length s) cs /\ each_step_reads cs.
Proof.
  intros lw jh je s u t cs Hu Hlw E. unfold fast_build_reads in E. apply bind_inv in E. destruct E as (h & Hh & E).
  destruct (digits_pos u h Hu Hh) as (Ed & H1). destruct (h + 1 <? lw); [discriminate|].
  destruct (xb_loop_reads _ _ _ _ _ _ _) as [[st cs0]| |] eqn:El; try discriminate.
  cbn [bind] in E. injection E as _ <-. rewrite <- Ed in *. apply totals.
  - apply xb_loop_good in El; auto. constructor; [apply first32_sound|constructor].
  - intros x. apply (xb_loop_cnt _ _ _ _ _ x) in El; auto; [apply inv_init|cbn; lia].
Qed.

Lemma steps_le : forall cs : list (list N), each_step_reads cs -> length cs <= length (concat cs).
Proof.
  intros cs H. induction H as [|c cs Hc _ IH]; cbn [length concat]; auto.
  rewrite app_length. destruct c; [congruence|cbn [length]; lia].
Qed.

Lemma drop_ok : forall A B (x : result (A * B)) a, drop x = Ok a -> exists b, x = Ok (a, b).
Proof.
  intros A B x a H. destruct x as [[a' b]| |]; cbn in H; try discriminate. injection H as ->. eauto.
Qed.

Theorem flat_set_reads : forall u s, (3 <= u <= 2 ^ 48)%N -> s <> [] -> increasing s -> below u s -> shorter 32 s ->
  exists t cs, flat_build s u = Ok t /\ flat_build_reads s u = Ok (t, cs) /\
    read_at_most (digits u) (length s) cs /\ length cs <= digits u * length s.
Proof.
  intros u s Hu Hs Hi Hb Hl. destruct (flat_round_trip_set u s Hu Hs Hi Hb Hl) as (t & Ht & _).
  assert (E := flat_build_erase s u). rewrite Ht in E. apply drop_ok in E. destruct E as (cs & E).
  exists t, cs. split; auto. split; auto. destruct (flat_reads s u t cs ltac:(lia) E) as (R & S1). split; auto.
  apply steps_le in S1. destruct R as (_ & _ & R). lia.
Qed.

Theorem level_set_reads : forall il u s, (2 <= u <= 2 ^ 48)%N -> s <> [] -> increasing s -> below u s ->
  exists t cs, level_build il s u = Ok t /\ level_build_reads il s u = Ok (t, cs) /\
    read_at_most (digits u) (length s) cs /\ length cs <= digits u * length s.
Proof.
  intros il u s Hu Hs Hi Hb. destruct (level_round_trip_set il u s Hu Hi Hb) as (t & Ht & _).
  assert (E := level_build_erase il s u). rewrite Ht in E. apply drop_ok in E. destruct E as (cs & E).
  exists t, cs. split; auto. split; auto.
  destruct (level_reads il s u t cs ltac:(lia) Hs (below_short u s ltac:(lia) Hi Hb) E) as (R & S1). split; auto.
  apply steps_le in S1. destruct R as (_ & _ & R). lia.
Qed.

Theorem fast_set_reads : forall u lw jh je s, fast_universe u lw -> s <> [] -> increasing s -> below u s -> shorter 32 s ->
  exists t cs, fast_build lw jh je s u = Ok t /\ fast_build_reads lw jh je s u = Ok (t, cs) /\
    read_at_most (digits u + 1 - lw) (length s) cs /\ length cs <= (digits u + 1 - lw) * length s.
Proof.
  intros u lw jh je s (Hlw & Hu) Hs Hi Hb Hl. destruct (fast_round_trip_set lw jh je u s Hlw Hu Hs Hi Hb Hl) as (t & Ht & _).
  assert (E := fast_build_erase lw jh je s u). rewrite Ht in E. apply drop_ok in E. destruct E as (cs & E).
  exists t, cs. split; auto. split; auto.
  assert (P : (2 ^ N.of_nat lw = 2 * 2 ^ N.of_nat (lw - 1))%N /\ (4 <= 2 ^ N.of_nat (lw - 1))%N).
  { clear - Hlw. cbn [In] in Hlw. destruct Hlw as [<-|[<-|[<-|[<-|[]]]]]; split; (reflexivity || discriminate). }
  destruct P as (P1 & P2). rewrite P1 in Hu.
  assert (H : (2 <= u)%N) by lia. assert (H0 : lw <= digits u).
  { unfold digits. assert (D : (N.of_nat (lw - 1) < N.log2_up u)%N); [|lia]. apply N.log2_up_lt_pow2; lia. }
  destruct (fast_reads lw jh je s u t cs ltac:(lia) H0 E) as (R & S1). split; auto.
  apply steps_le in S1. destruct R as (_ & _ & R). lia.
Qed.
