(** Proofs about what encodeRuns holds. *)

From Verif Require Import Base FlatTrie LevelTrie FastTrie ParallelFor Intersection Tries Calls EncodeHeld Facts ParForThms Tree
  Groups Reps Layout BuildFlat BuildLevel BuildFast WordBits Spec RoundTrip RoundTripFacts Compress
  WriteOnes CompressFast DecodeFast RunsFacts RunsThms SpecTries SpecMeasures SpecMemory NodeCount
  InterThms LayoutThms CallsThms SpaceThms EncodeCallsThms.

(** * The record changes nothing *)

Section Erase.
  Variable height : nat.
  Variable getNode : nat -> nat -> result N.
  Variable getLeft getRight : nat -> nat -> result nat.

  Ltac step n := match goal with
    | |- context [bind ?m _] => destruct m as [n| |]; cbn [bind]; [|reflexivity|reflexivity]
    end.

  Lemma writeCompress_forget : forall fuel st lvl id b ms,
    drop (writeCompressTrie_held height getNode getLeft getRight fuel st lvl id b ms)
    = writeCompressTrie height getNode getLeft getRight fuel st lvl id b.
  Proof.
    induction fuel as [|fuel IH]; intros st lvl id b ms; cbn [writeCompressTrie writeCompressTrie_held]; [reflexivity|].
    unfold drop in *. step nd. destruct (S lvl =? height). { destruct (wc_leaf _ _ _ _) as [[? ?]| |]; reflexivity. }
    step x0. destruct (N.eqb nd 3).
    { step i. rewrite <- (IH st (S lvl) i false ms).
      destruct (writeCompressTrie_held _ _ _ _ _ _ _ i _ _) as [[[st1 b1] c1]| |]; cbn [bind]; [|reflexivity|reflexivity].
      rewrite <- (IH st1 (S lvl) (i + 1) false c1).
      destruct (writeCompressTrie_held _ _ _ _ _ _ _ (i + 1) _ _) as [[[st2 b2] c2]| |]; cbn [bind]; [|reflexivity|reflexivity].
      step x1. step x2. reflexivity. }
    destruct (N.eqb nd 2).
    { step i. step x1. step w. rewrite <- (IH w (S lvl) i false (ms ++ [held w])).
      destruct (writeCompressTrie_held _ _ _ _ _ _ _ i _ _) as [[[st1 b1] c1]| |]; cbn [bind]; [|reflexivity|reflexivity].
      step x2. step x3. reflexivity. }
    destruct (N.eqb nd 1); [|reflexivity].
    step x1. step i. step x2. step w.
    rewrite <- (IH w (S lvl) i false (ms ++ [held w])).
    destruct (writeCompressTrie_held _ _ _ _ _ _ _ i _ _) as [[[st1 b1] c1]| |]; cbn [bind]; [|reflexivity|reflexivity].
    step x3. reflexivity.
  Qed.

  Lemma compress_run_forget :
    drop (compress_run_held height getNode getLeft getRight) = compress_run height getNode getLeft getRight.
  Proof.
    unfold compress_run_held, compress_run.
    rewrite <- (writeCompress_forget (S height) (repeat [] height, repeat 0 height) 0 0 false []). unfold drop.
    destruct (writeCompressTrie_held _ _ _ _ _ _ _ _ _ _) as [[[st b] c]| |]; reflexivity.
  Qed.
End Erase.

Theorem flat_encode_forget : forall t, drop (flat_encodeRuns_held t) = flat_encodeRuns t.
Proof.
  intros t. unfold drop, flat_encodeRuns_held, flat_encodeRuns. rewrite <- compress_run_forget. unfold drop.
  destruct (compress_run_held _ _ _ _) as [[st c]| |]; cbn [bind]; [|reflexivity|reflexivity].
  destruct (flat_writeOnes t st); reflexivity.
Qed.

Theorem level_encode_forget : forall t, drop (level_encodeRuns_held t) = level_encodeRuns t.
Proof.
  intros t. unfold drop, level_encodeRuns_held, level_encodeRuns. rewrite <- compress_run_forget. unfold drop.
  destruct (compress_run_held _ _ _ _) as [[st c]| |]; cbn [bind]; [|reflexivity|reflexivity].
  destruct (level_writeOnes t st); reflexivity.
Qed.

Lemma fast_writeCompress_forget : forall t fuel st ws lvl id b ms,
  drop (fast_writeCompress_held fuel t st ws lvl id b ms) = fast_writeCompress fuel t st ws lvl id b.
Proof.
  intros t.
  induction fuel as [|fuel IH]; intros st ws lvl id b ms; cbn [fast_writeCompress fast_writeCompress_held]; [reflexivity|].
  unfold drop in *. destruct (S lvl =? x_height t).
  { destruct (fast_getWord t id); cbn [bind]; [|reflexivity|reflexivity].
    destruct (vget (snd st) lvl); cbn [bind]; [|reflexivity|reflexivity].
    destruct (push_one st lvl _); reflexivity. }
  destruct (fast_getNode t id lvl); cbn [bind]; [|reflexivity|reflexivity].
  destruct (vget (snd st) (S lvl)); cbn [bind]; [|reflexivity|reflexivity].
  destruct (N.eqb _ 3).
  { destruct (fast_getLeftChild t id lvl) as [i| |]; cbn [bind]; [|reflexivity|reflexivity].
    rewrite <- (IH st ws (S lvl) i false ms).
    destruct (fast_writeCompress_held _ _ _ _ _ i _ _) as [[[[st1 w1] b1] c1]| |]; cbn [bind]; [|reflexivity|reflexivity].
    rewrite <- (IH st1 w1 (S lvl) (i + 1) false c1).
    destruct (fast_writeCompress_held _ _ _ _ _ (i + 1) _ _) as [[[[st2 w2] b2] c2]| |]; cbn [bind]; [|reflexivity|reflexivity].
    match goal with |- context [bind ?m _] => destruct m as [[st3 w3]| |]; cbn [bind]; [|reflexivity|reflexivity] end.
    destruct (add_pos _ _ _); reflexivity. }
  destruct (N.eqb _ 2).
  { destruct (fast_getLeftChild t id lvl) as [i| |]; cbn [bind]; [|reflexivity|reflexivity].
    destruct (vget (snd st) lvl); cbn [bind]; [|reflexivity|reflexivity].
    destruct (push_one st lvl _) as [st0| |]; cbn [bind]; [|reflexivity|reflexivity].
    rewrite <- (IH st0 ws (S lvl) i false (ms ++ [(held st0, length ws)])).
    destruct (fast_writeCompress_held _ _ _ _ _ i _ _) as [[[[st1 w1] b1] c1]| |]; cbn [bind]; [|reflexivity|reflexivity].
    destruct (add_pos st1 _ _) as [st2| |]; cbn [bind]; [|reflexivity|reflexivity].
    destruct (add_pos st2 _ _); reflexivity. }
  destruct (N.eqb _ 1); [|reflexivity].
  destruct (add_pos st _ _) as [st3| |]; cbn [bind]; [|reflexivity|reflexivity].
  destruct (fast_getRightChild t id lvl) as [i| |]; cbn [bind]; [|reflexivity|reflexivity].
  destruct (vget (snd st3) lvl); cbn [bind]; [|reflexivity|reflexivity].
  destruct (push_one st3 lvl _) as [st0| |]; cbn [bind]; [|reflexivity|reflexivity].
  rewrite <- (IH st0 ws (S lvl) i false (ms ++ [(held st0, length ws)])).
  destruct (fast_writeCompress_held _ _ _ _ _ i _ _) as [[[[st1 w1] b1] c1]| |]; cbn [bind]; [|reflexivity|reflexivity].
  destruct (add_pos st1 _ _); reflexivity.
Qed.

Theorem fast_encode_forget : forall t, drop (fast_encodeRuns_held t) = fast_encodeRuns t.
Proof.
  intros t. unfold fast_encodeRuns_held, fast_encodeRuns.
  rewrite <- (fast_writeCompress_forget t _ _ _ _ _ _ []). unfold drop.
  destruct (fast_writeCompress_held _ _ _ _ _ _ _ _) as [[[[st1 w1] b1] c1]| |]; cbn [bind]; [|reflexivity|reflexivity].
  destruct (fast_writeOnes t st1 w1); reflexivity.
Qed.

(** * What each step holds *)

Lemma vset_concat : forall A (l : list (list A)) i x y l', vget l i = Ok x -> vset l i y = Ok l' ->
  length (concat l') + length x = length (concat l) + length y.
Proof.
  intros A l i x y l' H E. apply Facts.vget_inv in H. apply nth_error_split in H.
  destruct H as (a & b & -> & <-). rewrite vset_app_mid in E by reflexivity. injection E as <-.
  rewrite !concat_app. cbn [concat]. rewrite !app_length. lia.
Qed.

Lemma held_push : forall st l x st', push_one st l x = Ok st' -> held st' = S (held st).
Proof.
  unfold push_one, held. intros st l x st' E. apply bind_inv in E. destruct E as (o & E1 & E).
  apply bind_inv in E. destruct E as (os & E2 & E). injection E as <-. cbn [fst].
  assert (A := vset_concat _ _ _ _ _ _ E1 E2). rewrite app_length in A. cbn [length] in A. lia.
Qed.

Lemma held_add : forall st l d st', add_pos st l d = Ok st' -> held st' = held st.
Proof.
  unfold add_pos, held. intros st l d st' E. apply bind_inv in E. destruct E as (o & _ & E).
  apply bind_inv in E. destruct E as (os & _ & E). injection E as <-. reflexivity.
Qed.

Lemma held_sub4 : forall st l st', sub4_pos st l = Ok st' -> held st' = held st.
Proof.
  unfold sub4_pos, held. intros st l st' E. apply bind_inv in E. destruct E as (o & _ & E).
  destruct (o <? 4); [discriminate|].
  apply bind_inv in E. destruct E as (os & _ & E). injection E as <-. reflexivity.
Qed.

Lemma held_xsub4 : forall st l st', xc_sub4 st l = Ok st' -> held st' = held st.
Proof.
  unfold xc_sub4, held. intros st l st' E. apply bind_inv in E. destruct E as (o & _ & E).
  apply bind_inv in E. destruct E as (os & _ & E). injection E as <-. reflexivity.
Qed.

Lemma vpop_length : forall A (l l' : list A), vpop l = Ok l' -> length l = S (length l').
Proof.
  intros A l l' E. destruct l as [|x l] using rev_ind; [discriminate|]. unfold vpop in E.
  rewrite removelast_last in E. replace l' with l.
  - rewrite app_length. cbn [length]. lia.
  - destruct (l ++ [x]) eqn:El; [destruct l; discriminate|]. congruence.
Qed.

Lemma held_pop : forall k i st l st',
  for_loop k i (fun _ st =>
    let* o := vget (fst st) l in
    let* o' := vpop o in
    let* os := vset (fst st) l o' in
    Ok (os, snd st)) st = Ok st' -> held st = held st' + k.
Proof.
  induction k as [|k IH]; intros i st l st' E; cbn [for_loop] in E.
  - injection E as <-. lia.
  - apply bind_inv in E. destruct E as (st1 & E1 & E). apply IH in E.
    apply bind_inv in E1. destruct E1 as (o & H1 & E1). apply bind_inv in E1. destruct E1 as (o' & H2 & E1).
    apply bind_inv in E1. destruct E1 as (os & H3 & E1). injection E1 as <-.
    assert (A := vset_concat _ _ _ _ _ _ H1 H3). apply vpop_length in H2. unfold held in *. cbn [fst] in *. lia.
Qed.

Lemma held_leaf : forall st l node b st' b', wc_leaf st l node b = Ok (st', b') ->
  held st <= held st' /\ (b = false -> b' = true -> held st' = held st + 2).
Proof.
  unfold wc_leaf. intros st l node b st' b' E.
  apply bind_inv in E. destruct E as (s1 & E1 & E). apply bind_inv in E. destruct E as (s2 & E2 & E).
  apply bind_inv in E. destruct E as (s3 & E3 & E). apply bind_inv in E. destruct E as (s4 & E4 & E).
  injection E as <- <-. apply held_add in E2, E4.
  destruct (N.eqb_spec node 3) as [->|N3].
  - cbn [N.eqb Pos.eqb orb] in E1, E3.
    apply bind_inv in E1. destruct E1 as (p1 & _ & E1). apply bind_inv in E3. destruct E3 as (p3 & _ & E3).
    apply held_push in E1, E3. split; intros; lia.
  - split; [|intros; congruence].
    assert (held st <= held s1).
    { destruct (N.eqb node 2 || false)%bool; [|injection E1 as <-; lia].
      apply bind_inv in E1. destruct E1 as (p1 & _ & E1). apply held_push in E1. lia. }
    assert (held s2 <= held s3).
    { destruct (N.eqb node 1 || false)%bool; [|injection E3 as <-; lia].
      apply bind_inv in E3. destruct E3 as (p3 & _ & E3). apply held_push in E3. lia. }
    lia.
Qed.

(** [new] are the records of a step that ends with [n], none above [n + k]. *)
Definition within (k n : nat) (new : list nat) : Prop := ends_at n new /\ at_most (n + k) new.

Lemma ends_last : forall a n, ends_at n (a ++ [n]).
Proof. intros a n. exists a. reflexivity. Qed.

Lemma at_most_le : forall a b l, at_most a l -> a <= b -> at_most b l.
Proof. intros a b l H L. eapply Forall_impl; [|exact H]. intros x Hx. cbv beta in *. lia. Qed.

Lemma at_most_app : forall n a b, at_most n a -> at_most n b -> at_most n (a ++ b).
Proof. intros. apply Forall_app. auto. Qed.

Lemma at_most_one : forall n k, k <= n -> at_most n [k].
Proof. intros n k H. constructor; auto. Qed.

Section BinHeld.
  Variable height : nat.
  Variable getNode : nat -> nat -> result N.
  Variable getLeft getRight : nat -> nat -> result nat.

  Lemma held_bound : forall fuel st lvl id b ms st' b' ms',
    writeCompressTrie_held height getNode getLeft getRight fuel st lvl id b ms = Ok (st', b', ms') ->
    exists new, ms' = ms ++ new /\ within 4 (held st') new /\ held st <= held st' /\
      (S lvl = height -> at_most (held st') new /\ (b = false -> b' = true -> held st' = held st + 2)).
  Proof.
    induction fuel as [|fuel IH]; intros st lvl id b ms st' b' ms' E; [discriminate|].
    cbn [writeCompressTrie_held] in E. apply bind_inv in E. destruct E as (nd & _ & E).
    destruct (Nat.eqb_spec (S lvl) height) as [Eh|Nh].
    { apply bind_inv in E. destruct E as ((s1 & b1) & E1 & E). injection E as <- <- <-.
      destruct (held_leaf _ _ _ _ _ _ E1) as (L1 & L2).
      exists [held s1]. split; auto. split; [split; [apply (ends_last [])|apply at_most_one; lia]|].
      split; auto. intros _. split; auto. apply at_most_one. lia. }
    apply bind_inv in E. destruct E as (x0 & _ & E).
    destruct (N.eqb nd 3).
    { apply bind_inv in E. destruct E as (i & _ & E).
      apply bind_inv in E. destruct E as (((s1 & b1) & m1) & E1 & E).
      apply bind_inv in E. destruct E as (((s2 & b2) & m2) & E2 & E).
      apply bind_inv in E. destruct E as (s3 & E3 & E). apply bind_inv in E. destruct E as (s4 & E4 & E).
      injection E as <- <- <-. apply held_add in E4.
      apply IH in E1. destruct E1 as (n1 & -> & (_ & W1) & L1 & T1).
      apply IH in E2. destruct E2 as (n2 & -> & (_ & W2) & L2 & T2).
      exists (n1 ++ n2 ++ [held s4]). split; [rewrite <- !app_assoc; reflexivity|].
      enough (G : held st <= held s4 /\ at_most (held s4 + 4) n1 /\ at_most (held s4 + 4) n2).
      { destruct G as (G0 & G1 & G2). split; [split|split; [auto|intros; lia]].
        - rewrite app_assoc. apply ends_last.
        - apply at_most_app; [auto|apply at_most_app; [auto|apply at_most_one; lia]]. }
      destruct b1; [destruct b2|]; cbn [andb] in E3.
      - apply bind_inv in E3. destruct E3 as (s5 & E5 & E3). apply held_sub4 in E5.
        destruct (Nat.eqb_spec (S (S lvl)) height) as [Ee|Ee].
        + unfold pop_ones in E3. apply held_pop in E3. destruct (T1 Ee) as (A1 & B1), (T2 Ee) as (A2 & B2).
          specialize (B1 eq_refl eq_refl). specialize (B2 eq_refl eq_refl).
          split; [lia|]. split; [apply (at_most_le _ _ _ A1)|apply (at_most_le _ _ _ A2)]; lia.
        + injection E3 as <-.
          split; [lia|]. split; [apply (at_most_le _ _ _ W1)|apply (at_most_le _ _ _ W2)]; lia.
      - apply bind_inv in E3. destruct E3 as (p & _ & E3). apply bind_inv in E3. destruct E3 as (s5 & E5 & E3).
        apply held_push in E5, E3.
        split; [lia|]. split; [apply (at_most_le _ _ _ W1)|apply (at_most_le _ _ _ W2)]; lia.
      - apply bind_inv in E3. destruct E3 as (p & _ & E3). apply bind_inv in E3. destruct E3 as (s5 & E5 & E3).
        apply held_push in E5, E3.
        split; [lia|]. split; [apply (at_most_le _ _ _ W1)|apply (at_most_le _ _ _ W2)]; lia. }
    destruct (N.eqb nd 2).
    { apply bind_inv in E. destruct E as (i & _ & E). apply bind_inv in E. destruct E as (p & _ & E).
      apply bind_inv in E. destruct E as (s0 & E0 & E).
      apply bind_inv in E. destruct E as (((s1 & b1) & m1) & E1 & E).
      apply bind_inv in E. destruct E as (s2 & E2 & E). apply bind_inv in E. destruct E as (s3 & E3 & E).
      injection E as <- <- <-. apply held_add in E2, E3. apply held_push in E0.
      apply IH in E1. destruct E1 as (n1 & -> & (_ & W1) & L1 & T1).
      exists ([held s0] ++ n1 ++ [held s3]). split; [rewrite <- !app_assoc; reflexivity|].
      split; [split|split; [lia|intros; lia]].
      - rewrite app_assoc. apply ends_last.
      - apply at_most_app; [apply at_most_one; lia|apply at_most_app; [|apply at_most_one; lia]].
        apply (at_most_le _ _ _ W1). lia. }
    destruct (N.eqb nd 1).
    { apply bind_inv in E. destruct E as (s9 & E9 & E).
      apply bind_inv in E. destruct E as (i & _ & E). apply bind_inv in E. destruct E as (p & _ & E).
      apply bind_inv in E. destruct E as (s0 & E0 & E).
      apply bind_inv in E. destruct E as (((s1 & b1) & m1) & E1 & E).
      apply bind_inv in E. destruct E as (s2 & E2 & E).
      injection E as <- <- <-. apply held_add in E2, E9. apply held_push in E0.
      apply IH in E1. destruct E1 as (n1 & -> & (_ & W1) & L1 & T1).
      exists ([held s0] ++ n1 ++ [held s2]). split; [rewrite <- !app_assoc; reflexivity|].
      split; [split|split; [lia|intros; lia]].
      - rewrite app_assoc. apply ends_last.
      - apply at_most_app; [apply at_most_one; lia|apply at_most_app; [|apply at_most_one; lia]].
        apply (at_most_le _ _ _ W1). lia. }
    injection E as <- <- <-. exists [held st]. split; auto.
    split; [split; [apply (ends_last [])|apply at_most_one; lia]|]. split; [lia|]. intros; lia.
  Qed.

  Lemma compress_run_held_bound : forall st ms,
    compress_run_held height getNode getLeft getRight = Ok (st, ms) -> within 4 (held st) ms.
  Proof.
    unfold compress_run_held. intros st ms E. apply bind_inv in E. destruct E as (((s1 & b1) & m1) & E1 & E).
    injection E as <- <-. apply held_bound in E1. destruct E1 as (new & -> & W & _). exact W.
  Qed.
End BinHeld.

(** * Positions and ones *)

Lemma ones_app : forall a b, ones (a ++ b) = ones a + ones b.
Proof. intros. apply count_occ_app. Qed.

Lemma tpos_ones : forall bs p, length (tpos p bs) = ones bs.
Proof.
  induction bs as [|b bs IH]; intros p; [reflexivity|]. cbn [tpos]. rewrite app_length, IH.
  unfold ones. destruct b; cbn [length count_occ Bool.bool_dec]; reflexivity.
Qed.

Lemma prebits_ones : forall A (T : tree A) n,
  length (concat (map (fun j => tpos 0 (bits (F T j))) (seq 0 n))) = ones (prebits T n).
Proof.
  intros A T n. induction n as [|n IH]; [reflexivity|].
  rewrite seq_S, map_app, concat_app, app_length, IH. cbn [map concat prebits]. rewrite app_nil_r, ones_app.
  cbn [Nat.add]. rewrite tpos_ones. reflexivity.
Qed.

Lemma held_mk : forall A (T : tree A) h P,
  held (mk h (fun j => tpos 0 (bits (F T j))) P) = ones (prebits T h).
Proof. intros. unfold held, mk. cbn [fst]. apply prebits_ones. Qed.

Theorem flat_held : forall t h T, flat_layout t h T -> plain T ->
  exists t' ms, flat_encodeRuns t = Ok t' /\ flat_encodeRuns_held t = Ok (t', ms) /\
    within 4 (ones (f_bTrie t' ++ f_lastLevel t')) ms.
Proof.
  intros t h T L Hp. assert (E := flat_encodeRuns_spec t h T L Hp). cbv zeta in E.
  set (T' := ucompress T) in *. set (m := nodelev T') in *.
  assert (F0 := flat_encode_forget t). rewrite E in F0. apply drop_ok in F0. destruct F0 as (ms & F0).
  eexists. exists ms. split; [exact E|]. split; [exact F0|]. cbn [f_bTrie f_lastLevel].
  assert (R := flat_reps _ _ _ L). destruct L as (H2 & Hwf & EH & _).
  destruct (ucompress_nodelev T h Hwf ltac:(lia)) as (N1 & N2). fold T' m in N1, N2.
  replace (prebits T' (m - 1) ++ bits (F T' (m - 1))) with (prebits T' h).
  2:{ rewrite (prebits_rest _ T' h) by exact N2. fold m. replace m with (S (m - 1)) at 1 by lia. reflexivity. }
  unfold flat_encodeRuns_held in F0. rewrite EH in F0.
  apply bind_inv in F0. destruct F0 as ((st & ms1) & Ec & F0).
  apply bind_inv in F0. destruct F0 as (t1 & _ & F0). injection F0 as _ ->.
  assert (Ek := compress_run_forget h (flat_getNode t) (flat_getLeftChild t) (flat_getRightChild t)).
  rewrite Ec, (compress_run_spec h _ _ _ T) in Ek by (auto; lia). cbn [drop bind] in Ek. injection Ek as ->.
  apply compress_run_held_bound in Ec. rewrite held_mk in Ec. exact Ec.
Qed.

Theorem level_held : forall t h T, level_layout t h T -> plain T ->
  exists t' ms, level_encodeRuns t = Ok t' /\ level_encodeRuns_held t = Ok (t', ms) /\
    within 4 (ones (concat (l_bTrie t'))) ms.
Proof.
  intros t h T L Hp. destruct (level_encodeRuns_spec t h T L Hp) as (t' & E & L' & _). cbv zeta in L'.
  set (T' := ucompress T) in *.
  assert (F0 := level_encode_forget t). rewrite E in F0. apply drop_ok in F0. destruct F0 as (ms & F0).
  exists t', ms. split; [exact E|]. split; [exact F0|].
  assert (R := level_reps _ _ _ L). assert (EH := level_height _ _ _ L). destruct L as (H1 & Hwf & _).
  destruct L' as (_ & _ & -> & _).
  replace (concat (levels h T')) with (prebits T' h).
  2:{ rewrite (prebits_levels T' h h) by lia. rewrite firstn_all2; auto. unfold levels. rewrite levelsF_length. lia. }
  unfold level_encodeRuns_held in F0. rewrite EH in F0.
  apply bind_inv in F0. destruct F0 as ((st & ms1) & Ec & F0).
  apply bind_inv in F0. destruct F0 as (t1 & _ & F0). injection F0 as _ ->.
  assert (Ek := compress_run_forget h (level_getNode t) (level_getLeftChild t) (level_getRightChild t)).
  rewrite Ec, (compress_run_spec h _ _ _ T) in Ek by (auto; lia). cbn [drop bind] in Ek. injection Ek as ->.
  apply compress_run_held_bound in Ec. rewrite held_mk in Ec. exact Ec.
Qed.

(** * Fast tries *)

Lemma pop2_length : forall (ws ws' : list N), for_loop 2 0 (fun _ ws => vpop ws) ws = Ok ws' -> length ws = length ws' + 2.
Proof.
  intros ws ws' E. cbn [for_loop] in E. apply bind_inv in E. destruct E as (w1 & E1 & E).
  apply bind_inv in E. destruct E as (w2 & E2 & E). injection E as <-. apply vpop_length in E1, E2. lia.
Qed.

(** The records [new] end with [n] positions and [k] words. *)
Definition fwithin (n k : nat) (new : list (nat * nat)) : Prop :=
  within 0 n (map fst new) /\ within 2 k (map snd new).

Lemma fast_held_bound : forall t fuel st ws lvl id b ms st' ws' b' ms',
  fast_writeCompress_held fuel t st ws lvl id b ms = Ok (st', ws', b', ms') ->
  exists new, ms' = ms ++ new /\ fwithin (held st') (length ws') new /\
    held st <= held st' /\ length ws <= length ws' /\
    (S lvl = x_height t -> at_most (length ws') (map snd new) /\ length ws' = length ws + 1).
Proof.
  intros t. induction fuel as [|fuel IH]; intros st ws lvl id b ms st' ws' b' ms' E; [discriminate|].
  cbn [fast_writeCompress_held] in E.
  destruct (Nat.eqb_spec (S lvl) (x_height t)) as [Eh|Nh].
  { apply bind_inv in E. destruct E as (w & _ & E). apply bind_inv in E. destruct E as (p & _ & E).
    apply bind_inv in E. destruct E as (s1 & E1 & E). cbv zeta in E.
    injection E as <- <- <- <-. apply held_push in E1. rewrite app_length. cbn [length].
    exists [(held s1, length ws + 1)]. split; auto. unfold fwithin. cbn [map fst snd].
    split; [split; (split; [apply (ends_last [])|apply at_most_one; lia])|].
    split; [lia|]. split; [lia|]. intros _. split; auto. apply at_most_one. lia. }
  apply bind_inv in E. destruct E as (nd & _ & E). apply bind_inv in E. destruct E as (x0 & _ & E).
  destruct (N.eqb nd 3).
  { apply bind_inv in E. destruct E as (i & _ & E).
    apply bind_inv in E. destruct E as ((((s1 & w1) & b1) & m1) & E1 & E).
    apply bind_inv in E. destruct E as ((((s2 & w2) & b2) & m2) & E2 & E).
    apply bind_inv in E. destruct E as ((s3 & w3) & E3 & E). apply bind_inv in E. destruct E as (s4 & E4 & E).
    injection E as <- <- <- <-. apply held_add in E4.
    apply IH in E1. destruct E1 as (n1 & -> & ((_ & W1) & _ & V1) & L1 & K1 & T1).
    apply IH in E2. destruct E2 as (n2 & -> & ((_ & W2) & _ & V2) & L2 & K2 & T2).
    exists (n1 ++ n2 ++ [(held s4, length w3)]). split; [rewrite <- !app_assoc; reflexivity|].
    unfold fwithin. rewrite !map_app. cbn [map fst snd].
    enough (G : (held s2 <= held s4 /\ length ws <= length w3) /\
                at_most (length w3 + 2) (map snd n1) /\ at_most (length w3 + 2) (map snd n2)).
    { destruct G as (G0 & G1 & G2). split; [split; split|split; [lia|split; [lia|intros; lia]]].
      - rewrite app_assoc. apply ends_last.
      - apply at_most_app; [|apply at_most_app; [|apply at_most_one; lia]];
          [apply (at_most_le _ _ _ W1)|apply (at_most_le _ _ _ W2)]; lia.
      - rewrite app_assoc. apply ends_last.
      - apply at_most_app; [auto|apply at_most_app; [auto|apply at_most_one; lia]]. }
    destruct (b1 && b2)%bool.
    - apply bind_inv in E3. destruct E3 as (w5 & E5 & E3). apply bind_inv in E3. destruct E3 as (s5 & E6 & E3).
      injection E3 as <- <-. apply held_xsub4 in E6.
      destruct (Nat.eqb_spec (S (S lvl)) (x_height t)) as [Ee|Ee].
      + apply pop2_length in E5. destruct (T1 Ee) as (A1 & B1), (T2 Ee) as (A2 & B2).
        split; [lia|]. split; [apply (at_most_le _ _ _ A1)|apply (at_most_le _ _ _ A2)]; lia.
      + injection E5 as <-.
        split; [lia|]. split; [apply (at_most_le _ _ _ V1)|apply (at_most_le _ _ _ V2)]; lia.
    - apply bind_inv in E3. destruct E3 as (p & _ & E3). apply bind_inv in E3. destruct E3 as (s5 & E5 & E3).
      apply bind_inv in E3. destruct E3 as (s6 & E6 & E3). injection E3 as <- <-.
      apply held_push in E5, E6.
      split; [lia|]. split; [apply (at_most_le _ _ _ V1)|apply (at_most_le _ _ _ V2)]; lia. }
  destruct (N.eqb nd 2).
  { apply bind_inv in E. destruct E as (i & _ & E). apply bind_inv in E. destruct E as (p & _ & E).
    apply bind_inv in E. destruct E as (s0 & E0 & E).
    apply bind_inv in E. destruct E as ((((s1 & w1) & b1) & m1) & E1 & E).
    apply bind_inv in E. destruct E as (s2 & E2 & E). apply bind_inv in E. destruct E as (s3 & E3 & E).
    injection E as <- <- <- <-. apply held_add in E2, E3. apply held_push in E0.
    apply IH in E1. destruct E1 as (n1 & -> & ((_ & W1) & _ & V1) & L1 & K1 & T1).
    exists ([(held s0, length ws)] ++ n1 ++ [(held s3, length w1)]). split; [rewrite <- !app_assoc; reflexivity|].
    unfold fwithin. rewrite !map_app. cbn [map fst snd].
    split; [split; split|split; [lia|split; [lia|intros; lia]]].
    - rewrite app_assoc. apply ends_last.
    - apply at_most_app; [apply at_most_one; lia|apply at_most_app; [|apply at_most_one; lia]].
      apply (at_most_le _ _ _ W1). lia.
    - rewrite app_assoc. apply ends_last.
    - apply at_most_app; [apply at_most_one; lia|apply at_most_app; [|apply at_most_one; lia]].
      apply (at_most_le _ _ _ V1). lia. }
  destruct (N.eqb nd 1).
  { apply bind_inv in E. destruct E as (s9 & E9 & E).
    apply bind_inv in E. destruct E as (i & _ & E). apply bind_inv in E. destruct E as (p & _ & E).
    apply bind_inv in E. destruct E as (s0 & E0 & E).
    apply bind_inv in E. destruct E as ((((s1 & w1) & b1) & m1) & E1 & E).
    apply bind_inv in E. destruct E as (s2 & E2 & E).
    injection E as <- <- <- <-. apply held_add in E2, E9. apply held_push in E0.
    apply IH in E1. destruct E1 as (n1 & -> & ((_ & W1) & _ & V1) & L1 & K1 & T1).
    exists ([(held s0, length ws)] ++ n1 ++ [(held s2, length w1)]). split; [rewrite <- !app_assoc; reflexivity|].
    unfold fwithin. rewrite !map_app. cbn [map fst snd].
    split; [split; split|split; [lia|split; [lia|intros; lia]]].
    - rewrite app_assoc. apply ends_last.
    - apply at_most_app; [apply at_most_one; lia|apply at_most_app; [|apply at_most_one; lia]].
      apply (at_most_le _ _ _ W1). lia.
    - rewrite app_assoc. apply ends_last.
    - apply at_most_app; [apply at_most_one; lia|apply at_most_app; [|apply at_most_one; lia]].
      apply (at_most_le _ _ _ V1). lia. }
  injection E as <- <- <- <-. exists [(held st, length ws)]. split; auto. unfold fwithin. cbn [map fst snd].
  split; [split; (split; [apply (ends_last [])|apply at_most_one; lia])|]. split; [lia|]. split; [lia|]. intros; lia.
Qed.

(** One position for each word of the old trie is put in at the level of words, and none is
    taken out. *)
Section FastLast.
  Variable t : fast.
  Let h := x_height t.
  Let R := reps (fast_getNode t) (fast_getLeftChild t) (fast_getRightChild t)
                (fun id w => fast_getWord t id = Ok w).

  Hypothesis H1 : 1 <= h.

  Definition last_held (st : wc_state) : nat := length (nth (h - 1) (fst st) []).

  Lemma last_push : forall st l x st', push_one st l x = Ok st' ->
    last_held st' = last_held st + (if S l =? h then 1 else 0).
  Proof.
    unfold push_one, last_held. intros st l x st' E. apply bind_inv in E. destruct E as (o & E1 & E).
    apply bind_inv in E. destruct E as (os & E2 & E). injection E as <-. cbn [fst].
    apply Facts.vget_inv in E1.
    assert (Hl : l < length (fst st)) by (apply nth_error_Some; congruence).
    destruct (Facts.vset_spec _ (fst st) l (o ++ [x]) Hl) as (os' & Ev & El & Hn).
    rewrite E2 in Ev. injection Ev as <-. specialize (Hn (h - 1)).
    destruct (Nat.eqb_spec (S l) h) as [Eh|Eh].
    - replace (h - 1) with l in * by lia. rewrite Nat.eqb_refl in Hn.
      rewrite (nth_error_nth _ _ _ Hn), (nth_error_nth _ _ _ E1), app_length. reflexivity.
    - replace (h - 1 =? l) with false in Hn by (symmetry; apply Nat.eqb_neq; lia).
      rewrite <- !nth_default_eq. unfold nth_default. rewrite Hn. lia.
  Qed.

  Lemma last_add : forall st l d st', add_pos st l d = Ok st' -> last_held st' = last_held st.
  Proof.
    unfold add_pos, last_held. intros st l d st' E. apply bind_inv in E. destruct E as (o & _ & E).
    apply bind_inv in E. destruct E as (os & _ & E). injection E as <-. reflexivity.
  Qed.

  Lemma last_sub4 : forall st l st', xc_sub4 st l = Ok st' -> last_held st' = last_held st.
  Proof.
    unfold xc_sub4, last_held. intros st l st' E. apply bind_inv in E. destruct E as (o & _ & E).
    apply bind_inv in E. destruct E as (os & _ & E). injection E as <-. reflexivity.
  Qed.

  Lemma last_leaves : forall T d lvl id st ws b fuel st' ws' b',
    wf d T -> plain T -> lvl + d + 1 = h -> R T lvl id ->
    fast_writeCompress fuel t st ws lvl id b = Ok (st', ws', b') ->
    last_held st' = last_held st + length (leaves T).
  Proof.
    induction T as [w| |T IH|T IH|l IHl r IHr]; intros d lvl id st ws b fuel st' ws' b' Hwf Hp Hlv Hr E;
      (destruct fuel as [|fuel]; [discriminate|]); cbn [fast_writeCompress] in E; fold h in E; cbn [leaves].
    - cbn in Hwf. subst d. replace (S lvl =? h) with true in E by (symmetry; apply Nat.eqb_eq; lia).
      apply bind_inv in E. destruct E as (x0 & _ & E). apply bind_inv in E. destruct E as (x1 & _ & E).
      apply bind_inv in E. destruct E as (x2 & E2 & E). injection E as <- _ _.
      apply last_push in E2. replace (S lvl =? h) with true in E2 by (symmetry; apply Nat.eqb_eq; lia). exact E2.
    - cbn in Hp. tauto.
    - cbn in Hwf, Hp. destruct Hwf as (Hd & Hwf).
      replace (S lvl =? h) with false in E by (symmetry; apply Nat.eqb_neq; lia).
      destruct Hr as (Hn & i & Hc & Hr). rewrite Hn in E. cbn [bind] in E.
      apply bind_inv in E. destruct E as (x0 & _ & E). cbn [N.eqb Pos.eqb] in E.
      rewrite Hc in E. cbn [bind] in E. apply bind_inv in E. destruct E as (x1 & _ & E).
      apply bind_inv in E. destruct E as (x2 & E2 & E).
      apply bind_inv in E. destruct E as (((x3 & x4) & x5) & E1 & E).
      apply bind_inv in E. destruct E as (x7 & E7 & E). apply bind_inv in E. destruct E as (x8 & E8 & E).
      injection E as <- _ _. apply (IH (pred d)) in E1; auto; try lia.
      apply last_push in E2. apply last_add in E7, E8.
      replace (S lvl =? h) with false in E2 by (symmetry; apply Nat.eqb_neq; lia). lia.
    - cbn in Hwf, Hp. destruct Hwf as (Hd & Hwf).
      replace (S lvl =? h) with false in E by (symmetry; apply Nat.eqb_neq; lia).
      destruct Hr as (Hn & i & Hc & Hr). rewrite Hn in E. cbn [bind] in E.
      apply bind_inv in E. destruct E as (x0 & _ & E). cbn [N.eqb Pos.eqb] in E.
      apply bind_inv in E. destruct E as (x9 & E9 & E).
      rewrite Hc in E. cbn [bind] in E. apply bind_inv in E. destruct E as (x1 & _ & E).
      apply bind_inv in E. destruct E as (x2 & E2 & E).
      apply bind_inv in E. destruct E as (((x3 & x4) & x5) & E1 & E).
      apply bind_inv in E. destruct E as (x7 & E7 & E).
      injection E as <- _ _. apply (IH (pred d)) in E1; auto; try lia.
      apply last_push in E2. apply last_add in E7, E9.
      replace (S lvl =? h) with false in E2 by (symmetry; apply Nat.eqb_neq; lia). lia.
    - cbn in Hwf, Hp. destruct Hwf as (Hd & W1 & W2), Hp as (P1 & P2).
      replace (S lvl =? h) with false in E by (symmetry; apply Nat.eqb_neq; lia).
      destruct Hr as (Hn & (i & Hc & Hr1 & Hr2) & _). rewrite Hn in E. cbn [bind] in E.
      apply bind_inv in E. destruct E as (x0 & _ & E). cbn [N.eqb Pos.eqb] in E.
      rewrite Hc in E. cbn [bind] in E.
      apply bind_inv in E. destruct E as (((x3 & x4) & x5) & E1 & E).
      apply bind_inv in E. destruct E as (((y3 & y4) & y5) & E2 & E).
      apply bind_inv in E. destruct E as ((z1 & z2) & Ez & E). apply bind_inv in E. destruct E as (x8 & E8 & E).
      injection E as <- _ _. apply last_add in E8.
      apply (IHl (pred d)) in E1; auto; try lia. apply (IHr (pred d)) in E2; auto; try lia.
      rewrite app_length. enough (last_held z1 = last_held y3) by lia.
      destruct (x5 && y5)%bool.
      + apply bind_inv in Ez. destruct Ez as (q1 & _ & Ez). apply bind_inv in Ez. destruct Ez as (q2 & Eq & Ez).
        injection Ez as <- _. apply last_sub4 in Eq. exact Eq.
      + apply bind_inv in Ez. destruct Ez as (q1 & _ & Ez). apply bind_inv in Ez. destruct Ez as (q2 & Eq & Ez).
        apply bind_inv in Ez. destruct Ez as (q3 & Ep & Ez). injection Ez as <- _.
        apply last_push in Eq, Ep.
        replace (S lvl =? h) with false in Eq, Ep by (symmetry; apply Nat.eqb_neq; lia). lia.
  Qed.
End FastLast.

Theorem fast_held : forall t T, fast_layout t (x_height t) T -> plain T ->
  exists t' ms, fast_encodeRuns t = Ok t' /\ fast_encodeRuns_held t = Ok (t', ms) /\
    fwithin (ones (x_bTrie t') + length (x_lastLevel t)) (length (x_lastLevel t')) ms.
Proof.
  intros t T L Hp. set (h := x_height t) in *. assert (Hr := fast_reps _ _ _ L).
  destruct (fast_encodeRuns_spec t T L Hp) as (t' & E & L' & _). fold h in L'.
  assert (F0 := fast_encode_forget t). rewrite E in F0. apply drop_ok in F0. destruct F0 as (ms & F0).
  exists t', ms. split; [exact E|]. split; [exact F0|].
  destruct L as (H1 & Hwf & _ & _ & HF & _).
  assert (El : length (leaves T) = length (x_lastLevel t)).
  { assert (A := leaves_level _ T (h - 1) Hwf). fold (F T (h - 1)) in A. rewrite HF in A.
    apply (f_equal (@length _)) in A. rewrite !map_length in A. auto. }
  unfold fast_encodeRuns_held in F0. fold h in F0.
  apply bind_inv in F0. destruct F0 as ((((st & ws) & b) & ms1) & Ec & F0).
  apply bind_inv in F0. destruct F0 as (t1 & Ew & F0). injection F0 as -> ->.
  assert (Ek := fast_writeCompress_forget t (S h) (repeat [] h, repeat 0 h) [] 0 0 false []).
  rewrite Ec in Ek. cbn [drop bind] in Ek. symmetry in Ek.
  assert (Ea := last_leaves t H1 T (h - 1) 0 0 _ _ _ _ _ _ _ Hwf Hp ltac:(fold h; lia) Hr Ek).
  destruct (fast_wc_spec t T (h - 1) 0 0 (fun _ => []) (fun _ => 0) [] (S h)) as (O' & P' & Es & HA);
    auto; try (fold h; lia).
  fold h in Es, HA.
  replace (mk h (fun _ => []) (fun _ => 0)) with (repeat (@nil nat) h, repeat 0 h) in Es.
  2:{ unfold mk. rewrite !map_const_seq. reflexivity. }
  rewrite Ek in Es. injection Es as -> -> _.
  apply fast_held_bound in Ec. destruct Ec as (new & -> & W & _). cbn [app].
  replace (ones (x_bTrie t') + length (x_lastLevel t)) with (held (mk h O' P')).
  - replace (length (x_lastLevel t')) with (length ([] ++ leaves (xcompress (x_lw t) T))); [exact W|].
    destruct L' as (_ & Hwf' & _ & _ & HF' & _).
    assert (A := leaves_level _ _ (h - 1) Hwf'). fold (F (xcompress (x_lw t) T) (h - 1)) in A. rewrite HF' in A.
    apply (f_equal (@length _)) in A. rewrite !map_length in A. auto.
  - rewrite <- El. destruct L' as (_ & _ & _ & -> & _).
    unfold last_held in Ea. fold h in Ea. cbn [fst mk] in Ea.
    assert (Hi : nth (h - 1) (repeat (@nil nat) h) [] = []) by apply nth_repeat.
    rewrite Hi in Ea. cbn [length Nat.add] in Ea. rewrite <- Ea.
    unfold held, mk. cbn [fst]. replace h with (S (h - 1)) at 1 4 by lia.
    rewrite seq_S, map_app, concat_app, app_length. cbn [map concat Nat.add]. rewrite app_nil_r.
    f_equal.
    + rewrite <- prebits_ones. do 2 f_equal. apply map_ext_in. intros j Hj. apply in_seq in Hj.
      destruct (HA j ltac:(lia)) as (-> & _). unfold lb. cbn [Nat.leb]. rewrite Nat.sub_0_r. reflexivity.
    + rewrite app_nth2 by (rewrite map_length, seq_length; lia).
      rewrite map_length, seq_length, Nat.sub_diag. reflexivity.
Qed.

(** * The theorems *)

Theorem flat_encode_holds : forall u s, (3 <= u <= 2 ^ 48)%N -> s <> [] -> increasing s -> below u s -> shorter 32 s ->
  exists t t' ms, flat_build s u = Ok t /\ flat_encodeRuns t = Ok t' /\ flat_encodeRuns_held t = Ok (t', ms) /\
    at_most (ones (f_bTrie t' ++ f_lastLevel t') + 4) ms /\ ends_at (ones (f_bTrie t' ++ f_lastLevel t')) ms.
Proof.
  intros u s Hu Hne Hs Hb Hl. destruct (height_of_spec u ltac:(lia)) as (h & Hh & H1 & Hp & H2 & _).
  destruct (flat_build_layout s u h Hh) as (t & Ht & L & _); auto; try lia.
  destruct (flat_held t h _ L ltac:(apply tree_of_plain)) as (t' & ms & E1 & E2 & W1 & W2).
  exists t, t', ms. auto.
Qed.

Theorem level_encode_holds : forall il u s, (2 <= u <= 2 ^ 48)%N -> s <> [] -> increasing s -> below u s ->
  exists t t' ms, level_build il s u = Ok t /\ level_encodeRuns t = Ok t' /\ level_encodeRuns_held t = Ok (t', ms) /\
    at_most (ones (concat (l_bTrie t')) + 4) ms /\ ends_at (ones (concat (l_bTrie t'))) ms.
Proof.
  intros il u s Hu Hne Hs Hb. destruct (height_of_spec u ltac:(lia)) as (h & Hh & H1 & Hp & H2 & _).
  destruct (level_build_layout il s u h Hh) as (t & Ht & L & _); auto; try lia.
  { apply below_short with (u := u); auto. lia. }
  destruct (level_held t h _ L ltac:(apply tree_of_plain)) as (t' & ms & E1 & E2 & W1 & W2).
  exists t, t', ms. auto.
Qed.

Theorem fast_encode_holds : forall u lw jh je s, fast_universe u lw -> fast_ok u s ->
  exists t t' ms, fast_build lw jh je s u = Ok t /\ fast_encodeRuns t = Ok t' /\ fast_encodeRuns_held t = Ok (t', ms) /\
    at_most (ones (x_bTrie t') + length (x_lastLevel t)) (map fst ms) /\
    ends_at (ones (x_bTrie t') + length (x_lastLevel t)) (map fst ms) /\
    at_most (length (x_lastLevel t') + 2) (map snd ms) /\ ends_at (length (x_lastLevel t')) (map snd ms).
Proof.
  intros u lw jh je s (Hlw & Hu) (Hne & Hs & Hb & Hl).
  assert (H8 : (2 ^ N.of_nat 3 <= 2 ^ N.of_nat lw)%N).
  { apply N.pow_le_mono_r; [lia|]. cbn in Hlw. lia. }
  change (2 ^ N.of_nat 3)%N with 8%N in H8.
  destruct (height_of_spec u ltac:(lia)) as (h & Hh & H1 & Hp & H2 & Hk).
  assert (Hlh : lw <= h).
  { destruct lw as [|lw]; [lia|]. change (2 ^ N.of_nat (S lw))%N with (pow2 (S lw)) in Hu.
    rewrite pow2_S in Hu. assert (lw < h) by (apply Hk; lia). lia. }
  assert (H6 : lw <= 6) by (cbn in Hlw; lia).
  destruct (fast_build_layout lw jh je s u h Hh) as (t & Ht & L & _); auto; try lia.
  assert (Hx : x_height t = S (h - lw)) by apply L.
  destruct (fast_held t _ ltac:(rewrite Hx; exact L) ltac:(apply tree_of_plain)) as (t' & ms & E1 & E2 & (W1 & W2) & W3 & W4).
  rewrite Nat.add_0_r in W2. exists t, t', ms. auto 10.
Qed.
