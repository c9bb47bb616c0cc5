(** writeOnes rebuilds the bit vectors from the recorded positions. *)

From Verif Require Import Base FlatTrie LevelTrie FastTrie Facts Tree Groups Reps Layout
  BuildFlat BuildLevel Compress.

Fixpoint each {S X : Type} (g : X -> S -> result S) (l : list X) (s : S) : result S :=
  match l with
  | [] => Ok s
  | x :: l' => let* s' := g x s in each g l' s'
  end.

Lemma for_loop_each : forall S X (g : X -> S -> result S) l s,
  for_loop (length l) 0 (fun i s => let* p := vget l i in g p s) s = each g l s.
Proof.
  intros S X g l s.
  assert (H : forall r pre s, for_loop (length r) (length pre)
            (fun i s => let* p := vget (pre ++ r) i in g p s) s = each g r s).
  { induction r as [|x r IH]; intros pre s0; auto. cbn [length for_loop each].
    rewrite vget_app_mid by auto. cbn [bind]. destruct (g x s0); cbn [bind]; auto.
    specialize (IH (pre ++ [x]) a). rewrite app_length in IH. cbn [length] in IH.
    rewrite Nat.add_1_r, <- app_assoc in IH. exact IH. }
  apply (H l []).
Qed.

Lemma set_ones_spec : forall bs A C q off, length A = off + q ->
  set_ones (A ++ repeat false (length bs) ++ C) off (tpos q bs) = Ok (A ++ bs ++ C).
Proof.
  intros. unfold set_ones. rewrite for_loop_each. revert A q H.
  induction bs as [|b bs IH]; intros A q H; auto.
  cbn [tpos length repeat app]. destruct b; cbn [app each].
  - rewrite vset_app_mid by lia. cbn [bind].
    specialize (IH (A ++ [true]) (S q)). rewrite <- !app_assoc in IH. apply IH.
    rewrite app_length. cbn. lia.
  - specialize (IH (A ++ [false]) (S q)). rewrite <- !app_assoc in IH. apply IH.
    rewrite app_length. cbn. lia.
Qed.

Lemma for_loop_S : forall S n (f : nat -> S -> result S) s,
  for_loop (Datatypes.S n) 0 f s = let* s' := for_loop n 0 f s in f n s'.
Proof.
  intros. replace (Datatypes.S n) with (n + 1) by lia. rewrite for_loop_app.
  destruct (for_loop n 0 f s); cbn [bind]; auto.
  cbn [for_loop]. rewrite Nat.add_0_l. destruct (f n a); auto.
Qed.

(** * Which levels hold bits *)

Lemma bits_level : forall A (t : tree A) j, length (bits (F t j)) = 0 <-> nodelev t <= j.
Proof.
  intros A t j. unfold F. revert j.
  induction t as [a| |l IH|r IH|l IHl r IHr]; intros j.
  - cbn [nodelev]. split; [lia|]. intros _. destruct j; auto. rewrite fiter_S. cbn [kids].
    rewrite fiter_nil. auto.
  - cbn [nodelev]. destruct j; [cbn; lia|]. rewrite fiter_S. cbn [kids]. rewrite fiter_nil. cbn. lia.
  - cbn [nodelev]. destruct j; [cbn; lia|]. rewrite fiter_S. cbn [kids]. rewrite IH. lia.
  - cbn [nodelev]. destruct j; [cbn; lia|]. rewrite fiter_S. cbn [kids]. rewrite IH. lia.
  - cbn [nodelev]. destruct j; [cbn; lia|]. rewrite fiter_S. cbn [kids].
    change [l; r] with ([l] ++ [r]). rewrite fiter_app, bits_app, app_length.
    specialize (IHl j). specialize (IHr j). lia.
Qed.

Lemma bits_none : forall A (t : tree A) j, nodelev t <= j -> bits (F t j) = [].
Proof. intros. apply length_zero_iff_nil. apply bits_level; auto. Qed.

Lemma prebits_rest : forall A (t : tree A) j, nodelev t <= j -> prebits t j = prebits t (nodelev t).
Proof.
  intros A t j H. induction H; auto. cbn [prebits]. rewrite bits_none by auto. rewrite app_nil_r. auto.
Qed.

Section Flat.
  Variable T : tree unit.
  Variable h : nat.
  Let m := nodelev T.
  Hypothesis Hm1 : 1 <= m.
  Hypothesis Hmh : m <= h.
  Let O (j : nat) := tpos 0 (bits (F T j)).
  Let P (j : nat) := length (bits (F T j)).

  Lemma count_levels_spec : forall n, n <= h ->
    count_levels n (map P (seq 0 h)) = Ok (length (prebits T n), min n m - 1).
  Proof.
    induction n; intros Hn; auto. unfold count_levels in *. rewrite for_loop_S.
    rewrite IHn by lia. cbn [bind]. rewrite vget_map by lia. cbn [bind prebits].
    rewrite app_length. do 2 f_equal. destruct (bits_level _ T n) as (B1 & B2).
    fold m in B1, B2. unfold P. destruct (Nat.ltb_spec 0 (length (bits (F T n)))); lia.
  Qed.

  Lemma write_levels_spec : forall n, n <= m ->
    write_levels n (map O (seq 0 h)) (map P (seq 0 h)) (m - 1)
      (bv_make (length (prebits T (m - 1)))) (bv_make (P (m - 1))) =
    Ok (prebits T (min n (m - 1))
          ++ repeat false (length (prebits T (m - 1)) - length (prebits T (min n (m - 1)))),
        if n <? m then bv_make (P (m - 1)) else bits (F T (m - 1)),
        length (prebits T (min n (m - 1)))).
  Proof.
    induction n; intros Hn.
    - replace (0 <? m) with true by (symmetry; apply Nat.ltb_lt; lia).
      cbn [Nat.min prebits length app]. rewrite Nat.sub_0_r. reflexivity.
    - unfold write_levels in *. rewrite for_loop_S. rewrite IHn by lia. cbn [bind].
      rewrite vget_map by lia. cbn [bind].
      replace (n <? m) with true by (symmetry; apply Nat.ltb_lt; lia).
      destruct (Nat.eqb_spec n (m - 1)) as [E|E].
      + assert (S1 := set_ones_spec (bits (F T (m - 1))) [] [] 0 0 eq_refl).
        cbn [app] in S1. rewrite !app_nil_r in S1. unfold bv_make, P, O. rewrite E, S1. cbn [bind].
        rewrite Nat.ltb_irrefl. replace (S (m - 1) <? m) with false by (symmetry; apply Nat.ltb_ge; lia).
        rewrite !Nat.min_r by lia. reflexivity.
      + rewrite (Nat.min_l n) by lia. rewrite (Nat.min_l (S n)) by lia.
        destruct (prebits_split T (m - 1) n ltac:(lia)) as (rest & ER).
        set (B := bits (F T n)) in *.
        assert (EL : length (prebits T (m - 1)) = length (prebits T n) + length B + length rest).
        { rewrite ER, !app_length. lia. }
        replace (length (prebits T (m - 1)) - length (prebits T n)) with (length B + length rest) by lia.
        rewrite repeat_app. unfold O. fold B. rewrite set_ones_spec by lia. cbn [bind].
        replace (n <? m - 1) with true by (symmetry; apply Nat.ltb_lt; lia).
        rewrite vget_map by lia. cbn [bind].
        replace (S n <? m) with true by (symmetry; apply Nat.ltb_lt; lia).
        cbn [prebits]. fold B. rewrite app_length, <- app_assoc. unfold P. fold B.
        repeat f_equal. lia.
  Qed.

  Lemma flat_writeOnes_spec : forall t, f_height t = h ->
    flat_writeOnes t (mk h O P) =
    Ok (mkFlat h m (f_empty_trie t) true (prebits T (m - 1)) (bits (F T (m - 1)))
               (prebits T (m - 1))).
  Proof.
    intros t Eh. unfold flat_writeOnes, mk. rewrite Eh. rewrite count_levels_spec by auto.
    cbn [bind]. rewrite Nat.min_r by auto. rewrite vget_map by lia. cbn [bind].
    replace (length (prebits T h) - P (m - 1)) with (length (prebits T (m - 1))).
    2:{ rewrite (prebits_rest _ T h) by auto. fold m. unfold P.
        replace m with (S (m - 1)) at 2 by lia. cbn [prebits]. rewrite app_length. lia. }
    replace (S (m - 1)) with m by lia.
    rewrite write_levels_spec by auto. cbn [bind].
    rewrite Nat.min_r by lia. rewrite Nat.sub_diag. cbn [repeat]. rewrite app_nil_r.
    rewrite Nat.ltb_irrefl. reflexivity.
  Qed.

  (** Level-wise tries. *)
  Lemma level_sizes_spec : forall n, n <= h ->
    for_loop n 0 (fun level '(bt, last_level) =>
      let* p := vget (map P (seq 0 h)) level in
      if 0 <? p
      then let* bt := vset bt level (bv_make p) in Ok (bt, level)
      else Ok (bt, last_level)) (repeat [] h, 0)
    = Ok (map (fun j => if j <? n then repeat false (P j) else []) (seq 0 h), min n m - 1).
  Proof.
    induction n; intros Hn.
    - cbn [for_loop]. cbn [Nat.min Nat.sub]. rewrite <- (map_const_seq _ [] h 0).
      do 2 f_equal.
    - rewrite for_loop_S, IHn by lia. cbn [bind]. rewrite vget_map by lia. cbn [bind].
      destruct (bits_level _ T n) as (B1 & B2). fold m in B1, B2. fold (P n) in B1, B2.
      destruct (Nat.ltb_spec 0 (P n)).
      + rewrite vset_map by lia. cbn [bind]. do 2 f_equal; [|lia].
        apply map_ext. intros j. unfold upd, bv_make.
        destruct (Nat.eqb_spec j n), (Nat.ltb_spec j n), (Nat.ltb_spec j (S n)); subst; auto; lia.
      + do 2 f_equal; [|lia]. apply map_ext. intros j.
        destruct (Nat.ltb_spec j n), (Nat.ltb_spec j (S n)); auto; try lia.
        replace j with n by lia. replace (P n) with 0 by lia. auto.
  Qed.

  Lemma level_loop_spec : forall n, n <= h ->
    for_loop n 0 (fun level bt =>
      let* os := vget (map O (seq 0 h)) level in
      let* bv := vget bt level in
      let* bv := set_ones bv 0 os in
      vset bt level bv) (map (fun j => repeat false (P j)) (seq 0 h))
    = Ok (map (fun j => if j <? n then bits (F T j) else repeat false (P j)) (seq 0 h)).
  Proof.
    induction n; intros Hn; [reflexivity|].
    rewrite for_loop_S, IHn by lia. cbn [bind]. rewrite !vget_map by lia. cbn [bind].
    rewrite Nat.ltb_irrefl.
    assert (S1 := set_ones_spec (bits (F T n)) [] [] 0 0 eq_refl).
    cbn [app] in S1. rewrite !app_nil_r in S1. unfold P at 1, O. rewrite S1. cbn [bind].
    rewrite vset_map by lia. f_equal. apply map_ext. intros j. unfold upd.
    destruct (Nat.eqb_spec j n), (Nat.ltb_spec j n), (Nat.ltb_spec j (S n)); subst; auto; lia.
  Qed.

  Lemma levels_map : forall A (X : tree A), map (fun j => bits (F X j)) (seq 0 h) = levels h X.
  Proof.
    clear. intros. apply nth_ext with (d := []) (d' := []).
    - unfold levels. rewrite map_length, seq_length, levelsF_length. auto.
    - intros n Hn. rewrite map_length, seq_length in Hn.
      assert (E : nth_error (levels h X) n = Some (bits (F X n))) by (apply levelsF_nth; auto).
      rewrite (nth_error_nth _ _ _ E).
      erewrite nth_indep by (rewrite map_length, seq_length; auto).
      rewrite (map_nth (fun j => bits (F X j)) (seq 0 h) 0). rewrite seq_nth by auto. auto.
  Qed.

  Lemma level_writeOnes_spec : forall t, level_getHeight t = h ->
    level_writeOnes t (mk h O P) =
    Ok (mkLevel (l_il t) m (l_empty_trie t) true (levels h T) (firstn (h - 1) (levels h T))).
  Proof.
    intros t Eh. unfold level_writeOnes, mk. rewrite Eh. unfold level_sizes.
    rewrite level_sizes_spec by auto. cbn [bind]. rewrite Nat.min_r by auto.
    replace (S (m - 1)) with m by lia.
    replace (map (fun j => if j <? h then repeat false (P j) else []) (seq 0 h))
      with (map (fun j => repeat false (P j)) (seq 0 h)).
    2:{ apply map_ext_in. intros j Hj. apply in_seq in Hj. destruct (Nat.ltb_spec j h); auto. lia. }
    assert (EB : forall n, (n = m \/ n = h) ->
      map (fun j => if j <? n then bits (F T j) else repeat false (P j)) (seq 0 h) = levels h T).
    { intros n Hn. rewrite <- levels_map. apply map_ext_in. intros j Hj. apply in_seq in Hj.
      destruct (Nat.ltb_spec j n); auto. unfold P. rewrite (bits_none _ T j) by (fold m; lia). auto. }
    destruct (l_il t); rewrite level_loop_spec by lia; cbn [bind]; rewrite EB by auto; reflexivity.
  Qed.
End Flat.

(** * encodeRuns *)

Lemma ucompress_nodelev : forall t d, wf d t -> 0 < d -> 1 <= nodelev (ucompress t) <= d.
Proof.
  intros t d Hwf Hd. split.
  - unfold ucompress. destruct t; cbn in *; try lia. destruct (_ && _)%bool; cbn; lia.
  - apply nodelev_le. apply compress_wf. auto.
Qed.

Theorem flat_encodeRuns_spec : forall t h T, flat_layout t h T -> plain T ->
  let T' := ucompress T in let m := nodelev T' in
  flat_encodeRuns t =
  Ok (mkFlat h m (f_empty_trie t) true (prebits T' (m - 1)) (bits (F T' (m - 1))) (prebits T' (m - 1))).
Proof.
  intros t h T L Hp T' m. unfold flat_encodeRuns.
  assert (R := flat_reps _ _ _ L). destruct L as (H2 & Hwf & EH & _). rewrite EH.
  rewrite (compress_run_spec h _ _ _ T) by (auto; lia). cbn [bind].
  destruct (ucompress_nodelev T h Hwf ltac:(lia)).
  apply (flat_writeOnes_spec T' h); auto.
Qed.

Theorem level_encodeRuns_spec : forall t h T, level_layout t h T -> plain T ->
  let T' := ucompress T in
  exists t', level_encodeRuns t = Ok t' /\ level_layout t' h T' /\ l_runs_encoded t' = true /\
    l_height_with_runs t' = nodelev T' /\ l_empty_trie t' = l_empty_trie t /\ l_il t' = l_il t.
Proof.
  intros t h T L Hp T'. unfold level_encodeRuns.
  assert (R := level_reps _ _ _ L). assert (EH := level_height _ _ _ L).
  destruct L as (H1 & Hwf & _). rewrite EH.
  rewrite (compress_run_spec h _ _ _ T) by (auto; lia). cbn [bind].
  destruct (ucompress_nodelev T h Hwf ltac:(lia)).
  eexists. split.
  - apply (level_writeOnes_spec T' h); auto.
  - unfold level_layout. cbn. repeat split; auto. apply compress_wf; auto.
Qed.
