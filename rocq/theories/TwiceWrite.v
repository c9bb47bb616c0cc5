(** What writeOnes makes of any recorded levels; the trie that a second encodeRuns builds. *)

From Verif Require Import Base FlatTrie LevelTrie FastTrie Facts Tree Groups Reps Layout
  BuildFlat BuildLevel BuildFast Compress WriteOnes CompressFast TwiceRuns.

Fixpoint pre (B : nat -> list bool) (n : nat) : list bool :=
  match n with O => [] | S n => pre B n ++ B n end.

Lemma pre_split : forall B n i, i < n -> exists rest, pre B n = pre B i ++ B i ++ rest.
Proof.
  induction n; intros; [lia|]. destruct (Nat.eq_dec i n).
  - subst. exists []. cbn. rewrite app_nil_r. auto.
  - destruct (IHn i ltac:(lia)) as (rest & E). exists (rest ++ B n). cbn [pre]. rewrite E, <- !app_assoc. auto.
Qed.

Section Levels.
  Variable B : nat -> list bool.
  Variables m h : nat.
  Hypothesis HB : forall j, length (B j) = 0 <-> m <= j.
  Hypothesis Hmh : m <= h.
  Let O (j : nat) := tpos 0 (B j).
  Let P (j : nat) := length (B j).

  Lemma B_none : forall j, m <= j -> B j = [].
  Proof. intros. apply length_zero_iff_nil. apply HB; auto. Qed.

  Lemma pre_rest : forall j, m <= j -> pre B j = pre B m.
  Proof. intros j H. induction H; auto. cbn [pre]. rewrite B_none by auto. rewrite app_nil_r. auto. Qed.

  Lemma count_levels_any : forall n, n <= h ->
    count_levels n (map P (seq 0 h)) = Ok (length (pre B n), min n m - 1).
  Proof.
    induction n; intros Hn; auto. unfold count_levels in *. rewrite for_loop_S.
    rewrite IHn by lia. cbn [bind]. rewrite vget_map by lia. cbn [bind pre].
    rewrite app_length. do 2 f_equal. destruct (HB n) as (B1 & B2).
    unfold P. destruct (Nat.ltb_spec 0 (length (B n))); lia.
  Qed.

  Lemma write_levels_any : 1 <= m -> forall n, n <= m ->
    write_levels n (map O (seq 0 h)) (map P (seq 0 h)) (m - 1)
      (bv_make (length (pre B (m - 1)))) (bv_make (P (m - 1))) =
    Ok (pre B (min n (m - 1))
          ++ repeat false (length (pre B (m - 1)) - length (pre B (min n (m - 1)))),
        if n <? m then bv_make (P (m - 1)) else B (m - 1),
        length (pre B (min n (m - 1)))).
  Proof.
    intros Hm1. induction n; intros Hn.
    - replace (0 <? m) with true by (symmetry; apply Nat.ltb_lt; lia).
      cbn [Nat.min pre length app]. rewrite Nat.sub_0_r. reflexivity.
    - unfold write_levels in *. rewrite for_loop_S. rewrite IHn by lia. cbn [bind].
      rewrite vget_map by lia. cbn [bind].
      replace (n <? m) with true by (symmetry; apply Nat.ltb_lt; lia).
      destruct (Nat.eqb_spec n (m - 1)) as [E|E].
      + assert (S1 := set_ones_spec (B (m - 1)) [] [] 0 0 eq_refl).
        cbn [app] in S1. rewrite !app_nil_r in S1. unfold bv_make, P, O. rewrite E, S1. cbn [bind].
        rewrite Nat.ltb_irrefl. replace (S (m - 1) <? m) with false by (symmetry; apply Nat.ltb_ge; lia).
        rewrite !Nat.min_r by lia. reflexivity.
      + rewrite (Nat.min_l n) by lia. rewrite (Nat.min_l (S n)) by lia.
        destruct (pre_split B (m - 1) n ltac:(lia)) as (rest & ER).
        assert (EL : length (pre B (m - 1)) = length (pre B n) + length (B n) + length rest).
        { rewrite ER, !app_length. lia. }
        replace (length (pre B (m - 1)) - length (pre B n)) with (length (B n) + length rest) by lia.
        rewrite repeat_app. unfold O. rewrite set_ones_spec by lia. cbn [bind].
        replace (n <? m - 1) with true by (symmetry; apply Nat.ltb_lt; lia).
        rewrite vget_map by lia. cbn [bind].
        replace (S n <? m) with true by (symmetry; apply Nat.ltb_lt; lia).
        cbn [pre]. rewrite app_length, <- app_assoc. unfold P.
        repeat f_equal. lia.
  Qed.

  Lemma flat_writeOnes_any : 1 <= m -> forall t, f_height t = h ->
    flat_writeOnes t (mk h O P) =
    Ok (mkFlat h m (f_empty_trie t) true (pre B (m - 1)) (B (m - 1)) (pre B (m - 1))).
  Proof.
    intros Hm1 t Eh. unfold flat_writeOnes, mk. rewrite Eh. rewrite count_levels_any by auto.
    cbn [bind]. rewrite Nat.min_r by auto. rewrite vget_map by lia. cbn [bind].
    replace (length (pre B h) - P (m - 1)) with (length (pre B (m - 1))).
    2:{ rewrite (pre_rest h) by auto. unfold P.
        replace m with (S (m - 1)) at 2 by lia. cbn [pre]. rewrite app_length. lia. }
    replace (S (m - 1)) with m by lia.
    rewrite write_levels_any by auto. cbn [bind].
    rewrite Nat.min_r by lia. rewrite Nat.sub_diag. cbn [repeat]. rewrite app_nil_r.
    rewrite Nat.ltb_irrefl. reflexivity.
  Qed.

  Lemma level_sizes_any : forall n, n <= h ->
    for_loop n 0 (fun level '(bt, last_level) =>
      let* p := vget (map P (seq 0 h)) level in
      if 0 <? p
      then let* bt := vset bt level (bv_make p) in Ok (bt, level)
      else Ok (bt, last_level)) (repeat [] h, 0)
    = Ok (map (fun j => if j <? n then repeat false (P j) else []) (seq 0 h), min n m - 1).
  Proof.
    induction n; intros Hn.
    - cbn [for_loop]. cbn [Nat.min Nat.sub]. rewrite <- (map_const_seq _ [] h 0).
      do 2 f_equal.
    - rewrite for_loop_S, IHn by lia. cbn [bind]. rewrite vget_map by lia. cbn [bind].
      destruct (HB n) as (B1 & B2). fold (P n) in B1, B2.
      destruct (Nat.ltb_spec 0 (P n)).
      + rewrite vset_map by lia. cbn [bind]. do 2 f_equal; [|lia].
        apply map_ext. intros j. unfold upd, bv_make.
        destruct (Nat.eqb_spec j n), (Nat.ltb_spec j n), (Nat.ltb_spec j (S n)); subst; auto; lia.
      + do 2 f_equal; [|lia]. apply map_ext. intros j.
        destruct (Nat.ltb_spec j n), (Nat.ltb_spec j (S n)); auto; try lia.
        replace j with n by lia. replace (P n) with 0 by lia. auto.
  Qed.

  Lemma level_loop_any : forall n, n <= h ->
    for_loop n 0 (fun level bt =>
      let* os := vget (map O (seq 0 h)) level in
      let* bv := vget bt level in
      let* bv := set_ones bv 0 os in
      vset bt level bv) (map (fun j => repeat false (P j)) (seq 0 h))
    = Ok (map (fun j => if j <? n then B j else repeat false (P j)) (seq 0 h)).
  Proof.
    induction n; intros Hn; [reflexivity|].
    rewrite for_loop_S, IHn by lia. cbn [bind]. rewrite !vget_map by lia. cbn [bind].
    rewrite Nat.ltb_irrefl.
    assert (S1 := set_ones_spec (B n) [] [] 0 0 eq_refl).
    cbn [app] in S1. rewrite !app_nil_r in S1. unfold P at 1, O. rewrite S1. cbn [bind].
    rewrite vset_map by lia. f_equal. apply map_ext. intros j. unfold upd.
    destruct (Nat.eqb_spec j n), (Nat.ltb_spec j n), (Nat.ltb_spec j (S n)); subst; auto; lia.
  Qed.

  (** The height with runs is 1 even when no level holds a bit. *)
  Lemma level_writeOnes_any : 1 <= h -> forall t, level_getHeight t = h ->
    level_writeOnes t (mk h O P) =
    Ok (mkLevel (l_il t) (S (m - 1)) (l_empty_trie t) true (map B (seq 0 h)) (firstn (h - 1) (map B (seq 0 h)))).
  Proof.
    intros Hh t Eh. unfold level_writeOnes, mk. rewrite Eh. unfold level_sizes.
    rewrite level_sizes_any by auto. cbn [bind]. rewrite Nat.min_r by auto.
    replace (map (fun j => if j <? h then repeat false (P j) else []) (seq 0 h))
      with (map (fun j => repeat false (P j)) (seq 0 h)).
    2:{ apply map_ext_in. intros j Hj. apply in_seq in Hj. destruct (Nat.ltb_spec j h); auto. lia. }
    assert (EB : forall n, (m <= n \/ n = h) ->
      map (fun j => if j <? n then B j else repeat false (P j)) (seq 0 h) = map B (seq 0 h)).
    { intros n Hn. apply map_ext_in. intros j Hj. apply in_seq in Hj.
      destruct (Nat.ltb_spec j n); auto. unfold P. rewrite (B_none j) by lia. auto. }
    destruct (l_il t); rewrite level_loop_any by lia; cbn [bind]; rewrite EB by (auto; lia); reflexivity.
  Qed.
End Levels.

(** * Which levels keep bits *)

Fixpoint nlev {A} (t : tree A) : nat :=
  match t with
  | Leaf _ => 0
  | Full => 0
  | TL l => S (nlev l)
  | TR r => S (nlev r)
  | TB l r => S (max (nlev l) (nlev r))
  end.

Lemma nbits_level : forall A (t : tree A) j, length (nbits (F t j)) = 0 <-> nlev t <= j.
Proof.
  intros A t j. unfold F. revert j.
  induction t as [a| |l IH|r IH|l IHl r IHr]; intros j.
  - cbn [nlev]. split; [lia|]. intros _. destruct j; auto. rewrite fiter_S. cbn [kids].
    rewrite fiter_nil. auto.
  - cbn [nlev]. split; [lia|]. intros _. destruct j; auto. rewrite fiter_S. cbn [kids].
    rewrite fiter_nil. auto.
  - cbn [nlev]. destruct j; [cbn; lia|]. rewrite fiter_S. cbn [kids]. rewrite IH. lia.
  - cbn [nlev]. destruct j; [cbn; lia|]. rewrite fiter_S. cbn [kids]. rewrite IH. lia.
  - cbn [nlev]. destruct j; [cbn; lia|]. rewrite fiter_S. cbn [kids].
    change [l; r] with ([l] ++ [r]). rewrite fiter_app, nbits_app, app_length.
    specialize (IHl j). specialize (IHr j). lia.
Qed.

Lemma nlev_le : forall A (t : tree A) d, wf d t -> nlev t <= d.
Proof.
  induction t; cbn; intros d H; try lia.
  - destruct H as (? & H). apply IHt in H. lia.
  - destruct H as (? & H). apply IHt in H. lia.
  - destruct H as (? & H & H'). apply IHt1 in H. apply IHt2 in H'. lia.
Qed.

(** * The second encodeRuns *)

Theorem flat_again : forall t h T, flat_layout t h T -> settled ufull true T -> deep true h T -> 1 <= nlev T ->
  let B := fun j => nbits (F T j) in let m := nlev T in
  flat_encodeRuns t = Ok (mkFlat h m (f_empty_trie t) true (pre B (m - 1)) (B (m - 1)) (pre B (m - 1))).
Proof.
  intros t h T L Hs Hd Hn B m. unfold flat_encodeRuns.
  assert (R := flat_reps _ _ _ L). destruct L as (H2 & Hwf & EH & _). rewrite EH.
  rewrite (compress_run_again h _ _ _ T) by (auto; lia). cbn [bind].
  apply (flat_writeOnes_any B m h); auto.
  - intros j. apply nbits_level.
  - apply nlev_le; auto.
Qed.

Theorem level_again : forall t h T, level_layout t h T -> settled ufull true T -> deep true h T ->
  let B := fun j => nbits (F T j) in
  level_encodeRuns t =
    Ok (mkLevel (l_il t) (S (nlev T - 1)) (l_empty_trie t) true (map B (seq 0 h)) (firstn (h - 1) (map B (seq 0 h)))).
Proof.
  intros t h T L Hs Hd B. unfold level_encodeRuns.
  assert (R := level_reps _ _ _ L). assert (EH := level_height _ _ _ L).
  destruct L as (H1 & Hwf & _). rewrite EH.
  rewrite (compress_run_again h _ _ _ T) by (auto; lia). cbn [bind].
  apply (level_writeOnes_any B (nlev T) h); auto.
  - intros j. apply nbits_level.
  - apply nlev_le; auto.
Qed.

Section Fast.
  Variable t : fast.
  Let h := x_height t.
  Variables O : nat -> list nat.
  Variables P : nat -> nat.
  Variable T : tree N.
  Let B := fun j => nbits (F T j).
  Hypothesis HA : naft (h - 1) (fun _ => []) (fun _ => 0) T 0 O P.

  Lemma naft_B : forall j, j < h - 1 -> O j = tpos 0 (B j) /\ P j = length (B j).
  Proof.
    intros j Hj. destruct (HA j Hj) as (-> & ->). unfold nb, B, F. cbn [Nat.leb app Nat.add].
    rewrite Nat.sub_0_r. auto.
  Qed.

  Lemma fast_ones_any : forall n N0,
    n <= h - 1 -> length (pre B n) <= N0 ->
    for_loop n 0 (fun level '(bt, glp) =>
      let* os := vget (map O (seq 0 h)) level in
      let* bt := set_ones bt glp os in
      let* p := vget (map P (seq 0 h)) level in
      Ok (bt, glp + p)) (bv_make N0, 0)
    = Ok (pre B n ++ repeat false (N0 - length (pre B n)), length (pre B n)).
  Proof.
    induction n; intros N0 Hn HN.
    - cbn. rewrite Nat.sub_0_r. auto.
    - cbn [pre] in HN. rewrite app_length in HN. rewrite for_loop_S, IHn by lia. cbn [bind].
      destruct (naft_B n ltac:(lia)) as (EO & EP).
      rewrite !vget_map by lia. cbn [bind]. rewrite EO, EP.
      replace (N0 - length (pre B n)) with (length (B n) + (N0 - length (pre B n) - length (B n))) by lia.
      rewrite repeat_app, set_ones_spec by lia. cbn [bind pre].
      rewrite app_length, <- app_assoc. repeat (f_equal; try lia).
  Qed.

  Lemma fast_count_any : forall n, n <= h - 1 ->
    exists k, count_levels n (map P (seq 0 h)) = Ok (length (pre B n), k).
  Proof.
    induction n; intros Hn.
    - exists 0. reflexivity.
    - destruct (IHn ltac:(lia)) as (k & E). unfold count_levels in *. rewrite for_loop_S, E. cbn [bind].
      rewrite vget_map by lia. cbn [bind pre].
      destruct (naft_B n ltac:(lia)) as (_ & EP). rewrite EP, app_length. eexists. reflexivity.
  Qed.
End Fast.

Theorem fast_again : forall t h T, fast_layout t h T -> x_height t = h -> settled (xfull (x_lw t)) false T ->
  let B := fun j => nbits (F T j) in
  exists k, fast_encodeRuns t =
    Ok (mkFast (x_lw t) h k (x_height_u t) true (x_empty_trie t) (pre B (h - 1)) (leaves T) (pre B (h - 1))).
Proof.
  intros t h T L Eh Hs B. assert (Hr := fast_reps _ _ _ L). destruct L as (H1 & Hwf & _).
  unfold fast_encodeRuns. subst h.
  replace (repeat [] (x_height t), repeat 0 (x_height t)) with (mk (x_height t) (fun _ => []) (fun _ => 0)).
  2:{ unfold mk. rewrite !map_const_seq. reflexivity. }
  destruct (fast_wc_again t T (x_height t - 1) 0 0 (fun _ => []) (fun _ => 0) [] (S (x_height t)))
    as (O' & P' & -> & HA); auto; try lia.
  cbn [bind]. unfold fast_writeOnes, mk.
  destruct (fast_count_any t O' P' T HA (x_height t - 1) ltac:(lia)) as (k & ->). cbn [bind].
  rewrite (fast_ones_any t O' P' T HA (x_height t - 1)) by lia. cbn [bind].
  rewrite Nat.sub_diag. cbn [repeat]. rewrite app_nil_r. eexists. reflexivity.
Qed.
