(** Proofs that the bits of a trie determine its set. *)

From Verif Require Import Base FlatTrie LevelTrie FastTrie ParallelFor Intersection Tries Serialize Facts ParForThms Tree
  Groups Reps Layout BuildFlat BuildLevel BuildFast WordBits Spec RoundTrip RoundTripFacts Compress
  WriteOnes CompressFast DecodeFast RunsFacts RunsThms SpecTries SpecMeasures SpecFiles SpecDistinct NodeCount
  InterMain InterThms LayoutThms CallsMain SerializeFacts SerializeSound SerializeThms.

(** * The levels of a tree determine it *)

Lemma codes_kids : forall A (X Y : list (tree A)),
  (forall t, In t X -> is_leaf t = false) -> (forall t, In t Y -> is_leaf t = false) ->
  bits X = bits Y -> flat_map kids X = flat_map kids Y -> X = Y.
Proof.
  intros A. induction X as [|x X IH]; intros [|y Y] HX HY B K; auto.
  - exfalso. specialize (HY y (or_introl eq_refl)). destruct y; cbn in *; discriminate.
  - exfalso. specialize (HX x (or_introl eq_refl)). destruct x; cbn in *; discriminate.
  - assert (Hx := HX x (or_introl eq_refl)). assert (Hy := HY y (or_introl eq_refl)).
    assert (HX' : forall t, In t X -> is_leaf t = false) by (intros; apply HX; right; auto).
    assert (HY' : forall t, In t Y -> is_leaf t = false) by (intros; apply HY; right; auto).
    specialize (IH Y HX' HY').
    destruct x, y; try discriminate; cbn in B, K;
      try (injection B as B); try (injection K as K); try discriminate; subst; f_equal; auto;
      injection K; intros; subst; f_equal; auto.
Qed.

Lemma forest_determined : forall A n (X Y : list (tree A)), Forall (wf n) X -> Forall (wf n) Y -> length X = length Y ->
  concat (levelsF n X) = concat (levelsF n Y) ->
  (length (fiter n X) = length (fiter n Y) -> fiter n X = fiter n Y) -> X = Y.
Proof.
  intros A. induction n as [|n IH]; intros X Y WX WY L E H; [auto|].
  assert (NX : forall t, In t X -> is_leaf t = false).
  { intros t Ht. rewrite Forall_forall in WX. apply (wf_not_leaf (S n)); auto. lia. }
  assert (NY : forall t, In t Y -> is_leaf t = false).
  { intros t Ht. rewrite Forall_forall in WY. apply (wf_not_leaf (S n)); auto. lia. }
  cbn [levelsF concat] in E.
  assert (B : bits X = bits Y /\ concat (levelsF n (flat_map kids X)) = concat (levelsF n (flat_map kids Y))).
  { assert (LB : length (bits X) = length (bits Y)) by (rewrite !bits_length; auto).
    split.
    - apply (f_equal (firstn (length (bits X)))) in E. rewrite LB in E at 2.
      rewrite !firstn_app, !Nat.sub_diag, !firstn_all, !firstn_O, !app_nil_r in E. exact E.
    - apply (f_equal (skipn (length (bits X)))) in E. rewrite LB in E at 2.
      rewrite !skipn_app, !Nat.sub_diag, !skipn_all, !skipn_O in E. exact E. }
  destruct B as (B & E').
  assert (WK : forall Z : list (tree A), Forall (wf (S n)) Z -> Forall (wf n) (flat_map kids Z)).
  { intros Z W. assert (G := fiter_wf 1 (S n) Z ltac:(lia) W). cbn [fiter] in G.
    rewrite Nat.sub_succ, Nat.sub_0_r in G. exact G. }
  apply codes_kids; auto. apply IH; auto.
  - rewrite <- !count_bits, B. reflexivity.
  - rewrite !fiter_kids. exact H.
Qed.

Lemma unit_forest : forall (X Y : list (tree unit)), Forall (wf 0) X -> Forall (wf 0) Y -> length X = length Y -> X = Y.
Proof.
  induction X as [|x X IH]; intros [|y Y] WX WY L; try discriminate; auto.
  inversion WX as [|? ? W1 WX']; inversion WY as [|? ? W2 WY']; subst.
  destruct (wf_leaf _ W1) as ([] & ->), (wf_leaf _ W2) as ([] & ->). f_equal. apply IH; auto.
Qed.

Lemma concat_levels : forall A (T : tree A) h, prebits T h = concat (levels h T).
Proof.
  intros A T h. rewrite (prebits_levels T h h) by lia. rewrite firstn_all2; auto.
  unfold levels. rewrite levelsF_length. lia.
Qed.

Lemma unit_determined : forall h (T T' : tree unit), wf h T -> wf h T' -> prebits T h = prebits T' h -> T = T'.
Proof.
  intros h T T' W W' E. rewrite !concat_levels in E.
  assert (G : [T] = [T']); [|congruence].
  assert (W1 : Forall (wf h) [T]) by (constructor; auto). assert (W2 : Forall (wf h) [T']) by (constructor; auto).
  apply (forest_determined _ h); auto. intros L. apply unit_forest; auto.
  - assert (X := fiter_wf h h [T] ltac:(lia) W1). rewrite Nat.sub_diag in X. exact X.
  - assert (X := fiter_wf h h [T'] ltac:(lia) W2). rewrite Nat.sub_diag in X. exact X.
Qed.

Lemma words_determined : forall d (T T' : tree N), wf d T -> wf d T' -> prebits T d = prebits T' d ->
  F T d = F T' d -> T = T'.
Proof.
  intros d T T' W W' E EF. rewrite !concat_levels in E.
  assert (G : [T] = [T']); [|congruence].
  apply (forest_determined _ d); auto.
Qed.

(** * Tries of bits *)

Lemma bin_make_bits : forall u h v enc s, height_of u = Ok h -> (2 <= u <= 2 ^ 48)%N ->
  1 <= h <= 48 -> (u <= pow2 h)%N -> ((3 <= u)%N -> 2 <= h) -> stored_ok u v false s ->
  exists t, bin_make u v enc s = Ok t /\
  stored_bits t = (h, prebits (bin_tree h enc s) h) /\ wf h (bin_tree h enc s) /\
  sel umem h (bin_tree h enc s) 0 = s /\ fits t.
Proof.
  intros u h v enc s Hh Hu H1 Hp H2 ((Hs & Hb & Hv) & Hne & _).
  assert (E := sel_is_set u h s Hp Hne Hs Hb). unfold bin_tree. set (T := tree_of unit_leaf 0 h s) in *.
  assert (Hpl : plain T) by apply tree_of_plain.
  unfold bin_make, bin_build. destruct v as [il|il].
  - destruct Hv as (H3 & _ & Hl). specialize (H2 H3).
    destruct (flat_build_layout s u h Hh) as (t0 & E0 & L & _); auto; try lia. fold T in L.
    rewrite E0. cbn [bind]. assert (W : wf h T) by apply L. destruct enc.
    + cbn [bin_encodeRuns]. rewrite (flat_encodeRuns_spec t0 h T L Hpl). cbn [bind].
      eexists. split; [reflexivity|]. cbn [stored_bits f_height f_bTrie f_lastLevel].
      destruct (ucompress_nodelev T h W ltac:(lia)) as (N1 & N2).
      split; [|split; [apply compress_wf; auto|split; [rewrite ucompress_sel; auto|]]].
      * f_equal. rewrite (prebits_rest _ (ucompress T) h) by exact N2.
        replace (nodelev (ucompress T)) with (S (nodelev (ucompress T) - 1)) at 3 by lia. reflexivity.
      * cbn. split; [apply prebits_fits|apply bits_fits]; lia.
    + eexists. split; [reflexivity|]. cbn [stored_bits]. destruct L as (_ & _ & EH & EB & EL & _).
      split; [|split; [auto|split; [auto|]]].
      * rewrite EH, EB, EL. f_equal. replace h with (S (h - 1)) at 3 by lia. reflexivity.
      * cbn [fits]. rewrite EB, EL. split; [apply prebits_fits|apply bits_fits]; lia.
  - destruct (level_build_layout il s u h Hh) as (t0 & E0 & L & _); auto; try lia.
    { apply below_short with (u := u); auto. lia. }
    fold T in L. rewrite E0. cbn [bind]. assert (W : wf h T) by apply L. destruct enc.
    + destruct (level_encodeRuns_spec _ _ _ L Hpl) as (t' & Ht' & L' & _).
      cbn [bin_encodeRuns]. rewrite Ht'. cbn [bind]. eexists. split; [reflexivity|].
      cbn [stored_bits]. destruct L' as (_ & W' & EL & ER).
      split; [|split; [auto|split; [rewrite ucompress_sel; auto|]]].
      * rewrite EL, concat_levels. unfold levels. rewrite levelsF_length. reflexivity.
      * cbn [fits]. rewrite EL. apply levels_fits. lia.
    + eexists. split; [reflexivity|]. cbn [stored_bits]. destruct L as (_ & _ & EL & ER).
      split; [|split; [auto|split; [auto|]]].
      * rewrite EL, concat_levels. unfold levels. rewrite levelsF_length. reflexivity.
      * cbn [fits]. rewrite EL. apply levels_fits. lia.
Qed.

Lemma bin_bits : forall u v enc s, (2 <= u <= 2 ^ 48)%N -> stored_ok u v false s ->
  exists t, bin_make u v enc s = Ok t /\
  stored_bits t = (digits u, prebits (bin_tree (digits u) enc s) (digits u)) /\
  wf (digits u) (bin_tree (digits u) enc s) /\
  sel umem (digits u) (bin_tree (digits u) enc s) 0 = s /\ fits t.
Proof.
  intros u v enc s Hu Hx. destruct (height_of_spec u Hu) as (h & Hh & H1 & Hp & H2 & _).
  assert (Eh := height_digits u h ltac:(lia) Hh). rewrite <- Eh. apply bin_make_bits with (u := u); auto.
Qed.

Theorem bits_decide : forall u v enc s u' v' enc' s',
  (2 <= u <= 2 ^ 48)%N -> stored_ok u v false s -> (2 <= u' <= 2 ^ 48)%N -> stored_ok u' v' false s' ->
  exists t t', bin_make u v enc s = Ok t /\ bin_make u' v' enc' s' = Ok t' /\
    (stored_bits t = stored_bits t' -> s = s') /\
    (s = s' -> digits u = digits u' -> enc = enc' -> stored_bits t = stored_bits t').
Proof.
  intros u v enc s u' v' enc' s' Hu Hx Hu' Hx'.
  destruct (bin_bits u v enc s Hu Hx) as (t & Ht & B & W & S & _).
  destruct (bin_bits u' v' enc' s' Hu' Hx') as (t' & Ht' & B' & W' & S' & _).
  exists t, t'. split; auto. split; auto. split.
  - intros E. rewrite B, B' in E. injection E as E1 E2. rewrite <- E1 in *.
    apply unit_determined in E2; auto. rewrite E2 in S. congruence.
  - intros -> E ->. rewrite B, B', E. reflexivity.
Qed.

Lemma made_bits : forall u v enc s t, (2 <= u <= 2 ^ 48)%N -> stored_ok u v false s -> bin_make u v enc s = Ok t -> fits t.
Proof.
  intros u v enc s t Hu Hx Ht. destruct (bin_bits u v enc s Hu Hx) as (t1 & Ht1 & _ & _ & _ & Ff).
  rewrite Ht in Ht1. injection Ht1 as <-. exact Ff.
Qed.

(** * Fast tries *)

Lemma fast_bits : forall u lw jh je enc s, fast_universe u lw -> fast_ok u s ->
  exists t T, fast_make u lw jh je enc s = Ok t /\ fast_layout t (S (digits u - lw)) T /\
    T = fast_tree lw (digits u - lw) enc s /\ sel (wmem lw) (digits u) T 0 = s /\ lw <= digits u.
Proof.
  intros u lw jh je enc s (Hlw & Hu) (Hne & Hs & Hb & Hl).
  assert (H8 : (2 ^ N.of_nat 3 <= 2 ^ N.of_nat lw)%N).
  { apply N.pow_le_mono_r; [lia|]. cbn in Hlw. lia. }
  change (2 ^ N.of_nat 3)%N with 8%N in H8.
  destruct (height_of_spec u ltac:(lia)) as (hu & Hh & H1 & Hp & H2 & Hk).
  assert (Hlh : lw <= hu).
  { destruct lw as [|lw]; [lia|]. change (2 ^ N.of_nat (S lw))%N with (pow2 (S lw)) in Hu.
    rewrite pow2_S in Hu. assert (lw < hu) by (apply Hk; lia). lia. }
  assert (H6 : lw <= 6) by (cbn in Hlw; lia).
  assert (Eh := height_digits u hu ltac:(lia) Hh). rewrite <- Eh.
  destruct (fast_build_layout lw jh je s u hu Hh) as (t & Ht & L & E1 & E2 & _); auto; try lia.
  unfold fast_tree. set (T := tree_of (word_of lw) lw (hu - lw) s) in *.
  assert (E : sel (wmem lw) hu T 0 = s).
  { assert (D := distinct_fast_set lw (hu - lw) s Hne (increasing_nondecreasing _ Hs)).
    unfold distinct_fast in D. fold T in D. replace (hu - lw + lw) with hu in D by lia.
    apply (is_set_of_unique s); [|apply is_set_of_self; auto]. apply D.
    eapply below_within; eauto. }
  assert (Hpl : plain T) by apply tree_of_plain.
  unfold fast_make. rewrite Ht. cbn [bind]. destruct enc.
  - assert (Hx : x_height t = S (hu - lw)) by apply L.
    destruct (fast_encodeRuns_spec t T ltac:(rewrite Hx; exact L) Hpl) as (t' & Ht' & L' & _).
    rewrite Hx, E1 in L'. exists t', (xcompress lw T). rewrite xcompress_sel. auto 10.
  - exists t, T. auto 10.
Qed.

Lemma leaf_words : forall a b : list N, map (@Leaf N) a = map (@Leaf N) b -> a = b.
Proof.
  induction a as [|x a IH]; intros [|y b] E; try discriminate; auto. cbn in E. injection E as -> E. f_equal. auto.
Qed.

Theorem fast_bits_decide : forall lw u jh je enc s u' jh' je' enc' s',
  fast_universe u lw -> fast_ok u s -> fast_universe u' lw -> fast_ok u' s' ->
  exists t t', fast_make u lw jh je enc s = Ok t /\ fast_make u' lw jh' je' enc' s' = Ok t' /\
    (fast_stored_bits t = fast_stored_bits t' -> s = s') /\
    (s = s' -> digits u = digits u' -> enc = enc' -> fast_stored_bits t = fast_stored_bits t').
Proof.
  intros lw u jh je enc s u' jh' je' enc' s' Hu Hx Hu' Hx'.
  destruct (fast_bits u lw jh je enc s Hu Hx) as (t & T & Ht & L & ET & S & Hl).
  destruct (fast_bits u' lw jh' je' enc' s' Hu' Hx') as (t' & T' & Ht' & L' & ET' & S' & Hl').
  exists t, t'. split; auto. split; auto.
  destruct L as (_ & W & EH & EB & EF & _), L' as (_ & W' & EH' & EB' & EF' & _).
  rewrite Nat.sub_succ, Nat.sub_0_r in *. unfold fast_stored_bits. split.
  - intros E. injection E as E1 E2 E3. rewrite EH, EH' in E1. injection E1 as E1.
    assert (Ed : digits u = digits u') by lia.
    rewrite <- E1 in *. rewrite EB, EB' in E2. rewrite E3 in EF. rewrite <- EF' in EF.
    assert (X := words_determined _ T T' W W' E2 EF). rewrite X, Ed in S. congruence.
  - intros Es Ed Ee. rewrite ET in *. rewrite ET' in *. rewrite Es, Ed, Ee in *. rewrite EF' in EF.
    apply leaf_words in EF. rewrite EH, EH', EB, EB', EF. reflexivity.
Qed.

Theorem fast_files_prefix : forall c lw u jh je enc s j1 j2 u' jh' je' enc' s' j1' j2', codecs_ok c ->
  fast_universe u lw -> fast_ok u s -> u16_member jh -> (j1 < 2 ^ 16)%N -> (j2 < 256)%N ->
  fast_universe u' lw -> fast_ok u' s' -> u16_member jh' -> (j1' < 2 ^ 16)%N -> (j2' < 256)%N ->
  exists t t', fast_make u lw jh je enc s = Ok t /\ fast_make u' lw jh' je' enc' s' = Ok t' /\
    (s <> s' -> ~ exists e, fst (fast_serialize c j1' j2' t') = fst (fast_serialize c j1 j2 t) ++ e).
Proof.
  intros c lw u jh je enc s j1 j2 u' jh' je' enc' s' j1' j2' Hc Hu Hx Hj H1 H2 Hu' Hx' Hj' H1' H2'.
  destruct (fast_made u lw jh je enc s Hu Hx Hj) as (t & Ht & Hf & _).
  destruct (fast_made u' lw jh' je' enc' s' Hu' Hx' Hj') as (t' & Ht' & Hf' & _).
  exists t, t'. split; auto. split; auto. intros Hne (e & Ee). apply Hne.
  set (old := fast_default lw 0 0 None false None).
  destruct (fast_serialization_round_trip c u lw jh je enc s t old j1 j2 e Hc (proj1 Hu) Hj Ht Hf eq_refl eq_refl H1 H2)
    as (a & La & Ra & _).
  destruct (fast_serialization_round_trip c u' lw jh' je' enc' s' t' old j1' j2' [] Hc (proj1 Hu') Hj' Ht' Hf' eq_refl eq_refl H1' H2')
    as (b & Lb & Rb & _).
  rewrite app_nil_r, Ee in Lb. rewrite La in Lb. injection Lb as <- _.
  destruct (fast_bits_decide lw u jh je enc s u' jh' je' enc' s' Hu Hx Hu' Hx') as (t1 & t2 & M1 & M2 & D & _).
  rewrite Ht in M1. rewrite Ht' in M2. injection M1 as <-. injection M2 as <-. apply D.
  unfold fast_stored_bits.
  destruct Ra as (_ & A1 & _ & _ & A2 & A3 & _), Rb as (_ & B1 & _ & _ & B2 & B3 & _). congruence.
Qed.
