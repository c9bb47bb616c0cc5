(** The bits stored by a trie, and the constructor from recorded positions. *)

From Verif Require Import Base Facts Tree Groups Reps Layout BuildFlat BuildLevel FlatTrie LevelTrie Spec RoundTrip
  RoundTripFacts Compress WriteOnes RunsFacts RunsThms SpecMeasures NodeCount SpecLayout LayoutBits.

(** * What is stored *)

Lemma below_pow2 : forall u h s, below u s -> (u <= pow2 h)%N -> forall x, In x s -> (x < pow2 h)%N.
Proof.
  intros u h s Hb Hp x Hx. unfold below in Hb. rewrite Forall_forall in Hb. specialize (Hb x Hx). lia.
Qed.

Lemma set_levels_length : forall h s, length (set_levels h s) = h.
Proof. intros. unfold set_levels. rewrite map_length, seq_length. auto. Qed.
Lemma run_levels_length : forall h s, length (run_levels h s) = h.
Proof. intros. unfold run_levels. rewrite map_length, seq_length. auto. Qed.

Lemma removelast_firstn_pred : forall A (l : list A), removelast l = firstn (length l - 1) l.
Proof.
  intros A l. rewrite removelast_firstn_len. f_equal. lia.
Qed.

Lemma last_nth : forall A (l : list A) d, last l d = nth (length l - 1) l d.
Proof.
  intros A l d. destruct l as [|x l]; auto. revert x. induction l as [|y l IH]; intros x; auto.
  change (last (x :: y :: l) d) with (last (y :: l) d). rewrite IH. cbn [length]. rewrite !Nat.sub_succ, !Nat.sub_0_r.
  auto.
Qed.

Lemma levels_nth : forall A (t : tree A) h j, j < h -> nth j (levels h t) [] = bits (F t j).
Proof. intros. apply nth_error_nth. apply levelsF_nth; auto. Qed.

Theorem flat_stored : forall u s,
  (3 <= u <= 2 ^ 48)%N -> s <> [] -> increasing s -> below u s -> shorter 32 s ->
  exists t, flat_build s u = Ok t /\ f_height t = digits u /\
    f_bTrie t = concat (removelast (set_levels (digits u) s)) /\
    f_lastLevel t = last (set_levels (digits u) s) [].
Proof.
  intros u s Hu Hne Hs Hb Hl.
  destruct (flat_built_digits u s Hu Hne Hs Hb Hl) as (t & Ht & H2 & Hp & L & Hpl & E).
  set (h := digits u) in *. set (T0 := tree_of unit_leaf 0 h s) in *.
  exists t. split; [auto|]. destruct L as (_ & W & Hh & Eb & El & _). split; [auto|].
  rewrite <- (levels_set h s T0) by (eauto using below_pow2).
  assert (EL : length (levels h T0) = h) by apply levelsF_length.
  rewrite removelast_firstn_pred, last_nth, EL.
  rewrite Eb, El. split.
  - apply prebits_levels. lia.
  - symmetry. apply levels_nth. lia.
Qed.

Lemma levels_last : forall (t : tree unit) h, 1 <= nodelev t -> nodelev t <= h ->
  last_level (levels h t) (nodelev t - 1).
Proof.
  intros t h H1 H2. unfold last_level. unfold levels at 1. rewrite levelsF_length. split; [lia|]. split.
  - rewrite levels_nth by lia. intros E. assert (E' := bits_level _ t (nodelev t - 1)).
    rewrite E in E'. cbn [length] in E'. lia.
  - intros l Hl. destruct (Nat.lt_ge_cases l h).
    + rewrite levels_nth by auto. apply bits_none. lia.
    + apply nth_overflow. unfold levels. rewrite levelsF_length. auto.
Qed.

Theorem flat_stored_runs : forall u s,
  (3 <= u <= 2 ^ 48)%N -> s <> [] -> increasing s -> below u s -> shorter 32 s ->
  exists t t' m, flat_build s u = Ok t /\ flat_encodeRuns t = Ok t' /\ f_height t' = digits u /\
    last_level (run_levels (digits u) s) m /\ f_height_with_runs t' = S m /\
    f_bTrie t' = concat (firstn m (run_levels (digits u) s)) /\
    f_lastLevel t' = nth m (run_levels (digits u) s) [].
Proof.
  intros u s Hu Hne Hs Hb Hl.
  destruct (flat_built_digits u s Hu Hne Hs Hb Hl) as (t & Ht & H2 & Hp & L & Hpl & E).
  set (h := digits u) in *. set (T0 := tree_of unit_leaf 0 h s) in *.
  assert (E' := flat_encodeRuns_spec t h _ L Hpl). cbv zeta in E'.
  destruct L as (_ & Hwf & _ & _). set (T' := ucompress T0) in *. set (m := nodelev T') in *.
  destruct (ucompress_nodelev T0 h Hwf ltac:(lia)) as (M1 & M2). fold T' m in M1, M2.
  eexists t, _, (m - 1). split; [auto|]. split; [eauto|]. cbn [f_height f_height_with_runs f_bTrie f_lastLevel].
  split; [auto|]. rewrite <- (levels_runs h s T0) by (eauto using below_pow2). fold T'.
  split; [apply levels_last; auto|]. split; [lia|]. split.
  - apply prebits_levels. lia.
  - symmetry. apply levels_nth. lia.
Qed.

Lemma level_built_digits : forall il u s, (2 <= u <= 2 ^ 48)%N -> s <> [] -> increasing s -> below u s ->
  exists t, level_build il s u = Ok t /\ 1 <= digits u /\ (u <= pow2 (digits u))%N /\
    let T := tree_of unit_leaf 0 (digits u) s in
    level_layout t (digits u) T /\ plain T /\ sel umem (digits u) T 0 = s.
Proof.
  intros il u s Hu Hne Hs Hb.
  destruct (height_of_spec u ltac:(lia)) as (h & Hh & Hr & Hp & H2 & _).
  assert (Eh := height_digits u h ltac:(lia) Hh). subst h.
  assert (H1 : 1 <= digits u).
  { destruct (digits u); [|lia]. change (pow2 0) with 1%N in Hp. lia. }
  destruct (level_build_layout il s u _ Hh) as (t & Ht & L & _); auto; try lia.
  { apply below_short with (u := u); auto. lia. }
  exists t. split; [auto|]. split; [auto|]. split; [auto|].
  split; [apply L|]. split; [apply tree_of_plain|]. eapply sel_is_set; eauto.
Qed.

Theorem level_stored : forall il u s,
  (2 <= u <= 2 ^ 48)%N -> s <> [] -> increasing s -> below u s ->
  exists t, level_build il s u = Ok t /\ l_bTrie t = set_levels (digits u) s.
Proof.
  intros il u s Hu Hne Hs Hb.
  destruct (level_built_digits il u s Hu Hne Hs Hb) as (t & Ht & H2 & Hp & L & Hpl & E).
  exists t. split; [auto|]. destruct L as (_ & W & El & _). rewrite El.
  apply levels_set; eauto using below_pow2.
Qed.

Theorem level_stored_runs : forall il u s,
  (2 <= u <= 2 ^ 48)%N -> s <> [] -> increasing s -> below u s ->
  exists t t', level_build il s u = Ok t /\ level_encodeRuns t = Ok t' /\
    l_bTrie t' = run_levels (digits u) s.
Proof.
  intros il u s Hu Hne Hs Hb.
  destruct (level_built_digits il u s Hu Hne Hs Hb) as (t & Ht & H2 & Hp & L & Hpl & E).
  destruct (level_encodeRuns_spec _ _ _ L Hpl) as (t' & Ht' & L' & _).
  exists t, t'. split; [auto|]. split; [auto|]. destruct L' as (_ & W & El & _). rewrite El.
  apply levels_runs; eauto using below_pow2. apply L.
Qed.

(** * The constructor from recorded positions *)

Lemma ones_tpos : forall b, ones_of b = tpos 0 b.
Proof.
  intros b. unfold ones_of.
  assert (H : forall b p pre, length pre = p ->
    filter (fun i => nth i (pre ++ b) false) (seq p (length b)) = tpos p b).
  { clear. induction b as [|x b IH]; intros p pre Hp; auto. cbn [length seq filter tpos].
    rewrite app_nth2, Hp, Nat.sub_diag by lia. cbn [nth].
    specialize (IH (S p) (pre ++ [x])). rewrite <- app_assoc in IH. cbn [app] in IH.
    rewrite IH by (rewrite app_length; cbn; lia). destruct x; auto. }
  apply (H b 0 []). auto.
Qed.

Section FromOnes.
  Variable L : list (list bool).
  Let h := length L.
  Let B (j : nat) := nth j L [].

  Lemma L_map : forall X (f : list bool -> X), map f L = map (fun j => f (B j)) (seq 0 h).
  Proof.
    intros X f. unfold B, h. clear. induction L as [|x l IH]; auto.
    cbn [length seq map nth]. f_equal. rewrite <- seq_shift, map_map. exact IH.
  Qed.

  Lemma firstn_concat_S : forall n, n < h -> concat (firstn (S n) L) = concat (firstn n L) ++ B n.
  Proof.
    unfold h, B. clear. induction L as [|x l IH]; intros n Hn; [cbn in Hn; lia|].
    destruct n as [|n].
    - cbn. rewrite app_nil_r. auto.
    - cbn [length] in Hn. cbn [firstn concat nth]. rewrite <- app_assoc, <- IH by lia. auto.
  Qed.

  Lemma concat_split : forall m n, n < m -> m <= h ->
    exists rest, concat (firstn m L) = concat (firstn n L) ++ B n ++ rest.
  Proof.
    induction m; intros n Hn Hm; [lia|]. rewrite firstn_concat_S by lia. destruct (Nat.eq_dec n m) as [->|Hne].
    - exists []. rewrite app_nil_r. auto.
    - destruct (IHm n ltac:(lia) ltac:(lia)) as (rest & ->). exists (rest ++ B m). rewrite <- !app_assoc. auto.
  Qed.

  Definition count_step (ps : list nat) (level : nat) (st : nat * nat * nat) : result (nat * nat * nat) :=
    let '(nbits, maxl, nempty) := st in
    let* p := vget ps level in
    if 0 <? p then Ok (nbits + p, level, nempty) else Ok (nbits + p, maxl, S nempty).

  Section Some.
    Variable m : nat.
    Hypothesis Hm : last_level L m.

    Lemma m_lt : m < h.
    Proof. apply Hm. Qed.
    Lemma m_pos : 0 < length (B m).
    Proof. destruct Hm as (_ & H & _). unfold B. destruct (nth m L []); [congruence|cbn; lia]. Qed.
    Lemma m_after : forall l, m < l -> B l = [].
    Proof. apply Hm. Qed.

    Lemma from_count : forall n, n <= h ->
      exists maxl ne, for_loop n 0 (count_step (map (@length bool) L)) (0, 0, 0) =
        Ok (length (concat (firstn n L)), maxl, ne) /\ (m < n -> maxl = m /\ ne < n) /\ ne <= n.
    Proof.
      induction n; intros Hn; [exists 0, 0; split; [auto|split; lia]|].
      destruct IHn as (maxl & ne & E & H & Hne); [lia|].
      rewrite for_loop_S, E. cbn [bind]. unfold count_step. rewrite L_map, vget_map by lia. cbn [bind].
      rewrite firstn_concat_S, app_length by lia. assert (P := m_pos).
      destruct (Nat.ltb_spec 0 (length (B n))) as [Hp|Hp].
      - exists n, ne. split; [auto|]. split; [|lia]. intros Hmn. destruct (Nat.eq_dec n m) as [->|Hx]; [lia|].
        rewrite (m_after n) in Hp by lia. cbn in Hp. lia.
      - exists maxl, (S ne). split; [auto|]. split; [|lia]. intros Hmn.
        destruct (Nat.eq_dec n m) as [->|Hx]; [lia|]. destruct H; lia.
    Qed.

    Lemma concat_all : concat L = concat (firstn m L) ++ B m.
    Proof.
      rewrite <- firstn_concat_S by apply m_lt.
      assert (H : forall n, S m <= n -> n <= h -> concat (firstn n L) = concat (firstn (S m) L)).
      { induction 1; intros; auto. rewrite firstn_concat_S by lia. rewrite m_after by lia.
        rewrite app_nil_r. apply IHle. lia. }
      rewrite <- (H h); [|apply m_lt|auto]. unfold h. rewrite firstn_all. auto.
    Qed.

    Lemma from_write : forall n, n <= h ->
      write_levels n (map ones_of L) (map (@length bool) L) m
        (bv_make (length (concat (firstn m L)))) (bv_make (length (B m))) =
      Ok (concat (firstn (min n m) L)
            ++ repeat false (length (concat (firstn m L)) - length (concat (firstn (min n m) L))),
          if n <=? m then bv_make (length (B m)) else B m,
          length (concat (firstn (min n m) L))).
    Proof.
      assert (Hlt := m_lt). rewrite !L_map.
      induction n; intros Hn.
      - cbn [Nat.leb Nat.min firstn concat length app]. rewrite Nat.sub_0_r. reflexivity.
      - unfold write_levels in *. rewrite for_loop_S, IHn by lia. cbn [bind].
        rewrite vget_map by lia. cbn [bind]. rewrite ones_tpos.
        destruct (Nat.eqb_spec n m) as [E|E].
        + rewrite E. rewrite Nat.leb_refl. assert (S1 := set_ones_spec (B m) [] [] 0 0 eq_refl).
          cbn [app] in S1. rewrite !app_nil_r in S1. unfold bv_make. rewrite S1. cbn [bind].
          rewrite Nat.ltb_irrefl. replace (S m <=? m) with false by (symmetry; apply Nat.leb_gt; lia).
          rewrite !Nat.min_r by lia. reflexivity.
        + destruct (Nat.ltb_spec n m) as [Hx|Hx].
          * rewrite (Nat.min_l n) by lia. rewrite (Nat.min_l (S n)) by lia.
            destruct (concat_split m n Hx ltac:(lia)) as (rest & ER).
            assert (EL : length (concat (firstn m L)) = length (concat (firstn n L)) + length (B n) + length rest).
            { rewrite ER, !app_length. lia. }
            replace (length (concat (firstn m L)) - length (concat (firstn n L)))
              with (length (B n) + length rest) by lia.
            rewrite repeat_app. rewrite set_ones_spec by lia. cbn [bind].
            rewrite vget_map by lia. cbn [bind]. rewrite firstn_concat_S by lia.
            replace (n <=? m) with true by (symmetry; apply Nat.leb_le; lia).
            replace (S n <=? m) with true by (symmetry; apply Nat.leb_le; lia).
            rewrite app_length, <- app_assoc. repeat f_equal. lia.
          * rewrite (m_after n) by lia. cbn [tpos]. unfold set_ones. cbn [length for_loop bind].
            rewrite !Nat.min_r by lia.
            replace (n <=? m) with false by (symmetry; apply Nat.leb_gt; lia).
            replace (S n <=? m) with false by (symmetry; apply Nat.leb_gt; lia). reflexivity.
    Qed.

    Theorem flat_from_levels : forall runs,
      flat_from_ones (map ones_of L) (length L) (map (@length bool) L) runs =
      Ok (mkFlat (length L) (S m) false runs (concat (firstn m L)) (nth m L []) (concat (firstn m L))).
    Proof.
      intros runs. unfold flat_from_ones. fold h. assert (Hlt := m_lt).
      change (for_loop h 0 _ (0, 0, 0)) with (for_loop h 0 (count_step (map (@length bool) L)) (0, 0, 0)).
      destruct (from_count h (le_n h)) as (maxl & ne & -> & H & _). destruct (H Hlt) as (-> & Hne). cbn [bind].
      rewrite (L_map _ (@length bool)) at 1. rewrite vget_map by auto. cbn [bind].
      replace (length (concat (firstn h L)) - length (B m)) with (length (concat (firstn m L))).
      2:{ unfold h at 1. rewrite firstn_all, concat_all, app_length. lia. }
      rewrite from_write by auto. cbn [bind]. rewrite Nat.min_r by lia. rewrite Nat.sub_diag.
      cbn [repeat]. rewrite app_nil_r.
      replace (h <=? m) with false by (symmetry; apply Nat.leb_gt; lia).
      replace (ne =? h) with false by (symmetry; apply Nat.eqb_neq; lia). reflexivity.
    Qed.
  End Some.
End FromOnes.

Theorem flat_from_empty : forall h runs, 1 <= h ->
  flat_from_ones (repeat [] h) h (repeat 0 h) runs = Ok (mkFlat h 1 true runs [] [] []).
Proof.
  intros h runs Hh. unfold flat_from_ones.
  assert (V : forall A (x : A) n i, i < n -> vget (repeat x n) i = Ok x).
  { intros A x n i Hi. apply vget_nth. rewrite nth_error_repeat; auto. }
  assert (C : forall n, n <= h -> for_loop n 0 (count_step (repeat 0 h)) (0, 0, 0) = Ok (0, 0, n)).
  { induction n; intros Hn; auto. rewrite for_loop_S, IHn by lia. cbn [bind]. unfold count_step.
    rewrite V by lia. reflexivity. }
  change (for_loop h 0 _ (0, 0, 0)) with (for_loop h 0 (count_step (repeat 0 h)) (0, 0, 0)).
  rewrite C by auto. cbn [bind]. rewrite V by lia. cbn [bind Nat.sub].
  assert (W : forall n, n <= h -> write_levels n (repeat [] h) (repeat 0 h) 0 (bv_make 0) (bv_make 0) = Ok ([], [], 0)).
  { induction n; intros Hn; auto. unfold write_levels in *. rewrite for_loop_S, IHn by lia. cbn [bind].
    rewrite V by lia. cbn [bind]. unfold set_ones. cbn [length for_loop bind]. destruct (n =? 0); reflexivity. }
  rewrite W by auto. cbn [bind]. rewrite Nat.eqb_refl. reflexivity.
Qed.

(** The plain levels of a set rebuild its trie. *)
Theorem flat_from_set : forall u s,
  (3 <= u <= 2 ^ 48)%N -> s <> [] -> increasing s -> below u s -> shorter 32 s ->
  let L := set_levels (digits u) s in
  exists t t', flat_build s u = Ok t /\
    flat_from_ones (map ones_of L) (digits u) (map (@length bool) L) false = Ok t' /\
    f_height t' = f_height t /\ f_bTrie t' = f_bTrie t /\ f_lastLevel t' = f_lastLevel t /\
    f_rank t' = f_rank t /\ f_empty_trie t' = f_empty_trie t /\ f_runs_encoded t' = f_runs_encoded t /\
    forall v, flat_decode t' v = Ok (v ++ s).
Proof.
  intros u s Hu Hne Hs Hb Hl L.
  destruct (height_of_spec u ltac:(lia)) as (h & Hh & Hr & Hp & H2 & _).
  assert (Eh := height_digits u h ltac:(lia) Hh). subst h. set (h := digits u) in *.
  destruct (flat_build_layout s u _ Hh) as (t & Ht & Lt & Hre & He); auto; try lia.
  set (T0 := tree_of unit_leaf 0 h s) in *.
  assert (Hpl : plain T0) by apply tree_of_plain.
  assert (E : sel umem h T0 0 = s) by (eapply sel_is_set; eauto).
  assert (LH : length L = h) by apply set_levels_length.
  assert (HLs : L = levels h T0) by (symmetry; apply levels_set; eauto using below_pow2; apply Lt).
  destruct Lt as (_ & W & Fh & Fb & Fl & Fr).
  assert (M : last_level L (h - 1)).
  { rewrite HLs. rewrite <- (nodelev_plain _ T0 h W Hpl) at 2. apply levels_last; rewrite (nodelev_plain _ T0 h W Hpl); lia. }
  assert (FR := flat_from_levels L (h - 1) M false). rewrite LH in FR.
  eexists t, _. split; [auto|]. split; [exact FR|].
  assert (EB : concat (firstn (h - 1) L) = f_bTrie t) by (rewrite Fb, HLs; symmetry; apply prebits_levels; lia).
  assert (EL : nth (h - 1) L [] = f_lastLevel t) by (rewrite Fl, HLs; apply levels_nth; lia).
  cbn [f_height f_bTrie f_lastLevel f_rank f_empty_trie f_runs_encoded]. rewrite EB, EL.
  split; [auto|]. split; [auto|]. split; [auto|]. split; [auto|]. split; [auto|]. split; [auto|].
  intros v. rewrite <- E. apply flat_decode_plain; auto; try lia.
  unfold flat_layout. cbn [f_height f_bTrie f_lastLevel f_rank]. repeat split; auto; lia.
Qed.

(** The levels with runs give what encodeRuns gives. *)
Theorem flat_from_runs : forall u s,
  (3 <= u <= 2 ^ 48)%N -> s <> [] -> increasing s -> below u s -> shorter 32 s ->
  let L := run_levels (digits u) s in
  exists t t', flat_build s u = Ok t /\ flat_encodeRuns t = Ok t' /\
    flat_from_ones (map ones_of L) (digits u) (map (@length bool) L) true = Ok t'.
Proof.
  intros u s Hu Hne Hs Hb Hl L.
  destruct (height_of_spec u ltac:(lia)) as (h & Hh & Hr & Hp & H2 & _).
  assert (Eh := height_digits u h ltac:(lia) Hh). subst h. set (h := digits u) in *.
  destruct (flat_build_layout s u _ Hh) as (t & Ht & Lt & Hre & He); auto; try lia.
  set (T0 := tree_of unit_leaf 0 h s) in *.
  assert (Hpl : plain T0) by apply tree_of_plain.
  assert (E : sel umem h T0 0 = s) by (eapply sel_is_set; eauto).
  assert (E' := flat_encodeRuns_spec t h _ Lt Hpl). cbv zeta in E'. rewrite He in E'.
  destruct Lt as (_ & Hwf & _ & _). set (T' := ucompress T0) in *. set (m := nodelev T') in *.
  destruct (ucompress_nodelev T0 h Hwf ltac:(lia)) as (M1 & M2). fold T' m in M1, M2.
  assert (LH : length L = h) by apply run_levels_length.
  assert (HLs : L = levels h T') by (symmetry; apply levels_runs; eauto using below_pow2).
  assert (M : last_level L (m - 1)) by (rewrite HLs; apply levels_last; auto).
  assert (FR := flat_from_levels L (m - 1) M true). rewrite LH in FR.
  eexists t, _. split; [auto|]. split; [exact E'|]. rewrite FR.
  replace (S (m - 1)) with m by lia.
  replace (concat (firstn (m - 1) L)) with (prebits T' (m - 1)) by (rewrite HLs; apply prebits_levels; lia).
  rewrite HLs, levels_nth by lia. reflexivity.
Qed.

Theorem flat_from_levels_ex : forall L m runs, last_level L m ->
  exists t, flat_from_ones (map ones_of L) (length L) (map (@length bool) L) runs = Ok t /\
    f_height t = length L /\ f_height_with_runs t = S m /\ f_empty_trie t = false /\
    f_runs_encoded t = runs /\ f_bTrie t = concat (firstn m L) /\ f_lastLevel t = nth m L [].
Proof. intros. eexists. split; [apply flat_from_levels; eauto|]. repeat split. Qed.

Theorem flat_from_empty_ex : forall h runs, 1 <= h ->
  exists t, flat_from_ones (repeat [] h) h (repeat 0 h) runs = Ok t /\ f_empty_trie t = true /\
    f_bTrie t = [] /\ f_lastLevel t = [].
Proof. intros. eexists. split; [apply flat_from_empty; auto|]. repeat split. Qed.
