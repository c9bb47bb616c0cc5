(** The breadth-first construction of flat tries produces the layout of the tree
    of the input list. *)

From Verif Require Import Base Split FlatTrie Facts Tree Groups Reps Layout.

Definition unit_leaf (s : list N) : unit := tt.

(** Writing one child bit at the front of the zero part. *)
Lemma fb_child_spec : forall h present mk sg q lv nc ct nn ix tt nl X n Y m,
  (present = true -> mk = Ok sg) ->
  (if S lv =? h then ix = length Y /\ 0 < m else ix = length X /\ 0 < n) ->
  fb_child h present mk
    (mkFB q lv nc ct nn ix tt nl (X ++ repeat false n) (Y ++ repeat false m)) =
  Ok (mkFB (q ++ if present then [sg] else []) lv nc ct (b2n present + nn) (S ix) (S tt) nl
           (if S lv =? h then X ++ repeat false n else X ++ present :: repeat false (n - 1))
           (if S lv =? h then Y ++ present :: repeat false (m - 1) else Y ++ repeat false m)).
Proof.
  intros h present mk sg q lv nc ct nn ix tt nl X n Y m Hmk Hix.
  unfold fb_child. cbn [fb_level fb_index fb_last fb_bTrie].
  destruct (S lv =? h); destruct Hix as (-> & Hpos).
  - destruct m as [|m]; [lia|]. cbn [repeat]. replace (S m - 1) with m by lia.
    destruct present.
    + rewrite Hmk by auto. cbn [bind]. rewrite vset_app_mid by auto. reflexivity.
    + rewrite app_nil_r. reflexivity.
  - destruct n as [|n]; [lia|]. cbn [repeat]. replace (S n - 1) with n by lia.
    destruct present.
    + rewrite Hmk by auto. cbn [bind]. rewrite vset_app_mid by auto. reflexivity.
    + rewrite app_nil_r. reflexivity.
Qed.

Lemma len_subs : forall k g, length (subs k g) = b2n (ne (lefts k g)) + b2n (ne (rights k g)).
Proof. intros. unfold subs. destruct (lefts k g), (rights k g); reflexivity. Qed.

Lemma grp_bits_len : forall k P, length (flat_map (grp_bits k) P) = 2 * length P.
Proof. induction P; auto. cbn [flat_map length grp_bits app] in *. lia. Qed.

Lemma step_queue : forall k P g R,
  ((tups (length (concat P) + length g) R ++ tups 0 (flat_map (subs k) P))
    ++ (if ne (lefts k g) then [tup (length (concat P)) (lefts k g)] else []))
    ++ (if ne (rights k g)
        then [tup (length (concat P) + length (lefts k g)) (rights k g)] else [])
  = tups (length (concat (P ++ [g]))) R ++ tups 0 (flat_map (subs k) (P ++ [g])).
Proof.
  intros. rewrite concat_app, app_length. cbn [concat]. rewrite app_nil_r.
  rewrite flat_map_app'. cbn [flat_map]. rewrite app_nil_r, tups_app, tups_subs.
  rewrite concat_flat_subs. rewrite <- !app_assoc. reflexivity.
Qed.

Section Build.
  Variable set : list N.
  Variable h : nat.
  Hypothesis Hset : set <> [].
  Hypothesis Hlen : (N.of_nat (length set) < 2 ^ 64)%N.
  Hypothesis Hh : h <= 64.

  Let b (i : nat) : nat := h - S i + 0.
  Let G (i : nat) : list (list N) := groups 0 h i set.
  Let T : tree unit := tree_of unit_leaf 0 h set.

  Lemma T_wf : wf h T.
  Proof. apply tree_of_wf. Qed.

  Lemma T_F_len : forall i, i <= h -> length (F T i) = length (G i).
  Proof. intros. unfold F, T, G. rewrite groups_forest by auto. apply map_length. Qed.

  Lemma T_bits : forall i, i < h -> bits (F T i) = flat_map (grp_bits (b i)) (G i).
  Proof. intros. unfold F, T, G, b. apply groups_bits; auto. Qed.

  Lemma off_pow : forall i, i <= h -> off T i <= 2 ^ i - 1.
  Proof.
    induction i; intros; cbn [off Nat.pow]; auto. rewrite T_F_len by lia.
    specialize (IHi ltac:(lia)). generalize (groups_pow 0 h i set). fold (G i).
    assert (2 ^ i <> 0) by (apply Nat.pow_nonzero; lia). lia.
  Qed.

  (** The segment of the first remaining group. *)
  Lemma group_split : forall i P g R, i < h -> P ++ g :: R = G i ->
    exists o, split set (h - i) (N.of_nat (length (concat P)))
                    (N.of_nat (length (concat P) + length g - 1)) = Ok o /\
      N.ltb 0 (so_left o) = ne (lefts (b i) g) /\
      N.ltb 0 (so_right o) = ne (rights (b i) g) /\
      (ne (lefts (b i) g) = true ->
       left_seg o = Ok (tup (length (concat P)) (lefts (b i) g))) /\
      (ne (rights (b i) g) = true ->
       right_seg o = Ok (tup (length (concat P) + length (lefts (b i) g)) (rights (b i) g))).
  Proof.
    intros i P g R Hi E.
    assert (Es : concat P ++ g ++ concat R = set).
    { rewrite <- (groups_concat 0 h i set). fold (G i). rewrite <- E, concat_app. reflexivity. }
    assert (Hg : g <> []).
    { assert (Hne := groups_ne 0 h i set Hset). fold (G i) in Hne. rewrite <- E in Hne.
      apply Forall_app in Hne. destruct Hne as (_ & Hne). inversion Hne; auto. }
    replace (h - i) with (S (b i)) by (unfold b; lia).
    rewrite <- Es. apply split_spec; auto.
    - rewrite Es; auto.
    - unfold b. lia.
  Qed.

  Definition cap : nat := 2 * (2 ^ h - 1).

  (** Loop state when the groups [P] of level [i] are done and [R] remain. *)
  Definition st_in (i : nat) (P R : list (list N)) : fb_state :=
    mkFB (tups (length (concat P)) R ++ tups 0 (flat_map (subs (b i)) P)) i
         (length (P ++ R)) (length P) (length (flat_map (subs (b i)) P))
         (2 * off T i + 2 * length P) (2 * off T i + 2 * length P) 0
         ((prebits T i ++ flat_map (grp_bits (b i)) P)
            ++ repeat false (cap - 2 * off T i - 2 * length P))
         ([] ++ repeat false (2 ^ h)).

  Definition st_last (P R : list (list N)) : fb_state :=
    mkFB (tups (length (concat P)) R ++ tups 0 (flat_map (subs (b (h - 1))) P)) (h - 1)
         (length (P ++ R)) (length P) (length (flat_map (subs (b (h - 1))) P))
         (2 * length P) (2 * off T (h - 1) + 2 * length P) (length (P ++ R))
         (prebits T (h - 1) ++ repeat false (cap - 2 * off T (h - 1)))
         (flat_map (grp_bits (b (h - 1))) P ++ repeat false (2 ^ h - 2 * length P)).

  Lemma step_in : forall i P g R, S i < h -> P ++ g :: R = G i ->
    fb_step set h (tup (length (concat P)) g)
            (tups (length (concat P) + length g) R ++ tups 0 (flat_map (subs (b i)) P))
            (st_in i P (g :: R))
    = Ok (fb_end_level h (st_in i (P ++ [g]) R)).
  Proof.
    intros i P g R Hi E. unfold fb_step, tup.
    destruct (group_split i P g R ltac:(lia) E) as (o & Ho & HL & HR & SL & SR).
    unfold st_in at 1. cbn [fb_level]. rewrite Ho. cbn [bind].
    cbn [st_in fb_level fb_nodes_curr fb_count fb_nodes_next fb_index fb_total fb_nodes_last
         fb_bTrie fb_last].
    rewrite HL, HR.
    assert (Hc : 2 * off T i + 2 * length P + 2 <= cap).
    { assert (length P < length (G i)) by (rewrite <- E, app_length; cbn; lia).
      generalize (groups_pow 0 h i set) (off_pow i ltac:(lia)). fold (G i).
      assert (2 ^ S (S i) <= 2 ^ S h) by (apply Nat.pow_le_mono_r; lia).
      assert (2 ^ i <> 0) by (apply Nat.pow_nonzero; lia).
      unfold cap. cbn [Nat.pow] in *. lia. }
    assert (HX : length (prebits T i ++ flat_map (grp_bits (b i)) P) = 2 * off T i + 2 * length P).
    { rewrite app_length, (prebits_length T h T_wf) by lia. rewrite grp_bits_len. lia. }
    assert (Hnl : S i =? h = false) by (apply Nat.eqb_neq; lia).
    rewrite fb_child_spec with (sg := tup (length (concat P)) (lefts (b i) g)); auto.
    2:{ rewrite Hnl. split; auto. lia. }
    cbn [bind]. rewrite Hnl.
    replace (cap - 2 * off T i - 2 * length P - 1) with (S (cap - 2 * off T i - 2 * length P - 2)) by lia.
    change (?X ++ ?x :: repeat false ?n) with (X ++ [x] ++ repeat false n).
    rewrite (app_assoc _ [_] _).
    rewrite fb_child_spec
      with (sg := tup (length (concat P) + length (lefts (b i) g)) (rights (b i) g)); auto.
    2:{ rewrite Hnl. split; [rewrite app_length, HX; cbn [length]|]; lia. }
    cbn [bind]. rewrite Hnl. do 2 f_equal. unfold st_in. rewrite step_queue.
    f_equal.
    - rewrite !app_length. cbn [length]. lia.
    - rewrite app_length. cbn [length]. lia.
    - rewrite flat_map_app', app_length. cbn [flat_map]. rewrite app_nil_r, len_subs. lia.
    - rewrite app_length. cbn [length]. lia.
    - rewrite app_length. cbn [length]. lia.
    - rewrite flat_map_app'. cbn [flat_map grp_bits app]. rewrite <- !app_assoc. cbn [app].
      do 4 f_equal. rewrite app_length. cbn [length]. repeat (f_equal; try lia).
  Qed.

  Lemma step_last : forall P g R, 1 <= h -> P ++ g :: R = G (h - 1) ->
    fb_step set h (tup (length (concat P)) g)
            (tups (length (concat P) + length g) R ++ tups 0 (flat_map (subs (b (h - 1))) P))
            (st_last P (g :: R))
    = Ok (fb_end_level h (st_last (P ++ [g]) R)).
  Proof.
    intros P g R Hi E. unfold fb_step, tup.
    destruct (group_split (h - 1) P g R ltac:(lia) E) as (o & Ho & HL & HR & SL & SR).
    unfold st_last at 1. cbn [fb_level]. rewrite Ho. cbn [bind].
    cbn [st_last fb_level fb_nodes_curr fb_count fb_nodes_next fb_index fb_total fb_nodes_last
         fb_bTrie fb_last].
    rewrite HL, HR.
    assert (Hc : 2 * length P + 2 <= 2 ^ h).
    { assert (length P < length (G (h - 1))) by (rewrite <- E, app_length; cbn; lia).
      generalize (groups_pow 0 h (h - 1) set). fold (G (h - 1)).
      replace (2 ^ h) with (2 ^ S (h - 1)) by (f_equal; lia). cbn [Nat.pow]. lia. }
    assert (Hnl : S (h - 1) =? h = true) by (apply Nat.eqb_eq; lia).
    rewrite fb_child_spec with (sg := tup (length (concat P)) (lefts (b (h - 1)) g)); auto.
    2:{ rewrite Hnl. rewrite grp_bits_len. split; auto. lia. }
    cbn [bind]. rewrite Hnl.
    replace (2 ^ h - 2 * length P - 1) with (S (2 ^ h - 2 * length P - 2)) by lia.
    change (?X ++ ?x :: repeat false ?n) with (X ++ [x] ++ repeat false n).
    rewrite (app_assoc _ [_] _).
    rewrite fb_child_spec
      with (sg := tup (length (concat P) + length (lefts (b (h - 1)) g)) (rights (b (h - 1)) g)); auto.
    2:{ rewrite Hnl. rewrite app_length, grp_bits_len. cbn [length]. lia. }
    cbn [bind]. rewrite Hnl. do 2 f_equal. unfold st_last. rewrite step_queue.
    f_equal.
    - rewrite !app_length. cbn [length]. lia.
    - rewrite app_length. cbn [length]. lia.
    - rewrite flat_map_app', app_length. cbn [flat_map]. rewrite app_nil_r, len_subs. lia.
    - rewrite app_length. cbn [length]. lia.
    - rewrite app_length. cbn [length]. lia.
    - rewrite !app_length. cbn [length]. lia.
    - rewrite flat_map_app'. cbn [flat_map grp_bits app]. rewrite <- !app_assoc. cbn [app].
      do 2 f_equal. rewrite app_length. cbn [length]. repeat (f_equal; try lia).
  Qed.

  (** End of a level. *)
  Lemma end_in_more : forall i P g R, fb_end_level h (st_in i P (g :: R)) = st_in i P (g :: R).
  Proof.
    intros. unfold fb_end_level. cbn [fb_count fb_nodes_curr st_in].
    rewrite app_length. cbn [length].
    replace (_ =? _) with false by (symmetry; apply Nat.eqb_neq; lia). reflexivity.
  Qed.

  Lemma end_last_more : forall P g R, fb_end_level h (st_last P (g :: R)) = st_last P (g :: R).
  Proof.
    intros. unfold fb_end_level. cbn [fb_count fb_nodes_curr st_last].
    rewrite app_length. cbn [length].
    replace (_ =? _) with false by (symmetry; apply Nat.eqb_neq; lia). reflexivity.
  Qed.

  Lemma end_in_done : forall i, S i < h ->
    fb_end_level h (st_in i (G i) []) =
    if S (S i) =? h then st_last [] (G (S i)) else st_in (S i) [] (G (S i)).
  Proof.
    intros i Hi. unfold fb_end_level. cbn [fb_count fb_nodes_curr st_in]. rewrite app_nil_r.
    rewrite Nat.eqb_refl. cbn [st_in fb_level fb_q fb_nodes_next fb_index fb_total fb_nodes_last fb_bTrie fb_last].
    assert (EG : flat_map (subs (b i)) (G i) = G (S i)) by reflexivity.
    rewrite EG.
    assert (EO : 2 * off T i + 2 * length (G i) = 2 * off T (S i)).
    { cbn [off]. rewrite T_F_len by lia. lia. }
    assert (EP : prebits T i ++ flat_map (grp_bits (b i)) (G i) = prebits T (S i)).
    { cbn [prebits]. rewrite T_bits by lia. auto. }
    rewrite EO, EP. replace (cap - 2 * off T i - 2 * length (G i)) with (cap - 2 * off T (S i)) by lia.
    cbn [tups].
    destruct (Nat.eqb_spec (S (S i)) h) as [E|E].
    - unfold st_last. replace (h - 1) with (S i) by lia.
      cbn [concat length flat_map tups app]. rewrite app_nil_r, Nat.add_0_r, Nat.sub_0_r. reflexivity.
    - unfold st_in. cbn [concat length flat_map tups app].
      rewrite !app_nil_r, Nat.add_0_r, Nat.sub_0_r. reflexivity.
  Qed.

  (** One full level. *)
  Lemma loop_in : forall R P i fuel, S i < h -> P ++ R = G i -> R <> [] -> length R <= fuel ->
    fb_loop fuel set h (st_in i P R) =
    fb_loop (fuel - length R) set h
            (if S (S i) =? h then st_last [] (G (S i)) else st_in (S i) [] (G (S i))).
  Proof.
    induction R as [|g R IH]; intros P i fuel Hi E Hne Hf; [congruence|].
    destruct fuel as [|fuel]; [cbn in Hf; lia|]. cbn [length] in *.
    cbn [fb_loop]. unfold st_in at 1. cbn [fb_q tups app].
    rewrite step_in by auto. cbn [bind].
    assert (E' : (P ++ [g]) ++ R = G i) by (rewrite <- app_assoc; auto).
    destruct R as [|g' R].
    - rewrite app_nil_r in E'. rewrite E', end_in_done by auto.
      replace (fb_level _ =? h) with false.
      + cbn [length]. replace (S fuel - 1) with fuel by lia. reflexivity.
      + destruct (Nat.eqb_spec (S (S i)) h); symmetry; apply Nat.eqb_neq; cbn; lia.
    - rewrite end_in_more. replace (fb_level _ =? h) with false by
        (symmetry; apply Nat.eqb_neq; cbn; lia).
      rewrite IH; auto; try discriminate; try lia.
  Qed.

  Definition st_end : fb_state :=
    mkFB (tups 0 (flat_map (subs (b (h - 1))) (G (h - 1)))) h
         (length (flat_map (subs (b (h - 1))) (G (h - 1)))) 0 0
         (2 * length (G (h - 1))) (2 * off T (h - 1) + 2 * length (G (h - 1)))
         (length (G (h - 1)))
         (prebits T (h - 1) ++ repeat false (cap - 2 * off T (h - 1)))
         (bits (F T (h - 1)) ++ repeat false (2 ^ h - 2 * length (G (h - 1)))).

  Lemma loop_last : forall R P fuel, 1 <= h -> P ++ R = G (h - 1) -> R <> [] -> length R <= fuel ->
    fb_loop fuel set h (st_last P R) = Ok st_end.
  Proof.
    induction R as [|g R IH]; intros P fuel Hi E Hne Hf; [congruence|].
    destruct fuel as [|fuel]; [cbn in Hf; lia|]. cbn [length] in *.
    cbn [fb_loop]. unfold st_last at 1. cbn [fb_q tups app].
    rewrite step_last by auto. cbn [bind].
    assert (E' : (P ++ [g]) ++ R = G (h - 1)) by (rewrite <- app_assoc; auto).
    destruct R as [|g' R].
    - rewrite app_nil_r in E'. rewrite E'.
      unfold fb_end_level. cbn [fb_count fb_nodes_curr st_last]. rewrite app_nil_r, Nat.eqb_refl.
      cbn [st_last fb_level fb_q fb_nodes_next fb_index fb_total fb_nodes_last fb_bTrie fb_last].
      replace (S (S (h - 1)) =? h) with false by (symmetry; apply Nat.eqb_neq; lia).
      cbn [fb_level]. replace (S (h - 1)) with h by lia. rewrite Nat.eqb_refl.
      unfold st_end. rewrite T_bits by lia. rewrite app_nil_r. reflexivity.
    - rewrite end_last_more. replace (fb_level _ =? h) with false by
        (symmetry; apply Nat.eqb_neq; cbn; lia).
      rewrite IH; auto; try discriminate; try lia.
  Qed.

  Lemma G_ne : forall i, G i <> [].
  Proof.
    intros i E. assert (H := groups_concat 0 h i set). fold (G i) in H. rewrite E in H.
    cbn in H. congruence.
  Qed.

  Lemma G_len : forall i, length (G i) <= length set.
  Proof. intros. apply groups_len; auto. Qed.

  Lemma loop_all : forall n i fuel, i + n = h -> 2 <= n -> n * length set <= fuel ->
    fb_loop fuel set h (st_in i [] (G i)) = Ok st_end.
  Proof.
    induction n; intros i fuel E Hn Hf; [lia|].
    assert (Hl := G_len i).
    rewrite loop_in by (auto using G_ne; lia).
    destruct (Nat.eqb_spec (S (S i)) h).
    - replace (S i) with (h - 1) by lia.
      apply loop_last; auto using G_ne; try lia.
      generalize (G_len (h - 1)). replace n with 1 in * by lia. lia.
    - apply IHn; lia.
  Qed.
End Build.

Lemma first_seg32_at : forall set, set <> [] -> (N.of_nat (length set) <= 2 ^ 32)%N ->
  exists n, first_seg32 set = (0%N, N.of_nat (length set) - 1, n)%N.
Proof.
  intros set Hne Hl. unfold first_seg32.
  assert (0 < length set) by (destruct set; [congruence|cbn; lia]).
  exists (N.of_nat (length set) mod 2 ^ 32)%N. f_equal. f_equal.
  rewrite N.add_mod_idemp_l by discriminate.
  replace (N.of_nat (length set) + (2 ^ 32 - 1))%N
    with (N.of_nat (length set) - 1 + 1 * 2 ^ 32)%N by lia.
  rewrite N.mod_add by discriminate. apply N.mod_small. lia.
Qed.

(** The number of elements recorded with a segment is never used. *)
Lemma fb_loop_count : forall fuel set h l r n n' q level nc c nn i t nl bt ll,
  fb_loop fuel set h (mkFB ((l, r, n) :: q) level nc c nn i t nl bt ll)
  = fb_loop fuel set h (mkFB ((l, r, n') :: q) level nc c nn i t nl bt ll).
Proof. intros. destruct fuel; reflexivity. Qed.

(** Construction of a flat trie. *)
Theorem flat_build_layout_le : forall set u h, height_of u = Ok h -> 2 <= h -> h <= 64 ->
  set <> [] -> (N.of_nat (length set) <= 2 ^ 32)%N ->
  let T := tree_of unit_leaf 0 h set in
  exists t, flat_build set u = Ok t /\ flat_layout t h T /\
            f_runs_encoded t = false /\ f_empty_trie t = false.
Proof.
  intros set u h Hu Hh Hh64 Hne Hlen T. unfold flat_build. rewrite Hu. cbn [bind].
  assert (Hlen' : (N.of_nat (length set) < 2 ^ 64)%N) by lia.
  replace (fb_loop (fb_fuel set h) set h (fb_init set h))
    with (fb_loop (fb_fuel set h) set h (st_in set h 0 [] (groups 0 h 0 set))).
  2:{ unfold st_in, fb_init. destruct (first_seg32_at set Hne Hlen) as (n & ->).
      cbn [groups tups concat length flat_map app off prebits Nat.mul Nat.add].
      unfold bv_make, cap, tup. rewrite !Nat.sub_0_r. cbn [Nat.add].
      replace (N.of_nat (length set - 1)) with (N.of_nat (length set) - 1)%N by lia. apply fb_loop_count. }
  rewrite (loop_all set h Hne Hlen' Hh64 h 0); auto.
  2:{ unfold fb_fuel. nia. }
  cbn [bind st_end fb_bTrie fb_total fb_nodes_last fb_last].
  set (n1 := length (groups 0 h (h - 1) set)).
  assert (HT : wf h T) by apply tree_of_wf.
  assert (E1 : length (F T (h - 1)) = n1).
  { unfold F, T, n1. rewrite groups_forest by (auto; lia). apply map_length. }
  eexists. split; [reflexivity|].
  unfold flat_layout. cbn [f_height f_bTrie f_lastLevel f_rank f_runs_encoded f_empty_trie].
  repeat split; auto.
  - apply bv_resize_app. rewrite (prebits_length _ h) by (auto; lia). fold T. lia.
  - apply bv_resize_app. fold T. rewrite bits_length; [lia|].
    intros t Ht. apply (F_notleaf T h HT (h - 1)); auto; lia.
Qed.

Theorem flat_build_layout : forall set u h, height_of u = Ok h -> 2 <= h -> h <= 64 ->
  set <> [] -> (N.of_nat (length set) < 2 ^ 32)%N ->
  let T := tree_of unit_leaf 0 h set in
  exists t, flat_build set u = Ok t /\ flat_layout t h T /\
            f_runs_encoded t = false /\ f_empty_trie t = false.
Proof. intros. apply flat_build_layout_le; auto. lia. Qed.
