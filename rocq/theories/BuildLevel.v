(** The construction of level-wise tries produces the layout of the tree of the
    input list; an empty input list produces a root without children. *)

From Verif Require Import Base Split FlatTrie LevelTrie Facts Tree Groups Reps Layout BuildFlat.

Lemma lb_child_spec : forall present mk sg q lv nc ct nn ix A Y m B,
  (present = true -> mk = Ok sg) -> lv = length A -> ix = length Y -> 0 < m ->
  lb_child present mk (mkLB q lv nc ct nn ix (A ++ (Y ++ repeat false m) :: B)) =
  Ok (mkLB (q ++ if present then [sg] else []) lv nc ct (b2n present + nn) (S ix)
           (A ++ (Y ++ present :: repeat false (m - 1)) :: B)).
Proof.
  intros present mk sg q lv nc ct nn ix A Y m B Hmk -> -> Hm.
  unfold lb_child. cbn [lb_level lb_index lb_bTrie].
  destruct m as [|m]; [lia|]. cbn [repeat]. replace (S m - 1) with m by lia.
  destruct present.
  - rewrite vget_app_mid by auto. cbn [bind].
    rewrite vset_app_mid by auto. cbn [bind]. rewrite vset_app_mid by auto.
    rewrite Hmk by auto. reflexivity.
  - rewrite app_nil_r. reflexivity.
Qed.

Section Build.
  Variable set : list N.
  Variable h : nat.
  Hypothesis Hset : set <> [].
  Hypothesis Hlen : (N.of_nat (length set) < 2 ^ 64)%N.
  Hypothesis Hh : h <= 64.

  Let b (i : nat) : nat := h - S i + 0.
  Let G (i : nat) : list (list N) := groups 0 h i set.
  Let T : tree unit := tree_of unit_leaf 0 h set.

  Definition done_levels (i : nat) : list (list bool) := map (fun j => bits (F T j)) (seq 0 i).

  Lemma done_S : forall i, done_levels (S i) = done_levels i ++ [bits (F T i)].
  Proof. intros. unfold done_levels. rewrite seq_S, map_app. reflexivity. Qed.

  Lemma done_all : done_levels h = levels h T.
  Proof.
    apply nth_ext with (d := []) (d' := []).
    - unfold done_levels, levels. rewrite map_length, seq_length, levelsF_length. auto.
    - intros n Hn. unfold done_levels in *. rewrite map_length, seq_length in Hn.
      assert (E : nth_error (levels h T) n = Some (bits (F T n))) by (apply levelsF_nth; auto).
      rewrite (nth_error_nth _ _ _ E).
      erewrite nth_indep by (rewrite map_length, seq_length; auto).
      rewrite (map_nth (fun j => bits (F T j)) (seq 0 h) 0). rewrite seq_nth by auto. auto.
  Qed.

  Definition zero_levels (i n : nat) : list (list bool) :=
    map (fun level => bv_make (2 * 2 ^ level)) (seq i n).

  Definition lst (i : nat) (P R : list (list N)) : lb_state :=
    mkLB (tups (length (concat P)) R ++ tups 0 (flat_map (subs (b i)) P)) i
         (length (P ++ R)) (length P) (length (flat_map (subs (b i)) P)) (2 * length P)
         (done_levels i ++ (flat_map (grp_bits (b i)) P ++ repeat false (2 * 2 ^ i - 2 * length P))
                      :: zero_levels (S i) (h - S i)).

  Lemma done_len : forall i, length (done_levels i) = i.
  Proof. intros. unfold done_levels. rewrite map_length, seq_length. auto. Qed.

  Lemma lstep : forall i P g R, i < h -> P ++ g :: R = G i ->
    lb_step set h (tup (length (concat P)) g)
            (tups (length (concat P) + length g) R ++ tups 0 (flat_map (subs (b i)) P))
            (lst i P (g :: R))
    = lb_end_level (lst i (P ++ [g]) R).
  Proof.
    intros i P g R Hi E. unfold lb_step, tup.
    destruct (group_split set h Hset Hlen Hh i P g R ltac:(lia) E) as (o & Ho & HL & HR & SL & SR).
    fold (b i) in HL, HR, SL, SR.
    unfold lst at 1. cbn [lb_level]. rewrite Ho. cbn [bind].
    cbn [lst lb_level lb_nodes_curr lb_count lb_nodes_next lb_index lb_bTrie].
    rewrite HL, HR.
    assert (Hc : 2 * length P + 2 <= 2 * 2 ^ i).
    { assert (length P < length (G i)) by (rewrite <- E, app_length; cbn; lia).
      generalize (groups_pow 0 h i set). fold (G i). lia. }
    rewrite lb_child_spec with (sg := tup (length (concat P)) (lefts (b i) g)); auto.
    2: symmetry; apply done_len.
    2: rewrite grp_bits_len; auto.
    2: lia.
    cbn [bind].
    replace (2 * 2 ^ i - 2 * length P - 1) with (S (2 * 2 ^ i - 2 * length P - 2)) by lia.
    change (?X ++ ne (lefts (b i) g) :: repeat false ?n)
      with (X ++ [ne (lefts (b i) g)] ++ repeat false n).
    rewrite (app_assoc _ [_] _).
    rewrite lb_child_spec
      with (sg := tup (length (concat P) + length (lefts (b i) g)) (rights (b i) g)); auto.
    2: symmetry; apply done_len.
    2: rewrite app_length, grp_bits_len; cbn [length]; lia.
    2: lia.
    cbn [bind]. f_equal. unfold lst. rewrite step_queue.
    f_equal.
    - rewrite !app_length. cbn [length]. lia.
    - rewrite app_length. cbn [length]. lia.
    - rewrite flat_map_app', app_length. cbn [flat_map]. rewrite app_nil_r, len_subs. lia.
    - rewrite app_length. cbn [length]. lia.
    - rewrite flat_map_app'. cbn [flat_map grp_bits app]. rewrite <- !app_assoc. cbn [app].
      rewrite app_length. cbn [length]. repeat (f_equal; try lia).
  Qed.

  Lemma lend_more : forall i P g R, lb_end_level (lst i P (g :: R)) = Ok (lst i P (g :: R)).
  Proof.
    intros. unfold lb_end_level. cbn [lb_count lb_nodes_curr lst].
    rewrite app_length. cbn [length].
    replace (_ =? _) with false by (symmetry; apply Nat.eqb_neq; lia). reflexivity.
  Qed.

  Definition lend : lb_state :=
    mkLB (tups 0 (G h)) h (length (G h)) 0 0 0 (levels h T).

  Lemma lend_done : forall i, i < h ->
    lb_end_level (lst i (G i) []) =
    Ok (if S i =? h then lend else lst (S i) [] (G (S i))).
  Proof.
    intros i Hi. unfold lb_end_level. cbn [lb_count lb_nodes_curr lst]. rewrite app_nil_r.
    rewrite Nat.eqb_refl.
    cbn [lst lb_level lb_q lb_nodes_next lb_index lb_bTrie].
    rewrite vget_app_mid by apply done_len. cbn [bind].
    rewrite bv_resize_app by (symmetry; apply grp_bits_len).
    rewrite vset_app_mid by apply done_len. cbn [bind].
    assert (EG : flat_map (subs (b i)) (G i) = G (S i)) by reflexivity.
    rewrite EG. unfold b, G. rewrite <- (groups_bits unit_leaf 0 h i set) by auto.
    fold T. change (fiter i [T]) with (F T i).
    change (bits (F T i) :: zero_levels (S i) (h - S i))
      with ([bits (F T i)] ++ zero_levels (S i) (h - S i)).
    rewrite app_assoc, <- done_S. cbn [tups app].
    destruct (Nat.eqb_spec (S i) h) as [E|E].
    - unfold lend. rewrite <- done_all. rewrite E. rewrite Nat.sub_diag. cbn [zero_levels seq map].
      rewrite app_nil_r. reflexivity.
    - unfold lst. fold (G (S i)). cbn [concat length flat_map tups app].
      rewrite app_nil_r, Nat.mul_0_r, Nat.sub_0_r.
      replace (h - S i) with (S (h - S (S i))) by lia. reflexivity.
  Qed.

  Lemma lloop : forall R P i fuel, i < h -> P ++ R = G i -> R <> [] -> length R <= fuel ->
    lb_loop fuel set h (lst i P R) =
    if S i =? h then Ok lend
    else lb_loop (fuel - length R) set h (lst (S i) [] (G (S i))).
  Proof.
    induction R as [|g R IH]; intros P i fuel Hi E Hne Hf; [congruence|].
    destruct fuel as [|fuel]; [cbn in Hf; lia|]. cbn [length] in *.
    cbn [lb_loop]. unfold lst at 1. cbn [lb_q tups app].
    rewrite lstep by auto.
    assert (E' : (P ++ [g]) ++ R = G i) by (rewrite <- app_assoc; auto).
    destruct R as [|g' R].
    - rewrite app_nil_r in E'. rewrite E', lend_done by auto. cbn [bind].
      destruct (Nat.eqb_spec (S i) h).
      + cbn [lend lb_level]. rewrite Nat.eqb_refl. reflexivity.
      + cbn [lst lb_level]. replace (S i =? h) with false by (symmetry; apply Nat.eqb_neq; auto).
        cbn [length]. replace (S fuel - 1) with fuel by lia. reflexivity.
    - rewrite lend_more. cbn [bind]. replace (lb_level _ =? h) with false by
        (symmetry; apply Nat.eqb_neq; cbn; lia).
      rewrite IH; auto; try discriminate; try lia.
  Qed.

  Lemma lloop_all : forall n i fuel, i + n = h -> 1 <= n -> n * length set <= fuel ->
    lb_loop fuel set h (lst i [] (G i)) = Ok lend.
  Proof.
    induction n; intros i fuel E Hn Hf; [lia|].
    assert (Hl : length (G i) <= length set) by (apply G_len; auto).
    assert (G i <> []) by (apply G_ne; auto).
    rewrite lloop by (auto; lia).
    destruct (Nat.eqb_spec (S i) h); auto. apply IHn; lia.
  Qed.
End Build.

Lemma first_seg64_tup : forall set, set <> [] -> (N.of_nat (length set) < 2 ^ 64)%N ->
  first_seg64 set = tup 0 set.
Proof.
  intros set Hne Hl. unfold first_seg64, tup, wrap64.
  assert (0 < length set) by (destruct set; [congruence|cbn; lia]).
  rewrite (N.mod_small (N.of_nat (length set))) by auto.
  replace (N.of_nat (length set) + (2 ^ 64 - 1))%N
    with (N.of_nat (length set) - 1 + 1 * 2 ^ 64)%N by lia.
  rewrite N.mod_add by discriminate. rewrite N.mod_small by lia.
  cbn [Nat.add]. f_equal. f_equal. lia.
Qed.

(** Construction of a level-wise trie. *)
Theorem level_build_layout : forall il set u h, height_of u = Ok h -> 1 <= h -> h <= 64 ->
  set <> [] -> (N.of_nat (length set) < 2 ^ 64)%N ->
  let T := tree_of unit_leaf 0 h set in
  exists t, level_build il set u = Ok t /\ level_layout t h T /\
            l_runs_encoded t = false /\ l_empty_trie t = false /\ l_il t = il.
Proof.
  intros il set u h Hu Hh Hh64 Hne Hlen T. unfold level_build. rewrite Hu. cbn [bind].
  replace (lb_init set h) with (lst set h 0 [] (groups 0 h 0 set)).
  2:{ unfold lst, lb_init. rewrite first_seg64_tup by auto.
      cbn [groups tups concat length flat_map app Nat.mul Nat.add done_levels map].
      rewrite Nat.sub_0_r. destruct h as [|h]; [lia|].
      cbn [seq map zero_levels]. rewrite Nat.sub_succ, Nat.sub_0_r. reflexivity. }
  rewrite (lloop_all set h Hne Hlen Hh64 h 0); auto.
  2:{ unfold fb_fuel. nia. }
  cbn [bind lend lb_bTrie]. eexists. split; [reflexivity|].
  unfold level_layout. cbn. repeat split; auto. apply tree_of_wf.
Qed.

(** Construction from an empty list: one iteration writes nothing and pushes
    nothing; every other level keeps its full, all-zero vector. *)
Definition empty_levels (h : nat) : list (list bool) :=
  map (fun level => bv_make (2 * 2 ^ level)) (seq 0 h).

Theorem level_build_empty : forall il u h, height_of u = Ok h -> 2 <= h -> h <= 64 ->
  level_build il [] u =
  Ok (mkLevel il 0 false false (empty_levels h) (firstn (h - 1) (empty_levels h))).
Proof.
  intros il u h Hu Hh Hh64. unfold level_build. rewrite Hu. cbn [bind].
  destruct h as [|h]; [lia|].
  assert (E : lb_loop (fb_fuel [] (S h)) [] (S h) (lb_init [] (S h)) =
              Ok (mkLB [] 1 0 0 0 0 (empty_levels (S h)))).
  { unfold fb_fuel, lb_init. cbn [length]. replace (S h * 1) with (S h) by lia.
    cbn [lb_loop lb_q]. unfold lb_step, first_seg64, split.
    cbn [lb_level lb_nodes_curr lb_count lb_nodes_next lb_index lb_bTrie].
    replace ((S h - 0 =? 0) || (64 <? S h - 0))%bool with false
      by (symmetry; apply orb_false_iff; split; [reflexivity | apply Nat.ltb_ge; lia]).
    cbn [length]. change (N.of_nat 0) with 0%N. change (wrap64 0) with 0%N.
    change (wrap64 (0 + (2 ^ 64 - 1))) with (2 ^ 64 - 1)%N.
    cbn [split_loop].
    change (wrap64 (2 ^ 64 - 1 + 1)) with 0%N.
    replace (N.ltb 0 0) with false by reflexivity. cbn [bind split_init so_left so_right].
    replace (N.ltb 0 0) with false by reflexivity.
    unfold lb_child. cbn [bind lb_level lb_nodes_curr lb_count lb_nodes_next lb_index lb_bTrie lb_q].
    unfold lb_end_level. cbn [lb_level lb_nodes_curr lb_count lb_nodes_next lb_index lb_bTrie lb_q Nat.eqb].
    cbn [seq map]. change (vget (bv_make (2 * 2 ^ 0) :: ?l) 0) with (Ok (bv_make (2 * 2 ^ 0))).
    cbn [bind]. change (vset (?x :: ?l) 0 ?y) with (Ok (y :: l)). cbn [bind lb_level].
    replace (1 =? S h) with false by (symmetry; apply Nat.eqb_neq; lia).
    destruct h; [lia|]. cbn [lb_loop lb_q]. reflexivity. }
  rewrite E. cbn [bind lb_bTrie]. reflexivity.
Qed.

(** For u = 2 (height 1) the loop leaves through its exit test instead. *)
Theorem level_build_empty1 : forall il,
  level_build il [] 2 = Ok (mkLevel il 0 false false [[false; false]] []).
Proof. destruct il; reflexivity. Qed.
