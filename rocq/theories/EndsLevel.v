(** Construction of level-wise and fast tries always ends. *)

From Verif Require Import Base Split FlatTrie LevelTrie FastTrie Facts SpecEnds EndsFacts.

Lemma ends_lb_child : forall b mk st, ends mk -> ends (lb_child b mk st).
Proof. intros. unfold lb_child. end_steps. auto. Qed.

Lemma lb_child_inv : forall b mk st st', lb_child b mk st = Ok st' ->
  exists p, (p = [] \/ b = true /\ exists sg, mk = Ok sg /\ p = [sg]) /\
    lb_q st' = lb_q st ++ p /\ lb_level st' = lb_level st /\ lb_nodes_curr st' = lb_nodes_curr st /\
    lb_count st' = lb_count st /\ lb_nodes_next st' = lb_nodes_next st + length p.
Proof.
  intros b mk st st' E. unfold lb_child in E. destruct b.
  - apply bind_inv in E. destruct E as (bv & _ & E). apply bind_inv in E. destruct E as (bv' & _ & E).
    apply bind_inv in E. destruct E as (bt & _ & E). apply bind_inv in E. destruct E as (sg & M & E).
    assert (st' = _) as -> by (symmetry; apply (f_equal (fun m => match m with Ok a => a | _ => st' end)) in E; exact E).
    exists [sg]. cbn. repeat split; try lia; eauto 6.
  - assert (st' = _) as -> by (symmetry; apply (f_equal (fun m => match m with Ok a => a | _ => st' end)) in E; exact E).
    exists []. cbn. rewrite app_nil_r. repeat split; try lia; auto.
Qed.

Lemma ends_lb_end : forall st, ends (lb_end_level st).
Proof. intros. unfold lb_end_level. end_steps. Qed.

Lemma lb_end_inv : forall st st', lb_end_level st = Ok st' ->
  lb_q st' = lb_q st /\
  (lb_count st = lb_nodes_curr st /\ lb_level st' = S (lb_level st) /\ lb_nodes_curr st' = lb_nodes_next st /\
     lb_count st' = 0 /\ lb_nodes_next st' = 0 \/
   lb_count st <> lb_nodes_curr st /\ st' = st).
Proof.
  intros st st' E. unfold lb_end_level in E. destruct (Nat.eqb_spec (lb_count st) (lb_nodes_curr st)) as [C|C].
  - apply bind_inv in E. destruct E as (bv & _ & E). apply bind_inv in E. destruct E as (bt & _ & E).
    assert (st' = _) as -> by (symmetry; apply (f_equal (fun m => match m with Ok a => a | _ => st' end)) in E; exact E).
    cbn. auto 10.
  - assert (st' = st) as -> by congruence. auto.
Qed.

Lemma ends_lb_step : forall set h sg q st, ends (lb_step set h sg q st).
Proof.
  intros set h [[l r] n] q st. unfold lb_step.
  end_steps; auto using ends_split, ends_lb_child, ends_left_seg, ends_right_seg, ends_lb_end.
Qed.

Lemma ends_lb_loop : forall fuel set h st, lb_level st < h ->
  queue_ok set h (lb_level st) (lb_nodes_curr st) (lb_count st) (lb_nodes_next st) (lb_q st) fuel ->
  ends (lb_loop fuel set h st).
Proof.
  induction fuel as [|fuel IH]; intros set h st L Q; cbn [lb_loop]; destruct (lb_q st) as [|[[l r] n] q] eqn:E;
    try discriminate.
  - destruct (queue_step set h (lb_level st) (lb_nodes_curr st) (lb_count st) (lb_nodes_next st) (l, r, n) q 0 [])
      as (_ & f & D & _); auto; [|discriminate]. split; [auto|apply N.le_0_l].
  - apply ends_bind; [apply ends_lb_step|].
    intros st' S. unfold lb_step in S. apply bind_inv in S. destruct S as (o & SP & S).
    apply bind_inv in S. destruct S as (st1 & C1 & S). apply bind_inv in S. destruct S as (st2 & C2 & S).
    apply lb_child_inv in C1. destruct C1 as (pl & PL & Q1 & L1 & N1 & K1 & X1).
    apply lb_child_inv in C2. destruct C2 as (pr & PR & Q2 & L2 & N2 & K2 & X2).
    cbn [lb_q lb_level lb_nodes_curr lb_count lb_nodes_next] in *.
    assert (G : good_seg set (l, r, n)).
    { eapply queue_step with (ch := []); [exact L|exact Q|]. split; [auto|apply N.le_0_l]. }
    assert (CH : children_ok set (l, r, n) (pl ++ pr)).
    { eapply split_children; [exact G|exact SP| |].
      - destruct PL as [->|(P & M)]; [auto|]. apply N.ltb_lt in P. auto.
      - destruct PR as [->|(P & M)]; [auto|]. apply N.ltb_lt in P. auto. }
    destruct (queue_step _ _ _ _ _ _ _ _ _ _ L Q CH) as (_ & f & F & SAME & NEXT). injection F as <-.
    rewrite app_assoc, <- Q1, <- Q2 in SAME, NEXT. rewrite app_length in SAME, NEXT.
    apply lb_end_inv in S. destruct S as (QE & [(C & L3 & N3 & K3 & X3)|(C & ->)]).
    + destruct (Nat.eqb_spec (lb_level st') h); [discriminate|]. apply IH; [lia|].
      rewrite L3, N3, K3, X3, QE, L2, L1. replace (lb_nodes_next st2) with (lb_nodes_next st + (length pl + length pr)) by lia.
      apply NEXT. lia.
    + destruct (Nat.eqb_spec (lb_level st2) h); [discriminate|]. apply IH; [lia|].
      rewrite L2, L1, K2, K1, N2, N1. replace (lb_nodes_next st2) with (lb_nodes_next st + (length pl + length pr)) by lia.
      apply SAME. lia.
Qed.

(** The empty list: the first segment has no elements, and no children. *)
Lemma lb_empty : forall fuel h, ends (lb_loop (S fuel) [] h (lb_init [] h)).
Proof.
  intros. cbn [lb_loop lb_init lb_q]. apply ends_bind; [apply ends_lb_step|]. intros st' S.
  unfold lb_step, first_seg64 in S. cbn [length] in S. apply bind_inv in S. destruct S as (o & SP & S).
  change (wrap64 (wrap64 (N.of_nat 0) + (2 ^ 64 - 1))) with (2 ^ 64 - 1)%N in SP. unfold split in SP.
  destruct (_ || _)%bool; [discriminate|]. cbn [split_loop length] in SP.
  change (N.ltb 0 (wrap64 (2 ^ 64 - 1 + 1))) with false in SP. cbn iota in SP.
  assert (o = split_init) as -> by congruence. clear SP.
  change (N.ltb 0 (so_left split_init)) with false in S. change (N.ltb 0 (so_right split_init)) with false in S.
  unfold lb_child in S. cbn [bind] in S. apply lb_end_inv in S. destruct S as (Q & _). cbn in Q.
  destruct (_ =? _); [discriminate|]. destruct fuel; cbn [lb_loop]; rewrite Q; discriminate.
Qed.

Theorem ends_level_build : forall il set u, ends (level_build il set u).
Proof.
  intros il set u. unfold level_build. apply ends_bind; [apply ends_height_of|]. intros h E. apply height_of_pos in E.
  apply ends_bind; [|intros; discriminate]. destruct set as [|x set].
  - destruct h as [|h]; [lia|]. unfold fb_fuel. cbn [length Nat.mul]. apply lb_empty.
  - destruct (first_seg64_good (x :: set)) as (G & S); [discriminate|].
    apply ends_lb_loop; cbn [lb_init lb_level lb_q lb_nodes_curr lb_count lb_nodes_next]; [lia|].
    apply first_queue; [exact G|]. unfold fb_fuel. nia.
Qed.

(** * fastBinaryTrie *)

Lemma ends_xb_child : forall b mk st, ends mk -> ends (xb_child b mk st).
Proof. intros. unfold xb_child. end_steps. auto. Qed.

Lemma xb_child_inv : forall b mk st st', xb_child b mk st = Ok st' ->
  exists p, (p = [] \/ b = true /\ exists sg, mk = Ok sg /\ p = [sg]) /\
    xb_q st' = xb_q st ++ p /\ xb_level st' = xb_level st /\ xb_nodes_curr st' = xb_nodes_curr st /\
    xb_count st' = xb_count st /\ xb_nodes_next st' = xb_nodes_next st + length p.
Proof.
  intros b mk st st' E. unfold xb_child in E. destruct b.
  - apply bind_inv in E. destruct E as (bt & _ & E). apply bind_inv in E. destruct E as (sg & M & E).
    assert (st' = _) as -> by (symmetry; apply (f_equal (fun m => match m with Ok a => a | _ => st' end)) in E; exact E).
    exists [sg]. cbn. repeat split; try lia; eauto 6.
  - assert (st' = _) as -> by (symmetry; apply (f_equal (fun m => match m with Ok a => a | _ => st' end)) in E; exact E).
    exists []. cbn. rewrite app_nil_r. repeat split; try lia; auto.
Qed.

Lemma ends_word_loop : forall fuel lw set r i w,
  1 <= fuel -> (N.of_nat (length set) < N.of_nat fuel + i)%N -> ends (word_loop fuel lw set r i w).
Proof.
  induction fuel as [|fuel IH]; intros lw set r i w F1 F; cbn [word_loop]; [lia|].
  destruct (N.ltb i (wrap64 (r + 1))); [|discriminate].
  apply ends_bind; [apply ends_vgetN|]. intros x X.
  unfold vgetN in X. destruct (N.ltb_spec i (N.of_nat (length set))); [|discriminate].
  apply IH; lia.
Qed.

Lemma ends_xb_step : forall lw set h hu sg q st, ends (xb_step lw set h hu sg q st).
Proof.
  intros lw set h hu [[l r] n] q st. unfold xb_step.
  end_steps; auto using ends_split, ends_xb_child, ends_left_seg, ends_right_seg.
  apply ends_word_loop; lia.
Qed.

Lemma split_level : forall set j l r o, split set j l r = Ok o -> 1 <= j.
Proof. intros set j l r o E. unfold split in E. destruct j; [discriminate|lia]. Qed.

Lemma ends_xb_loop : forall fuel lw set h hu st, h <= S hu -> xb_level st <= hu ->
  queue_ok set (S hu) (xb_level st) (xb_nodes_curr st) (xb_count st) (xb_nodes_next st) (xb_q st) fuel ->
  ends (xb_loop fuel lw set h hu st).
Proof.
  induction fuel as [|fuel IH]; intros lw set h hu st HH L Q; cbn [xb_loop]; destruct (xb_q st) as [|[[l r] n] q] eqn:E;
    try discriminate; assert (L' : xb_level st < S hu) by lia.
  - destruct (queue_step set (S hu) (xb_level st) (xb_nodes_curr st) (xb_count st) (xb_nodes_next st) (l, r, n) q 0 [])
      as (_ & f & D & _); auto; [|discriminate]. split; [auto|apply N.le_0_l].
  - apply ends_bind; [apply ends_xb_step|].
    intros [st' brk] S.
    assert (G : good_seg set (l, r, n)).
    { eapply queue_step with (ch := []); [exact L'|exact Q|]. split; [auto|apply N.le_0_l]. }
    unfold xb_step in S. destruct (Nat.eqb_spec (Datatypes.S (xb_level st)) h) as [W|W].
    + apply bind_inv in S. destruct S as (w & _ & S). cbn [xb_count xb_nodes_curr] in S.
      assert (st' = mkXB q (xb_level st) (xb_nodes_curr st) (Datatypes.S (xb_count st)) (xb_nodes_next st) (xb_index st)
                      (xb_bTrie st) (xb_last st ++ [w])) as -> by congruence.
      assert (brk = (Datatypes.S (xb_count st) =? xb_nodes_curr st)) as -> by congruence. clear S.
      destruct (Nat.eqb_spec (Datatypes.S (xb_count st)) (xb_nodes_curr st)) as [C|C]; [discriminate|].
      cbn [xb_level]. destruct (_ =? _); [discriminate|].
      destruct (queue_step set (Datatypes.S hu) _ _ _ _ (l, r, n) q _ [] L' Q) as (_ & f & F & SAME & NEXT).
      { split; [auto|apply N.le_0_l]. }
      injection F as <-. apply IH; cbn [xb_level xb_q xb_nodes_curr xb_count xb_nodes_next]; auto.
      cbn [length] in SAME. rewrite Nat.add_0_r, app_nil_r in SAME. apply SAME; auto.
    + apply bind_inv in S. destruct S as (o & SP & S).
      apply bind_inv in S. destruct S as (st1 & C1 & S). apply bind_inv in S. destruct S as (st2 & C2 & S).
      apply xb_child_inv in C1. destruct C1 as (pl & PL & Q1 & L1 & N1 & K1 & X1).
      apply xb_child_inv in C2. destruct C2 as (pr & PR & Q2 & L2 & N2 & K2 & X2).
      cbn [xb_q xb_level xb_nodes_curr xb_count xb_nodes_next] in *.
      assert (LV := split_level _ _ _ _ _ SP).
      assert (CH : children_ok set (l, r, n) (pl ++ pr)).
      { eapply split_children; [exact G|exact SP| |].
        - destruct PL as [->|(P & M)]; [auto|]. apply N.ltb_lt in P. auto.
        - destruct PR as [->|(P & M)]; [auto|]. apply N.ltb_lt in P. auto. }
      destruct (queue_step _ _ _ _ _ _ _ _ _ _ L' Q CH) as (_ & f & F & SAME & NEXT). injection F as <-.
      assert (brk = false) as -> by congruence. assert (st' = xb_end_level st2) as -> by congruence. clear S.
      unfold xb_end_level.
      rewrite app_assoc, <- Q1, <- Q2 in SAME, NEXT. rewrite app_length in SAME, NEXT.
      destruct (Nat.eqb_spec (xb_count st2) (xb_nodes_curr st2)) as [C|C]; cbn [xb_level].
      * destruct (_ =? h); [discriminate|].
        apply IH; cbn [xb_level xb_q xb_nodes_curr xb_count xb_nodes_next]; [lia|lia|].
        rewrite L2, L1. replace (xb_nodes_next st2) with (xb_nodes_next st + (length pl + length pr)) by lia.
        apply NEXT. lia.
      * destruct (_ =? h); [discriminate|]. apply IH; [lia|lia|].
        rewrite L2, L1, K2, K1, N2, N1. replace (xb_nodes_next st2) with (xb_nodes_next st + (length pl + length pr)) by lia.
        apply SAME. lia.
Qed.

(** The empty list: the segment is read as if it had 2^32 elements. *)
Lemma xb_empty_step : forall lw h hu q st, exists e, xb_step lw [] h hu (first_seg32 []) q st = UB e.
Proof.
  intros. change (first_seg32 []) with ((0, 2 ^ 32 - 1, 0)%N : seg). unfold xb_step. destruct (_ =? h).
  - exists OutOfBounds. reflexivity.
  - unfold split. destruct (_ || _)%bool; [exists BadShift; reflexivity|]. exists OutOfBounds. reflexivity.
Qed.

Lemma xb_empty : forall fuel lw h hu, ends (xb_loop (S fuel) lw [] h hu (xb_init [] hu)).
Proof.
  intros. cbn [xb_loop]. unfold xb_init at 1. cbn [xb_q].
  destruct (xb_empty_step lw h hu [] (xb_init [] hu)) as (e & E). rewrite E. discriminate.
Qed.

Theorem ends_fast_build : forall lw jh je set u, ends (fast_build lw jh je set u).
Proof.
  intros lw jh je set u. unfold fast_build. apply ends_bind; [apply ends_height_of|]. intros hu E.
  destruct (Nat.ltb_spec (hu + 1) lw); [discriminate|].
  apply ends_bind; [|intros; discriminate]. destruct set as [|x set].
  - cbn [length]. rewrite Nat.mul_1_r. apply xb_empty.
  - destruct (first_seg32_good (x :: set)) as (G & S); [discriminate|].
    apply ends_xb_loop; cbn [xb_init xb_level xb_q xb_nodes_curr xb_count xb_nodes_next]; [lia|lia|].
    apply first_queue; [exact G|]. nia.
Qed.
