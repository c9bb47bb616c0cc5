(** No call of the library runs for ever: constructors, run encoding, decoding, Intersect. *)

From Verif Require Import Base Split FlatTrie LevelTrie FastTrie ParallelFor Intersection Tries Facts Tree
  BuildFast WordBits SpecEnds.

Lemma ends_bind : forall A B (m : result A) (f : A -> result B),
  ends m -> (forall a, m = Ok a -> ends (f a)) -> ends (bind m f).
Proof. intros A B [a|e|] f M F; cbn; [apply F; auto|discriminate|destruct (M eq_refl)]. Qed.

Lemma ends_for : forall T n start (f : nat -> T -> result T) s,
  (forall i s', ends (f i s')) -> ends (for_loop n start f s).
Proof.
  induction n as [|n IH]; intros start f s F; cbn [for_loop]; [discriminate|].
  apply ends_bind; auto.
Qed.

Lemma ends_vget : forall A (v : list A) i, ends (vget v i).
Proof. intros. unfold vget. destruct (nth_error v i); discriminate. Qed.
Lemma ends_vgetN : forall A (v : list A) i, ends (vgetN v i).
Proof. intros. unfold vgetN. destruct (N.ltb _ _); [apply ends_vget|discriminate]. Qed.
Lemma ends_vset : forall A (v : list A) i x, ends (vset v i x).
Proof. intros. unfold vset. destruct (_ <? _); discriminate. Qed.
Lemma ends_vpop : forall A (v : list A), ends (vpop v).
Proof. intros A [|]; discriminate. Qed.
Lemma ends_oget : forall A (o : option A), ends (oget o).
Proof. intros A [|]; discriminate. Qed.
Lemma ends_aget : forall A (v : list (option A)) i, ends (aget v i).
Proof. intros. apply ends_bind; [apply ends_vget|]. intros. apply ends_oget. Qed.
Lemma ends_aset : forall A (v : list (option A)) i x, ends (aset v i x).
Proof. intros. apply ends_vset. Qed.
Lemma ends_shl1 : forall k, ends (shl1 k).
Proof. intros. unfold shl1. destruct (_ <? _); discriminate. Qed.
Lemma ends_shl_sub : forall a b, ends (shl_sub a b).
Proof. intros. unfold shl_sub. destruct (_ <? _); [discriminate|apply ends_shl1]. Qed.
Lemma ends_rank1 : forall v i, ends (rank1 v i).
Proof. intros. unfold rank1. destruct (_ <=? _); discriminate. Qed.
Lemma ends_height_of : forall u, ends (height_of u).
Proof.
  intros. unfold height_of. destruct (N.eqb u 1); [discriminate|]. destruct (N.eqb u 0); [discriminate|].
  destruct (N.ltb _ u); discriminate.
Qed.

Ltac end_step :=
  match goal with
  | |- ends (Ok _) => discriminate
  | |- ends (UB _) => discriminate
  | |- ends (bind _ _) => apply ends_bind; [|intros]
  | |- ends (for_loop _ _ _ _) => apply ends_for; intros
  | |- ends (vget _ _) => apply ends_vget
  | |- ends (vgetN _ _) => apply ends_vgetN
  | |- ends (vset _ _ _) => apply ends_vset
  | |- ends (vpop _) => apply ends_vpop
  | |- ends (oget _) => apply ends_oget
  | |- ends (aget _ _) => apply ends_aget
  | |- ends (aset _ _ _) => apply ends_aset
  | |- ends (shl1 _) => apply ends_shl1
  | |- ends (shl_sub _ _) => apply ends_shl_sub
  | |- ends (rank1 _ _) => apply ends_rank1
  | |- ends (height_of _) => apply ends_height_of
  | |- ends (match ?x with _ => _ end) => destruct x eqn:?
  end.
Ltac end_steps := repeat (end_step; cbv beta).

(** * The queue of the constructors *)

Definition seg_size (sg : seg) : N := (snd (fst sg) + 1 - fst (fst sg))%N.
Definition good_seg (set : list N) (sg : seg) : Prop :=
  (fst (fst sg) <= snd (fst sg) < N.of_nat (length set))%N.
Definition sizes (q : list seg) : N := fold_right (fun sg n => seg_size sg + n)%N 0%N q.

Lemma sizes_cons : forall sg q, sizes (sg :: q) = (seg_size sg + sizes q)%N.
Proof. reflexivity. Qed.

Lemma sizes_app : forall a b, sizes (a ++ b) = (sizes a + sizes b)%N.
Proof.
  induction a as [|x a IH]; intros; cbn [app]; [reflexivity|]. rewrite !sizes_cons, IH. lia.
Qed.

Lemma ends_split_loop : forall fuel set sh l r i o,
  1 <= fuel -> (N.of_nat (length set) < N.of_nat fuel + i)%N -> ends (split_loop fuel set sh l r i o).
Proof.
  induction fuel as [|fuel IH]; intros set sh l r i o F1 F; cbn [split_loop]; [lia|].
  destruct (N.ltb i (wrap64 (r + 1))); [|discriminate].
  apply ends_bind; [apply ends_vgetN|]. intros x X. destruct (N.testbit x (N.of_nat sh)); [discriminate|].
  unfold vgetN in X. destruct (N.ltb_spec i (N.of_nat (length set))); [|discriminate].
  apply IH; lia.
Qed.

Lemma ends_split : forall set j l r, ends (split set j l r).
Proof.
  intros. unfold split. destruct (_ || _)%bool; [discriminate|]. apply ends_split_loop; lia.
Qed.

Definition split_good (set : list N) (l r : N) (o : split_out) : Prop :=
  (so_left o + so_right o <= r + 1 - l)%N /\
  (forall sg, (0 < so_left o)%N -> left_seg o = Ok sg -> good_seg set sg /\ seg_size sg = so_left o) /\
  (forall sg, (0 < so_right o)%N -> right_seg o = Ok sg -> good_seg set sg /\ seg_size sg = so_right o).

Lemma wrap64_le : forall x, (wrap64 x <= x)%N.
Proof. intros. apply N.mod_le. discriminate. Qed.

Lemma split_loop_good : forall fuel set sh l r i o o',
  (l <= r < N.of_nat (length set))%N -> (l <= i <= r + 1)%N ->
  so_left o = (i - l)%N -> so_right o = 0%N ->
  ((l < i)%N -> so_ll o = Some l /\ so_lr o = Some (i - 1)%N) ->
  split_loop fuel set sh l r i o = Ok o' -> split_good set l r o'.
Proof.
  assert (D : forall set l r i o, (l <= r < N.of_nat (length set))%N -> (l <= i <= r + 1)%N ->
    so_left o = (i - l)%N -> so_right o = 0%N ->
    ((l < i)%N -> so_ll o = Some l /\ so_lr o = Some (i - 1)%N) -> split_good set l r o).
  { intros set l r i o G I L R X. split; [lia|]. split; intros sg P Q; [|lia].
    destruct X as (X1 & X2); [lia|]. unfold left_seg in Q. rewrite X1, X2 in Q. cbn in Q.
    assert (sg = (l, i - 1, so_left o)%N) as -> by congruence.
    unfold good_seg, seg_size. cbn [fst snd]. lia. }
  induction fuel as [|fuel IH]; intros set sh l r i o o' G I L R X E; cbn [split_loop] in E.
  - destruct (N.ltb i (wrap64 (r + 1))); [discriminate|].
    assert (o = o') as <- by congruence. apply D with (i := i); auto.
  - destruct (N.ltb_spec i (wrap64 (r + 1))) as [J|J].
    2: { assert (o = o') as <- by congruence. apply D with (i := i); auto. }
    assert (W := wrap64_le (r + 1)). apply bind_inv in E. destruct E as (x & _ & E).
    destruct (N.testbit x (N.of_nat sh)).
    + apply (f_equal (fun m => match m with Ok a => a | _ => o' end)) in E. subst o'.
      split; [cbn [so_left so_right]; lia|]. split; intros sg P Q.
      * cbn [so_left] in P |- *. destruct X as (X1 & X2); [lia|]. unfold left_seg in Q. cbn [so_ll so_lr so_left] in Q.
        rewrite X1, X2 in Q. cbn [oget bind] in Q. assert (sg = (l, i - 1, so_left o)%N) as -> by congruence.
        unfold good_seg, seg_size. cbn [fst snd]. lia.
      * cbn [so_right]. unfold right_seg in Q. cbn [so_rl so_rr so_right oget bind] in Q.
        assert (sg = (i, r, r - i + 1)%N) as -> by congruence.
        unfold good_seg, seg_size. cbn [fst snd]. lia.
    + eapply IH; [exact G| | | | |exact E]; cbn [so_left so_right so_ll so_lr]; try lia.
      intros _. split; [|f_equal; lia]. destruct (N.eqb_spec i l) as [|NE]; [auto|].
      destruct X as (X1 & _); [lia|]. exact X1.
Qed.

Lemma split_spec_good : forall set j l r o,
  (l <= r < N.of_nat (length set))%N -> split set j l r = Ok o -> split_good set l r o.
Proof.
  intros set j l r o G E. unfold split in E. destruct (_ || _)%bool; [discriminate|].
  eapply split_loop_good; [exact G| | | | |exact E]; cbn; try lia.
Qed.

(** The part of the state that matters: what is left of the current level, the next level,
    and the work that remains, at most one step for each value on each level. *)
Definition queue_ok (set : list N) (H lev : nat) (curr count nnext : nat) (q : list seg) (fuel : nat) : Prop :=
  exists cur next, q = cur ++ next /\ curr = count + length cur /\ length next = nnext /\
    Forall (good_seg set) q /\ (cur = [] -> next = []) /\
    (sizes cur * N.of_nat (H - lev) + sizes next * N.of_nat (H - lev - 1) <= N.of_nat fuel)%N.

Definition children_ok (set : list N) (sg : seg) (ch : list seg) : Prop :=
  Forall (good_seg set) ch /\ (sizes ch <= seg_size sg)%N.

Lemma queue_step : forall set H lev curr count nnext sg q fuel ch, lev < H ->
  queue_ok set H lev curr count nnext (sg :: q) fuel -> children_ok set sg ch ->
  good_seg set sg /\ exists fuel', fuel = S fuel' /\
    (S count <> curr -> queue_ok set H lev curr (S count) (nnext + length ch) (q ++ ch) fuel') /\
    (S count = curr -> queue_ok set H (S lev) (nnext + length ch) 0 0 (q ++ ch) fuel').
Proof.
  intros set H lev curr count nnext sg q fuel ch L (cur & next & Q & C & NX & G & Z & P) (CG & CS).
  destruct cur as [|sg' cur]. { rewrite Z in Q by auto. discriminate. }
  cbn [app] in Q. injection Q as <- ->. inversion_clear G as [|? ? G1 G2]. cbn [length] in C.
  rewrite sizes_cons in P.
  assert (S1 : (1 <= seg_size sg)%N) by (unfold seg_size; unfold good_seg in G1; lia).
  assert (HL : N.of_nat (H - lev) = (N.of_nat (H - lev - 1) + 1)%N) by lia.
  set (m := N.of_nat (H - lev - 1)) in *. rewrite HL in P.
  destruct fuel as [|fuel]. { exfalso. nia. }
  split; [exact G1|]. exists fuel. split; [reflexivity|].
  assert (GA : Forall (good_seg set) ((cur ++ next) ++ ch)) by (apply Forall_app; auto).
  assert (B : (sizes cur * (m + 1) + (sizes next + sizes ch) * m <= N.of_nat fuel)%N) by nia.
  split; intros D.
  - exists cur, (next ++ ch). rewrite app_assoc, app_length, sizes_app. fold m. rewrite HL.
    split; [auto|]. split; [lia|]. split; [lia|]. split; [auto|]. split; [|exact B].
    intros ->. cbn in C. lia.
  - assert (cur = []) as -> by (destruct cur; [auto|cbn in C; lia]).
    exists (next ++ ch), []. rewrite app_nil_r. cbn [app] in GA |- *. rewrite app_length, sizes_app.
    split; [auto|]. split; [lia|]. split; [auto|]. split; [auto|]. split; [auto|].
    replace (H - S lev) with (H - lev - 1) by lia. fold m. change (sizes []) with 0%N in *. lia.
Qed.

Lemma first_queue : forall set H sg k, good_seg set sg -> (seg_size sg * N.of_nat H <= N.of_nat k)%N ->
  queue_ok set H 0 1 0 0 [sg] k.
Proof.
  intros set H sg k G K. exists [sg], []. cbn [app length]. repeat split; auto.
  rewrite sizes_cons, Nat.sub_0_r. change (sizes []) with 0%N. lia.
Qed.

Lemma first_seg32_good : forall set, set <> [] -> good_seg set (first_seg32 set) /\
  (seg_size (first_seg32 set) <= N.of_nat (length set))%N.
Proof.
  intros set NE. assert (L : (1 <= N.of_nat (length set))%N) by (destruct set; [congruence|cbn [length]; lia]).
  unfold first_seg32, good_seg, seg_size. cbn [fst snd]. set (n := N.of_nat (length set)) in *.
  assert (LM : (n mod 2 ^ 32 < 2 ^ 32)%N) by (apply N.mod_lt; discriminate).
  assert (LE : (n mod 2 ^ 32 <= n)%N) by (apply N.mod_le; discriminate).
  assert (DM := N.div_mod n (2 ^ 32)). specialize (DM ltac:(discriminate)).
  destruct (N.eq_dec (n mod 2 ^ 32) 0) as [E|E].
  - rewrite E in *. rewrite N.add_0_l. rewrite (N.mod_small (2 ^ 32 - 1)) by reflexivity.
    assert (n / 2 ^ 32 <> 0)%N by (intros Q; rewrite Q in DM; lia). lia.
  - replace (n mod 2 ^ 32 + (2 ^ 32 - 1))%N with (n mod 2 ^ 32 - 1 + 1 * 2 ^ 32)%N by lia.
    rewrite N.mod_add by discriminate. rewrite N.mod_small by lia. lia.
Qed.

Lemma first_seg64_good : forall set, set <> [] -> good_seg set (first_seg64 set) /\
  (seg_size (first_seg64 set) <= N.of_nat (length set))%N.
Proof.
  intros set NE. assert (L : (1 <= N.of_nat (length set))%N) by (destruct set; [congruence|cbn [length]; lia]).
  unfold first_seg64, good_seg, seg_size, wrap64. cbn [fst snd]. set (n := N.of_nat (length set)) in *.
  assert (LM : (n mod 2 ^ 64 < 2 ^ 64)%N) by (apply N.mod_lt; discriminate).
  assert (LE : (n mod 2 ^ 64 <= n)%N) by (apply N.mod_le; discriminate).
  assert (DM := N.div_mod n (2 ^ 64)). specialize (DM ltac:(discriminate)).
  destruct (N.eq_dec (n mod 2 ^ 64) 0) as [E|E].
  - rewrite E in *. rewrite N.add_0_l. rewrite (N.mod_small (2 ^ 64 - 1)) by reflexivity.
    assert (n / 2 ^ 64 <> 0)%N by (intros Q; rewrite Q in DM; lia). lia.
  - replace (n mod 2 ^ 64 + (2 ^ 64 - 1))%N with (n mod 2 ^ 64 - 1 + 1 * 2 ^ 64)%N by lia.
    rewrite N.mod_add by discriminate. rewrite N.mod_small by lia. lia.
Qed.

Lemma split_children : forall set j l r n o (pl pr : list seg),
  good_seg set (l, r, n) -> split set j l r = Ok o ->
  (pl = [] \/ (0 < so_left o)%N /\ exists sg, left_seg o = Ok sg /\ pl = [sg]) ->
  (pr = [] \/ (0 < so_right o)%N /\ exists sg, right_seg o = Ok sg /\ pr = [sg]) ->
  children_ok set (l, r, n) (pl ++ pr).
Proof.
  intros set j l r n o pl pr G E L R. destruct (split_spec_good _ _ _ _ _ G E) as (T & GL & GR).
  assert (X : Forall (good_seg set) pl /\ (sizes pl <= so_left o)%N).
  { destruct L as [->|(P & sg & Q & ->)]; [split; [auto|change (sizes []) with 0%N; lia]|]. destruct (GL sg P Q) as (U & V).
    split; [auto|]. rewrite sizes_cons. change (sizes []) with 0%N. lia. }
  assert (Y : Forall (good_seg set) pr /\ (sizes pr <= so_right o)%N).
  { destruct R as [->|(P & sg & Q & ->)]; [split; [auto|change (sizes []) with 0%N; lia]|]. destruct (GR sg P Q) as (U & V).
    split; [auto|]. rewrite sizes_cons. change (sizes []) with 0%N. lia. }
  destruct X as (X1 & X2), Y as (Y1 & Y2). split; [apply Forall_app; auto|]. rewrite sizes_app.
  unfold seg_size. cbn [fst snd] in *. lia.
Qed.

Lemma ends_left_seg : forall o, ends (left_seg o).
Proof. intros. unfold left_seg. end_steps. Qed.
Lemma ends_right_seg : forall o, ends (right_seg o).
Proof. intros. unfold right_seg. end_steps. Qed.

(** * flatBinTrie *)

Lemma ends_fb_child : forall h b mk st, ends mk -> ends (fb_child h b mk st).
Proof. intros. unfold fb_child. end_steps. auto. Qed.

Lemma fb_child_inv : forall h b mk st st', fb_child h b mk st = Ok st' ->
  exists p, (p = [] \/ b = true /\ exists sg, mk = Ok sg /\ p = [sg]) /\
    fb_q st' = fb_q st ++ p /\ fb_level st' = fb_level st /\ fb_nodes_curr st' = fb_nodes_curr st /\
    fb_count st' = fb_count st /\ fb_nodes_next st' = fb_nodes_next st + length p.
Proof.
  intros h b mk st st' E. unfold fb_child in E. destruct b.
  - apply bind_inv in E. destruct E as (sg & M & E). apply bind_inv in E. destruct E as (bl & _ & E).
    assert (st' = _) as -> by (symmetry; apply (f_equal (fun m => match m with Ok a => a | _ => st' end)) in E; exact E).
    exists [sg]. cbn. repeat split; try lia; eauto 6.
  - assert (st' = _) as -> by (symmetry; apply (f_equal (fun m => match m with Ok a => a | _ => st' end)) in E; exact E).
    exists []. cbn. rewrite app_nil_r. repeat split; try lia; auto.
Qed.

Lemma ends_fb_loop : forall fuel set h st, fb_level st < h ->
  queue_ok set h (fb_level st) (fb_nodes_curr st) (fb_count st) (fb_nodes_next st) (fb_q st) fuel ->
  ends (fb_loop fuel set h st).
Proof.
  induction fuel as [|fuel IH]; intros set h st L Q; cbn [fb_loop]; destruct (fb_q st) as [|[[l r] n] q] eqn:E;
    try discriminate.
  - destruct (queue_step set h (fb_level st) (fb_nodes_curr st) (fb_count st) (fb_nodes_next st) (l, r, n) q 0 [])
      as (_ & f & D & _); auto; [|discriminate]. split; [auto|apply N.le_0_l].
  - apply ends_bind.
    { unfold fb_step. end_steps; auto using ends_split, ends_fb_child, ends_left_seg, ends_right_seg. }
    intros st' S. unfold fb_step in S. apply bind_inv in S. destruct S as (o & SP & S).
    apply bind_inv in S. destruct S as (st1 & C1 & S). apply bind_inv in S. destruct S as (st2 & C2 & S).
    apply fb_child_inv in C1. destruct C1 as (pl & PL & Q1 & L1 & N1 & K1 & X1).
    apply fb_child_inv in C2. destruct C2 as (pr & PR & Q2 & L2 & N2 & K2 & X2).
    cbn [fb_q fb_level fb_nodes_curr fb_count fb_nodes_next] in *.
    assert (G : good_seg set (l, r, n)).
    { eapply queue_step with (ch := []); [exact L|exact Q|]. split; [auto|apply N.le_0_l]. }
    assert (CH : children_ok set (l, r, n) (pl ++ pr)).
    { eapply split_children; [exact G|exact SP| |].
      - destruct PL as [->|(P & M)]; [auto|]. apply N.ltb_lt in P. auto.
      - destruct PR as [->|(P & M)]; [auto|]. apply N.ltb_lt in P. auto. }
    destruct (queue_step _ _ _ _ _ _ _ _ _ _ L Q CH) as (_ & f & F & SAME & NEXT). injection F as <-.
    assert (st' = fb_end_level h st2) as -> by congruence. clear S. unfold fb_end_level.
    rewrite app_assoc, <- Q1, <- Q2 in SAME, NEXT. rewrite app_length in SAME, NEXT.
    destruct (Nat.eqb_spec (fb_count st2) (fb_nodes_curr st2)) as [C|C]; cbn [fb_level].
    + destruct (Nat.eqb_spec (S (fb_level st2)) h); [discriminate|]. apply IH; cbn [fb_level fb_q fb_nodes_curr fb_count fb_nodes_next]; [lia|].
      rewrite L2, L1. replace (fb_nodes_next st2) with (fb_nodes_next st + (length pl + length pr)) by lia.
      apply NEXT. lia.
    + destruct (Nat.eqb_spec (fb_level st2) h); [discriminate|]. apply IH; [lia|].
      rewrite L2, L1, K2, K1, N2, N1. replace (fb_nodes_next st2) with (fb_nodes_next st + (length pl + length pr)) by lia.
      apply SAME. lia.
Qed.

Lemma height_of_pos : forall u h, height_of u = Ok h -> 1 <= h.
Proof.
  intros u h E. unfold height_of in E. destruct (N.eqb u 1); [discriminate|]. destruct (N.eqb u 0); [discriminate|].
  destruct (N.ltb _ u); [discriminate|]. assert (N.to_nat (N.succ (N.log2 (u - 1))) = h) by congruence. lia.
Qed.

Theorem ends_flat_build : forall set u, ends (flat_build set u).
Proof.
  intros set u. unfold flat_build. apply ends_bind; [apply ends_height_of|]. intros h E. apply height_of_pos in E.
  apply ends_bind; [|intros; discriminate]. destruct set as [|x set].
  - destruct h as [|h]; [lia|]. cbn [fb_fuel length]. unfold fb_fuel. cbn [length]. rewrite Nat.mul_1_r. cbn [fb_loop fb_init fb_q].
    unfold fb_step, first_seg32. cbn [length]. change (0 mod 2 ^ 32)%N with 0%N.
    change ((0 + (2 ^ 32 - 1)) mod 2 ^ 32)%N with (2 ^ 32 - 1)%N. cbn [fb_level].
    unfold split. destruct (_ || _)%bool; [discriminate|]. cbn [split_loop length].
    change (N.ltb 0 (wrap64 (2 ^ 32 - 1 + 1))) with true. cbn iota. discriminate.
  - destruct (first_seg32_good (x :: set)) as (G & S); [discriminate|].
    apply ends_fb_loop; cbn [fb_init fb_level fb_q fb_nodes_curr fb_count fb_nodes_next]; [lia|].
    apply first_queue; [exact G|]. unfold fb_fuel. nia.
Qed.
