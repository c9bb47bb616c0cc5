(** Proofs about the calls made by encodeRuns. *)

From Verif Require Import Base FlatTrie LevelTrie FastTrie ParallelFor Intersection Tries Calls DecodeCalls EncodeCalls Facts ParForThms Tree
  Groups Reps Layout BuildFlat BuildLevel BuildFast WordBits Spec RoundTrip RoundTripFacts Compress
  WriteOnes CompressFast DecodeFast RunsFacts RunsThms SpecTries SpecMeasures SpecCalls SpecSpace NodeCount
  InterSpec InterSeq ParFacts InterPar InterPlan InterTop InterInst InterTight InterMain InterThms LayoutThms CallsThms
  CallsMain SpaceThms DecodeCallsThms.

(** * The record changes nothing *)

Section Erase.
  Variable height : nat.
  Variable getNode : nat -> nat -> result N.
  Variable getLeft getRight : nat -> nat -> result nat.

  Ltac step n := match goal with
    | |- context [bind ?m _] => destruct m as [n| |]; cbn [bind]; [|reflexivity|reflexivity]
    end.

  Lemma writeCompress_erase : forall fuel st lvl id b p c,
    drop (writeCompressTrie_calls height getNode getLeft getRight fuel st lvl id b p c)
    = writeCompressTrie height getNode getLeft getRight fuel st lvl id b.
  Proof.
    induction fuel as [|fuel IH]; intros st lvl id b p c; cbn [writeCompressTrie writeCompressTrie_calls]; [reflexivity|].
    unfold drop in *. step nd. destruct (S lvl =? height). { destruct (wc_leaf _ _ _ _) as [[? ?]| |]; reflexivity. }
    step x0. destruct (N.eqb nd 3).
    { step i. rewrite <- (IH st (S lvl) i false p (c ++ [(lvl, p)])).
      destruct (writeCompressTrie_calls _ _ _ _ _ _ _ i _ _ _) as [[[st1 b1] c1]| |]; cbn [bind]; [|reflexivity|reflexivity].
      rewrite <- (IH st1 (S lvl) (i + 1) false (p + 2 ^ N.of_nat (height - lvl - 1))%N c1).
      destruct (writeCompressTrie_calls _ _ _ _ _ _ _ (i + 1) _ _ _) as [[[st2 b2] c2]| |]; cbn [bind]; [|reflexivity|reflexivity].
      step x1. step x2. reflexivity. }
    destruct (N.eqb nd 2).
    { step i. step x1. step w. rewrite <- (IH w (S lvl) i false p (c ++ [(lvl, p)])).
      destruct (writeCompressTrie_calls _ _ _ _ _ _ _ i _ _ _) as [[[st1 b1] c1]| |]; cbn [bind]; [|reflexivity|reflexivity].
      step x2. step x3. reflexivity. }
    destruct (N.eqb nd 1); [|reflexivity].
    step x1. step i. step x2. step w.
    rewrite <- (IH w (S lvl) i false (p + 2 ^ N.of_nat (height - lvl - 1))%N (c ++ [(lvl, p)])).
    destruct (writeCompressTrie_calls _ _ _ _ _ _ _ i _ _ _) as [[[st1 b1] c1]| |]; cbn [bind]; [|reflexivity|reflexivity].
    step x3. reflexivity.
  Qed.

  Lemma compress_run_erase :
    drop (compress_run_calls height getNode getLeft getRight) = compress_run height getNode getLeft getRight.
  Proof.
    unfold compress_run_calls, compress_run.
    rewrite <- (writeCompress_erase (S height) (repeat [] height, repeat 0 height) 0 0 false 0%N []). unfold drop.
    destruct (writeCompressTrie_calls _ _ _ _ _ _ _ _ _ _ _) as [[[st b] c]| |]; reflexivity.
  Qed.
End Erase.

Theorem bin_encode_erase : forall t, drop (bin_encodeRuns_calls t) = bin_encodeRuns t.
Proof.
  intros [t|t]; cbn [bin_encodeRuns_calls bin_encodeRuns]; unfold drop.
  - unfold flat_encodeRuns_calls, flat_encodeRuns. rewrite <- compress_run_erase. unfold drop.
    destruct (compress_run_calls _ _ _ _) as [[st c]| |]; cbn [bind]; [|reflexivity|reflexivity].
    destruct (flat_writeOnes t st); reflexivity.
  - unfold level_encodeRuns_calls, level_encodeRuns. rewrite <- compress_run_erase. unfold drop.
    destruct (compress_run_calls _ _ _ _) as [[st c]| |]; cbn [bind]; [|reflexivity|reflexivity].
    destruct (level_writeOnes t st); reflexivity.
Qed.

Lemma fast_writeCompress_erase : forall t fuel st ws lvl id b p c,
  drop (fast_writeCompress_calls fuel t st ws lvl id b p c) = fast_writeCompress fuel t st ws lvl id b.
Proof.
  intros t.
  induction fuel as [|fuel IH]; intros st ws lvl id b p c; cbn [fast_writeCompress fast_writeCompress_calls]; [reflexivity|].
  unfold drop in *. destruct (S lvl =? x_height t).
  { destruct (fast_getWord t id); cbn [bind]; [|reflexivity|reflexivity].
    destruct (vget (snd st) lvl); cbn [bind]; [|reflexivity|reflexivity].
    destruct (push_one st lvl _); reflexivity. }
  destruct (fast_getNode t id lvl); cbn [bind]; [|reflexivity|reflexivity].
  destruct (vget (snd st) (S lvl)); cbn [bind]; [|reflexivity|reflexivity].
  destruct (N.eqb _ 3).
  { destruct (fast_getLeftChild t id lvl) as [i| |]; cbn [bind]; [|reflexivity|reflexivity].
    rewrite <- (IH st ws (S lvl) i false p (c ++ [(lvl, p)])).
    destruct (fast_writeCompress_calls _ _ _ _ _ i _ _ _) as [[[[st1 w1] b1] c1]| |]; cbn [bind]; [|reflexivity|reflexivity].
    rewrite <- (IH st1 w1 (S lvl) (i + 1) false (p + 2 ^ N.of_nat (x_height_u t - lvl - 1))%N c1).
    destruct (fast_writeCompress_calls _ _ _ _ _ (i + 1) _ _ _) as [[[[st2 w2] b2] c2]| |]; cbn [bind]; [|reflexivity|reflexivity].
    match goal with |- context [bind ?m _] => destruct m as [[st3 w3]| |]; cbn [bind]; [|reflexivity|reflexivity] end.
    destruct (add_pos _ _ _); reflexivity. }
  destruct (N.eqb _ 2).
  { destruct (fast_getLeftChild t id lvl) as [i| |]; cbn [bind]; [|reflexivity|reflexivity].
    destruct (vget (snd st) lvl); cbn [bind]; [|reflexivity|reflexivity].
    destruct (push_one st lvl _) as [st0| |]; cbn [bind]; [|reflexivity|reflexivity].
    rewrite <- (IH st0 ws (S lvl) i false p (c ++ [(lvl, p)])).
    destruct (fast_writeCompress_calls _ _ _ _ _ i _ _ _) as [[[[st1 w1] b1] c1]| |]; cbn [bind]; [|reflexivity|reflexivity].
    destruct (add_pos st1 _ _) as [st2| |]; cbn [bind]; [|reflexivity|reflexivity].
    destruct (add_pos st2 _ _); reflexivity. }
  destruct (N.eqb _ 1); [|reflexivity].
  destruct (add_pos st _ _) as [st3| |]; cbn [bind]; [|reflexivity|reflexivity].
  destruct (fast_getRightChild t id lvl) as [i| |]; cbn [bind]; [|reflexivity|reflexivity].
  destruct (vget (snd st3) lvl); cbn [bind]; [|reflexivity|reflexivity].
  destruct (push_one st3 lvl _) as [st0| |]; cbn [bind]; [|reflexivity|reflexivity].
  rewrite <- (IH st0 ws (S lvl) i false (p + 2 ^ N.of_nat (x_height_u t - lvl - 1))%N (c ++ [(lvl, p)])).
  destruct (fast_writeCompress_calls _ _ _ _ _ i _ _ _) as [[[[st1 w1] b1] c1]| |]; cbn [bind]; [|reflexivity|reflexivity].
  destruct (add_pos st1 _ _); reflexivity.
Qed.

Theorem fast_encode_erase : forall t, drop (fast_encodeRuns_calls t) = fast_encodeRuns t.
Proof.
  intros t. unfold fast_encodeRuns_calls, fast_encodeRuns.
  rewrite <- (fast_writeCompress_erase t _ _ _ _ _ _ 0%N []). unfold drop.
  destruct (fast_writeCompress_calls _ _ _ _ _ _ _ _ _) as [[[[st1 w1] b1] c1]| |]; cbn [bind]; [|reflexivity|reflexivity].
  destruct (fast_writeOnes t st1 w1); reflexivity.
Qed.

(** * The calls, on an abstract tree *)

Section BinWalk.
  Variable height : nat.
  Variable getNode : nat -> nat -> result N.
  Variable getLeft getRight : nat -> nat -> result nat.

  Let R := reps getNode getLeft getRight uok.

  Definition above (h : nat) (c : calls) : calls := filter (fun x => fst x <? h) c.

  Lemma above_cons : forall h l p c, l < h -> above h ((l, p) :: c) = (l, p) :: above h c.
  Proof.
    intros h l p c Hl. cbn [above filter fst]. replace (l <? h) with true by (symmetry; apply Nat.ltb_lt; auto). auto.
  Qed.

  Lemma above_app : forall h a b, above h (a ++ b) = above h a ++ above h b.
  Proof. intros. apply filter_app. Qed.

  Lemma above_leaf : forall (t : tree unit) lvl p, wf 0 t -> above lvl (walk 0 0 t lvl p) = [].
  Proof.
    intros t lvl p W. destruct t; cbn in W; try lia; cbn [walk above filter fst]; rewrite Nat.ltb_irrefl; auto.
  Qed.

  Lemma wc_calls_walk : forall t d lvl id st b p c fuel st' b' c',
    wf d t -> plain t -> 0 < d -> lvl + d = height -> R t lvl id ->
    writeCompressTrie_calls height getNode getLeft getRight fuel st lvl id b p c = Ok (st', b', c') ->
    c' = c ++ above height (walk 0 d t lvl p).
  Proof.
    assert (Hcode : forall t lvl id, R t lvl id -> is_leaf t = false ->
              getNode id lvl = Ok (node_code (has_left t) (has_right t))).
    { intros t lvl id Hr Hl. destruct t; try discriminate; cbn in Hr; try apply Hr; auto. }
    induction t as [a| |t IH|t IH|l IHl r IHr]; intros d lvl id st b p c fuel st' b' c' Hwf Hp Hd Hlv Hr E;
      try (cbn in Hwf, Hp; lia || tauto).
    - destruct fuel as [|fuel]; [discriminate|]. cbn [writeCompressTrie_calls] in E.
      rewrite (Hcode _ _ _ Hr eq_refl) in E. cbn [bind] in E.
      cbn [walk]. rewrite above_cons by lia.
      destruct Hr as (Hn & i & Hc & Hr). cbn in Hwf, Hp. destruct Hwf as (_ & Hwf).
      destruct (Nat.eqb_spec (S lvl) height) as [Eh|Eh].
      + apply bind_inv in E. destruct E as ((st1 & b1) & _ & E). injection E as _ _ <-.
        replace (pred d) with 0 in * by lia. rewrite <- Eh.
        rewrite above_leaf; auto.
      + apply bind_inv in E. destruct E as (x & _ & E).
        cbn [has_left has_right] in E. unfold node_code, b2N in E.
        cbn [N.shiftl N.lor N.eqb Pos.eqb Pos.lor Pos.shiftl Pos.iter orb] in E.
        rewrite Hc in E. cbn [bind] in E.
        apply bind_inv in E. destruct E as (x1 & _ & E). apply bind_inv in E. destruct E as (x2 & _ & E).
        apply bind_inv in E. destruct E as (((x3 & x4) & x5) & E1 & E).
        apply bind_inv in E. destruct E as (x6 & _ & E). apply bind_inv in E. destruct E as (x7 & _ & E).
        injection E as _ _ <-.
        apply (IH (pred d)) in E1; auto; try lia. rewrite E1, <- app_assoc. reflexivity.
    - destruct fuel as [|fuel]; [discriminate|]. cbn [writeCompressTrie_calls] in E.
      rewrite (Hcode _ _ _ Hr eq_refl) in E. cbn [bind] in E.
      cbn [walk]. rewrite above_cons by lia.
      destruct Hr as (Hn & i & Hc & Hr). cbn in Hwf, Hp. destruct Hwf as (_ & Hwf).
      destruct (Nat.eqb_spec (S lvl) height) as [Eh|Eh].
      + apply bind_inv in E. destruct E as ((st1 & b1) & _ & E). injection E as _ _ <-.
        replace (pred d) with 0 in * by lia. rewrite <- Eh.
        rewrite above_leaf; auto.
      + apply bind_inv in E. destruct E as (x & _ & E).
        cbn [has_left has_right] in E. unfold node_code, b2N in E.
        cbn [N.shiftl N.lor N.eqb Pos.eqb Pos.lor Pos.shiftl Pos.iter orb] in E.
        apply bind_inv in E. destruct E as (x0 & _ & E). rewrite Hc in E. cbn [bind] in E.
        apply bind_inv in E. destruct E as (x1 & _ & E). apply bind_inv in E. destruct E as (x2 & _ & E).
        apply bind_inv in E. destruct E as (((x3 & x4) & x5) & E1 & E).
        apply bind_inv in E. destruct E as (x6 & _ & E).
        injection E as _ _ <-. replace (height - lvl - 1) with (pred d + 0) in E1 by lia.
        apply (IH (pred d)) in E1; auto; try lia. rewrite E1, <- app_assoc. reflexivity.
    - destruct fuel as [|fuel]; [discriminate|]. cbn [writeCompressTrie_calls] in E.
      rewrite (Hcode _ _ _ Hr eq_refl) in E. cbn [bind] in E.
      cbn [walk]. rewrite above_cons by lia.
      destruct Hr as (Hn & (i & Hc & Hr1 & Hr2) & _). cbn in Hwf, Hp. destruct Hwf as (_ & W1 & W2), Hp as (P1 & P2).
      destruct (Nat.eqb_spec (S lvl) height) as [Eh|Eh].
      + apply bind_inv in E. destruct E as ((st1 & b1) & _ & E). injection E as _ _ <-.
        replace (pred d) with 0 in * by lia. rewrite <- Eh.
       
        rewrite above_app, !above_leaf; auto.
      + apply bind_inv in E. destruct E as (x & _ & E).
        cbn [has_left has_right] in E. unfold node_code, b2N in E.
        cbn [N.shiftl N.lor N.eqb Pos.eqb Pos.lor Pos.shiftl Pos.iter orb] in E.
        rewrite Hc in E. cbn [bind] in E.
        apply bind_inv in E. destruct E as (((x1 & x2) & x3) & E1 & E).
        apply bind_inv in E. destruct E as (((y1 & y2) & y3) & E2 & E).
        apply bind_inv in E. destruct E as (z1 & _ & E). apply bind_inv in E. destruct E as (z2 & _ & E).
        injection E as _ _ <-. replace (height - lvl - 1) with (pred d + 0) in E2 by lia.
        apply (IHl (pred d)) in E1; auto; try lia. apply (IHr (pred d)) in E2; auto; try lia.
        rewrite E2, E1, above_app, <- !app_assoc. reflexivity.
  Qed.

  Lemma compress_run_calls_spec : forall t, wf height t -> plain t -> 0 < height -> R t 0 0 ->
    exists st, compress_run height getNode getLeft getRight = Ok st /\
      compress_run_calls height getNode getLeft getRight = Ok (st, above height (walk 0 height t 0 0)).
  Proof.
    intros t W P H0 Hr. assert (E := compress_run_spec height getNode getLeft getRight t W P H0 Hr).
    assert (E' := compress_run_erase height getNode getLeft getRight). rewrite E in *.
    eexists. split; [reflexivity|]. unfold compress_run_calls in *.
    destruct (writeCompressTrie_calls _ _ _ _ _ _ _ _ _ _ _) as [[[st b] c]| |] eqn:Ec; cbn [bind drop] in E'; try discriminate.
    unfold drop in E'. cbn [bind] in E'. injection E' as ->. cbn [bind].
    apply (wc_calls_walk t height) in Ec; auto. subst c. reflexivity.
  Qed.
End BinWalk.

Section FastWalk.
  Variable t : fast.
  Let lw := x_lw t.
  Let h := x_height t.
  Let R := reps (fast_getNode t) (fast_getLeftChild t) (fast_getRightChild t)
                (fun id w => fast_getWord t id = Ok w).

  Lemma fast_wc_walk : forall T d lvl id st ws b p c fuel st' ws' b' c',
    wf d T -> plain T -> lvl + d + 1 = h -> lvl + d + lw = x_height_u t -> R T lvl id ->
    fast_writeCompress_calls fuel t st ws lvl id b p c = Ok (st', ws', b', c') ->
    c' = c ++ walk lw d T lvl p.
  Proof.
    induction T as [w| |T IH|T IH|l IHl r IHr]; intros d lvl id st ws b p c fuel st' ws' b' c' Hwf Hp Hlv Hu Hr E;
      (destruct fuel as [|fuel]; [discriminate|]); cbn [fast_writeCompress_calls] in E; fold h in E; cbn [walk].
    - cbn in Hwf. subst d. replace (S lvl =? h) with true in E by (symmetry; apply Nat.eqb_eq; lia).
      apply bind_inv in E. destruct E as (x0 & _ & E). apply bind_inv in E. destruct E as (x1 & _ & E).
      apply bind_inv in E. destruct E as (x2 & _ & E). injection E as _ _ _ <-. reflexivity.
    - cbn in Hp. tauto.
    - cbn in Hwf, Hp. destruct Hwf as (Hd & Hwf).
      replace (S lvl =? h) with false in E by (symmetry; apply Nat.eqb_neq; lia).
      destruct Hr as (Hn & i & Hc & Hr). rewrite Hn in E. cbn [bind] in E.
      apply bind_inv in E. destruct E as (x0 & _ & E). cbn [N.eqb Pos.eqb] in E.
      rewrite Hc in E. cbn [bind] in E. apply bind_inv in E. destruct E as (x1 & _ & E).
      apply bind_inv in E. destruct E as (x2 & _ & E).
      apply bind_inv in E. destruct E as ((((x3 & x4) & x5) & x6) & E1 & E).
      apply bind_inv in E. destruct E as (x7 & _ & E). apply bind_inv in E. destruct E as (x8 & _ & E).
      injection E as _ _ _ <-. apply (IH (pred d)) in E1; auto; try lia. rewrite E1, <- app_assoc. reflexivity.
    - cbn in Hwf, Hp. destruct Hwf as (Hd & Hwf).
      replace (S lvl =? h) with false in E by (symmetry; apply Nat.eqb_neq; lia).
      destruct Hr as (Hn & i & Hc & Hr). rewrite Hn in E. cbn [bind] in E.
      apply bind_inv in E. destruct E as (x0 & _ & E). cbn [N.eqb Pos.eqb] in E.
      apply bind_inv in E. destruct E as (x9 & _ & E).
      rewrite Hc in E. cbn [bind] in E. apply bind_inv in E. destruct E as (x1 & _ & E).
      apply bind_inv in E. destruct E as (x2 & _ & E).
      apply bind_inv in E. destruct E as ((((x3 & x4) & x5) & x6) & E1 & E).
      apply bind_inv in E. destruct E as (x7 & _ & E).
      injection E as _ _ _ <-. replace (x_height_u t - lvl - 1) with (pred d + lw) in E1 by lia.
      apply (IH (pred d)) in E1; auto; try lia. rewrite E1, <- app_assoc. reflexivity.
    - cbn in Hwf, Hp. destruct Hwf as (Hd & W1 & W2), Hp as (P1 & P2).
      replace (S lvl =? h) with false in E by (symmetry; apply Nat.eqb_neq; lia).
      destruct Hr as (Hn & (i & Hc & Hr1 & Hr2) & _). rewrite Hn in E. cbn [bind] in E.
      apply bind_inv in E. destruct E as (x0 & _ & E). cbn [N.eqb Pos.eqb] in E.
      rewrite Hc in E. cbn [bind] in E.
      apply bind_inv in E. destruct E as ((((x3 & x4) & x5) & x6) & E1 & E).
      apply bind_inv in E. destruct E as ((((y3 & y4) & y5) & y6) & E2 & E).
      apply bind_inv in E. destruct E as ((z1 & z2) & _ & E). apply bind_inv in E. destruct E as (x8 & _ & E).
      injection E as _ _ _ <-. replace (x_height_u t - lvl - 1) with (pred d + lw) in E2 by lia.
      apply (IHl (pred d)) in E1; auto; try lia. apply (IHr (pred d)) in E2; auto; try lia.
      rewrite E2, E1, <- !app_assoc. reflexivity.
  Qed.
End FastWalk.

(** * The theorems *)

Lemma drop_ok : forall A B (x : result (A * B)) a, drop x = Ok a -> exists b, x = Ok (a, b).
Proof.
  intros A B x a H. destruct x as [[a' b]| |]; cbn in H; try discriminate. injection H as ->. eauto.
Qed.

Lemma bin_encode_walk : forall u h v s, height_of u = Ok h -> (2 <= u <= 2 ^ 48)%N ->
  1 <= h <= 48 -> (u <= pow2 h)%N -> ((3 <= u)%N -> 2 <= h) -> stored_ok u v false s ->
  exists t t', bin_build v s u = Ok t /\ bin_encodeRuns t = Ok t' /\
    bin_encodeRuns_calls t = Ok (t', above h (walk 0 h (bin_tree h false s) 0 0)).
Proof.
  intros u h v s Hh Hu H1 Hp H2 Hx.
  destruct (bin_make_walk u h v false s Hh Hu H1 Hp H2 Hx) as (t & Ht & (HH & W & R) & _).
  unfold bin_make in Ht. apply bind_inv in Ht. destruct Ht as (t0 & Hb & Et). injection Et as ->.
  assert (P : plain (bin_tree h false s)) by apply tree_of_plain.
  assert (Henc : exists t', bin_encodeRuns t = Ok t').
  { destruct Hx as ((Hs & Hbl & Hv) & Hne & _). destruct v as [il|il]; cbn [bin_build] in Hb.
    - destruct Hv as (H3 & _ & Hl). destruct (flat_stored_runs u s ltac:(lia) Hne Hs Hbl Hl) as (tf & tf' & m & E1 & E2 & _).
      rewrite E1 in Hb. cbn [bind] in Hb. injection Hb as <-. cbn [bin_encodeRuns]. rewrite E2. eexists. reflexivity.
    - destruct (level_build_layout il s u h Hh) as (tl & E1 & L & _); auto; try lia.
      { apply below_short with (u := u); auto. lia. }
      rewrite E1 in Hb. cbn [bind] in Hb. injection Hb as <-. cbn [bin_encodeRuns].
      destruct (level_encodeRuns_spec _ _ _ L ltac:(apply tree_of_plain)) as (tl' & -> & _). eexists. reflexivity. }
  destruct Henc as (t' & Ht'). exists t, t'. split; auto. split; auto.
  assert (E := bin_encode_erase t). rewrite Ht' in E. apply drop_ok in E. destruct E as (c & E). rewrite E.
  destruct t as [t|t]; cbn [bin_encodeRuns_calls] in E; cbn in HH, R.
  - unfold flat_encodeRuns_calls in E. unfold flat_getHeight in HH.
    destruct (compress_run_calls_spec h (flat_getNode t) (flat_getLeftChild t) (flat_getRightChild t)
      (bin_tree h false s) W P ltac:(lia) R) as (st & _ & Ec). rewrite HH, Ec in E. cbn [bind] in E.
    destruct (flat_writeOnes t st); cbn [bind] in E; try discriminate. injection E as _ <-. reflexivity.
  - unfold level_encodeRuns_calls in E.
    destruct (compress_run_calls_spec h (level_getNode t) (level_getLeftChild t) (level_getRightChild t)
      (bin_tree h false s) W P ltac:(lia) R) as (st & _ & Ec). rewrite HH, Ec in E. cbn [bind] in E.
    destruct (level_writeOnes t st); cbn [bind] in E; try discriminate. injection E as _ <-. reflexivity.
Qed.

Lemma above_length : forall d (c : calls) s, NoDup s -> (forall x, In x s -> In (d, x) c) -> NoDup c ->
  length (above d c) + length s <= length c.
Proof.
  intros d c s Ns Hin Nc.
  assert (Hl : length (above d c) + length (filter (fun x => negb (fst x <? d)) c) = length c).
  { clear. unfold above. induction c as [|x c IH]; [reflexivity|]. cbn [filter]. destruct (fst x <? d); cbn [negb length]; lia. }
  assert (length s <= length (filter (fun x => negb (fst x <? d)) c)); [|lia].
  rewrite <- (map_length (fun x => (d, x)) s). apply NoDup_incl_length.
  - apply FinFun.Injective_map_NoDup; auto. intros x y E. injection E. auto.
  - intros y Hy. apply in_map_iff in Hy. destruct Hy as (x & <- & Hx). apply filter_In. split; auto.
    cbn [fst]. rewrite Nat.ltb_irrefl. auto.
Qed.

Theorem bin_encode_work : forall u v s, (2 <= u <= 2 ^ 48)%N -> stored_ok u v false s ->
  exists t t' c, bin_build v s u = Ok t /\ bin_encodeRuns t = Ok t' /\ bin_encodeRuns_calls t = Ok (t', c) /\
    NoDup c /\
    (forall m p, In (m, p) c <-> exists b q, call_at (digits u) m p b q /\ 1 <= b /\ prefix_of_member s b q) /\
    length c <= 1 + (digits u - 1) * length s /\
    (forall w, exists d, bin_decode_calls t w = Ok (w ++ s, d) /\ c = filter (fun x => fst x <? digits u) d).
Proof.
  intros u v s Hu Hx. destruct (height_of_spec u Hu) as (h & Hh & H1 & Hp & H2 & _).
  assert (Eh := height_digits u h ltac:(lia) Hh).
  destruct (bin_encode_walk u h v s Hh Hu H1 Hp H2 Hx) as (t & t' & Hb & He & Hc).
  destruct (bin_make_walk u h v false s Hh Hu H1 Hp H2 Hx) as (t1 & Ht1 & _ & Hd1).
  unfold bin_make in Ht1. rewrite Hb in Ht1. cbn [bind] in Ht1. injection Ht1 as <-.
  destruct (bin_decode_work u (v, false, s) Hu Hx) as (t2 & c2 & Ht2 & Hd2 & Nd & Hin & Hlen & _).
  unfold make_bitem, bin_make in Ht2. cbn [fst snd] in *. rewrite Hb in Ht2. cbn [bind] in Ht2. injection Ht2 as <-.
  specialize (Hd1 []). specialize (Hd2 []) as Hd2'. rewrite Hd2' in Hd1.
  apply (f_equal (fun x => match x with Ok y => snd y | _ => [] end)) in Hd1. cbv beta iota in Hd1.
  rewrite <- Eh in *. set (d := walk 0 h (bin_tree h false s) 0 0%N) in *. cbn [snd] in Hd1. subst c2.
  exists t, t', (above h d). split; auto. split; auto. split; auto.
  split; [apply NoDup_filter; auto|]. split; [|split].
  - intros m p. unfold above. rewrite filter_In, Hin. cbn [fst]. rewrite Nat.ltb_lt. split.
    + intros ((b & q & C & Pm & _) & Hm). exists b, q. split; auto. split; auto. destruct C. lia.
    + intros (b & q & C & H0 & Pm). split; [|destruct C; lia]. exists b, q. split; auto. split; auto.
      right. intros (F & _). discriminate.
  - assert (Hs : increasing s) by apply Hx.
    assert (A := above_length h d s). assert (length (above h d) + length s <= length d).
    { apply A; auto.
      - clear - Hs. induction Hs as [|x s0 Hs0 IH Hx]; constructor; auto. intros Hin.
        rewrite Forall_forall in Hx. specialize (Hx x Hin). lia.
      - intros x Hxs. apply Hin. exists 0, x. split; [split; [lia|]|split].
        + cbn. lia.
        + exists x. split; auto. cbn. rewrite N.div_1_r. auto.
        + right. intros (F & _). discriminate. }
    destruct h as [|h]; [lia|]. cbn [Nat.mul] in Hlen. rewrite Nat.sub_succ, Nat.sub_0_r. lia.
  - intros w. exists d. split; auto.
Qed.

Lemma fast_encode_walk : forall u hu lw jh je s, height_of u = Ok hu ->
  lw <= 6 -> lw <= hu -> hu <= 48 -> (u <= pow2 hu)%N -> fast_ok u s ->
  exists t t', fast_build lw jh je s u = Ok t /\ fast_encodeRuns t = Ok t' /\
    fast_encodeRuns_calls t = Ok (t', walk lw (hu - lw) (fast_tree lw (hu - lw) false s) 0 0).
Proof.
  intros u hu lw jh je s Hh Hlw Hlh H48 Hp (Hne & Hs & Hb & Hl).
  destruct (fast_build_layout lw jh je s u hu Hh) as (t & Ht & L & E1 & E2 & Hre & Hje); auto; try lia.
  unfold fast_tree. set (T := tree_of (word_of lw) lw (hu - lw) s) in *.
  assert (Hpl : plain T) by apply tree_of_plain.
  assert (Hx : x_height t = S (hu - lw)) by apply L.
  destruct (fast_encodeRuns_spec t T ltac:(rewrite Hx; exact L) Hpl) as (t' & Ht' & _).
  exists t, t'. split; auto. split; auto. assert (R := fast_reps _ _ _ L). destruct L as (_ & W & _).
  assert (E := fast_encode_erase t). rewrite Ht' in E. apply drop_ok in E. destruct E as (c & E). rewrite E.
  unfold fast_encodeRuns_calls in E.
  destruct (fast_writeCompress_calls _ _ _ _ _ _ _ _ _) as [[[[st ws] b] c']| |] eqn:Ec; cbn [bind] in E; try discriminate.
  destruct (fast_writeOnes t st ws); cbn [bind] in E; try discriminate. injection E as _ <-.
  rewrite Nat.sub_succ, Nat.sub_0_r in W.
  apply (fast_wc_walk t T (hu - lw)) in Ec; auto; try lia. rewrite Ec, E1. reflexivity.
Qed.

Theorem fast_encode_work : forall u lw jh je s, fast_universe u lw -> fast_ok u s ->
  exists t t' c, fast_build lw jh je s u = Ok t /\ fast_encodeRuns t = Ok t' /\ fast_encodeRuns_calls t = Ok (t', c) /\
    NoDup c /\
    (forall m p, In (m, p) c <-> exists b q, call_at (digits u) m p b q /\ lw <= b /\ prefix_of_member s b q) /\
    length c <= 1 + (digits u - lw) * length s /\
    (forall w, fast_decode_calls t w = Ok (w ++ s, c)).
Proof.
  intros u lw jh je s Hu Hx.
  destruct (fast_decode_work u lw (jh, je, false, s) Hu Hx ltac:(discriminate)) as (t2 & c2 & Ht2 & Hd2 & Nd & Hin & Hlen & _).
  destruct Hu as (Hlw & Hu).
  assert (H8 : (2 ^ N.of_nat 3 <= 2 ^ N.of_nat lw)%N).
  { apply N.pow_le_mono_r; [lia|]. cbn in Hlw. lia. }
  change (2 ^ N.of_nat 3)%N with 8%N in H8.
  destruct (height_of_spec u ltac:(lia)) as (h & Hh & H1 & Hp & H2 & Hk).
  assert (Hlh : lw <= h).
  { destruct lw as [|lw]; [lia|]. change (2 ^ N.of_nat (S lw))%N with (pow2 (S lw)) in Hu.
    rewrite pow2_S in Hu. assert (lw < h) by (apply Hk; lia). lia. }
  assert (H6 : lw <= 6) by (cbn in Hlw; lia).
  destruct (fast_encode_walk u h lw jh je s Hh H6 Hlh ltac:(lia) Hp Hx) as (t & t' & Hb & He & Hc).
  destruct (fast_make_walk u h lw jh je false s Hh H6 Hlh ltac:(lia) Hp Hx ltac:(discriminate)) as (t1 & Ht1 & _ & Hd1).
  unfold make_fitem, fast_make, f_enc in *. cbn [fst snd] in *. rewrite Hb in Ht1, Ht2. cbn [bind] in Ht1, Ht2.
  injection Ht1 as <-. injection Ht2 as <-.
  specialize (Hd1 []). specialize (Hd2 []) as Hd2'. rewrite Hd2' in Hd1.
  apply (f_equal (fun x => match x with Ok y => snd y | _ => [] end)) in Hd1. cbv beta iota in Hd1.
  set (d := walk lw (h - lw) (fast_tree lw (h - lw) false s) 0 0%N) in *. cbn [snd] in Hd1. subst c2.
  exists t, t', d. split; auto. split; auto. split; auto. split; auto. split; [|split; auto].
  intros m p. rewrite Hin. split.
  - intros (b & q & C & Hb' & Pm & _). exists b, q. auto.
  - intros (b & q & C & Hb' & Pm). exists b, q. split; auto. split; auto. split; auto.
    right. intros (F & _). discriminate.
Qed.
