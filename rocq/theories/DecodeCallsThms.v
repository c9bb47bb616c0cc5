(** Proofs about the calls made by decode. *)

From Verif Require Import Base FlatTrie LevelTrie FastTrie ParallelFor Intersection Tries Calls DecodeCalls Facts ParForThms Tree
  Groups Reps Layout BuildFlat BuildLevel BuildFast WordBits Spec RoundTrip RoundTripFacts Compress
  WriteOnes CompressFast DecodeFast RunsFacts RunsThms SpecTries SpecMeasures SpecCalls SpecSpace NodeCount
  InterSpec InterSeq ParFacts InterPar InterPlan InterTop InterInst InterTight InterMain InterThms LayoutThms CallsThms
  CallsMain SpaceThms.

(** * The record changes nothing *)

Section Erase.
  Variables height stop : nat.
  Variable getNode : nat -> nat -> result N.
  Variable getLeft getRight : nat -> nat -> result nat.

  Lemma recursiveDecode_erase : forall fuel dec p id lvl c,
    drop (recursiveDecode_calls height stop getNode getLeft getRight fuel dec p id lvl c)
    = recursiveDecode height stop getNode getLeft getRight fuel dec p id lvl.
  Proof.
    induction fuel as [|fuel IH]; intros dec p id lvl c; cbn [recursiveDecode recursiveDecode_calls].
    - destruct (lvl =? stop); reflexivity.
    - destruct (lvl =? stop); [reflexivity|]. unfold drop.
      destruct (getNode id lvl) as [n| |]; cbn [bind]; [|reflexivity|reflexivity].
      destruct (N.eqb n 2 || N.eqb n 3)%bool.
      + destruct (getLeft id lvl) as [i| |]; cbn [bind]; [|reflexivity|reflexivity].
        rewrite <- (IH dec p i (S lvl) (c ++ [(lvl, p)])). unfold drop.
        destruct (recursiveDecode_calls _ _ _ _ _ _ dec _ _ _ _) as [[d1 c1]| |]; cbn [bind]; [|reflexivity|reflexivity].
        destruct (N.eqb n 1 || N.eqb n 3)%bool; [|reflexivity].
        destruct (shl1 _) as [b| |]; cbn [bind]; [|reflexivity|reflexivity].
        destruct (getRight id lvl) as [j| |]; cbn [bind]; [|reflexivity|reflexivity]. apply IH.
      + cbn [bind]. destruct (N.eqb n 1 || N.eqb n 3)%bool; [|reflexivity].
        destruct (shl1 _) as [b| |]; cbn [bind]; [|reflexivity|reflexivity].
        destruct (getRight id lvl) as [j| |]; cbn [bind]; [|reflexivity|reflexivity]. apply IH.
  Qed.

  Lemma runsRecursiveDecode_erase : forall fuel dec p id lvl c,
    drop (runsRecursiveDecode_calls height stop getNode getLeft getRight fuel dec p id lvl c)
    = runsRecursiveDecode height stop getNode getLeft getRight fuel dec p id lvl.
  Proof.
    induction fuel as [|fuel IH]; intros dec p id lvl c; cbn [runsRecursiveDecode runsRecursiveDecode_calls].
    - destruct (lvl =? stop); reflexivity.
    - destruct (lvl =? stop); [reflexivity|]. unfold drop.
      destruct (getNode id lvl) as [n| |]; cbn [bind]; [|reflexivity|reflexivity].
      destruct (N.eqb n 0). { destruct (shl1 _); reflexivity. }
      destruct (N.eqb n 2 || N.eqb n 3)%bool.
      + destruct (getLeft id lvl) as [i| |]; cbn [bind]; [|reflexivity|reflexivity].
        rewrite <- (IH dec p i (S lvl) (c ++ [(lvl, p)])). unfold drop.
        destruct (runsRecursiveDecode_calls _ _ _ _ _ _ dec _ _ _ _) as [[d1 c1]| |]; cbn [bind]; [|reflexivity|reflexivity].
        destruct (N.eqb n 1 || N.eqb n 3)%bool; [|reflexivity].
        destruct (shl1 _) as [b| |]; cbn [bind]; [|reflexivity|reflexivity].
        destruct (getRight id lvl) as [j| |]; cbn [bind]; [|reflexivity|reflexivity]. apply IH.
      + cbn [bind]. destruct (N.eqb n 1 || N.eqb n 3)%bool; [|reflexivity].
        destruct (shl1 _) as [b| |]; cbn [bind]; [|reflexivity|reflexivity].
        destruct (getRight id lvl) as [j| |]; cbn [bind]; [|reflexivity|reflexivity]. apply IH.
  Qed.
End Erase.

Theorem bin_decode_erase : forall t v, drop (bin_decode_calls t v) = bin_decode t v.
Proof.
  intros [t|t] v; cbn [bin_decode_calls bin_decode].
  - unfold flat_decode_calls, flat_decode. destruct (f_runs_encoded t).
    + destruct (f_empty_trie t); [reflexivity|apply runsRecursiveDecode_erase].
    + apply recursiveDecode_erase.
  - unfold level_decode_calls, level_decode. destruct (l_runs_encoded t).
    + destruct (l_empty_trie t); [reflexivity|apply runsRecursiveDecode_erase].
    + apply recursiveDecode_erase.
Qed.

Lemma fast_recursiveDecode_erase : forall t fuel dec p id lvl c,
  drop (fast_recursiveDecode_calls fuel t dec p id lvl c) = fast_recursiveDecode fuel t dec p id lvl.
Proof.
  intros t. induction fuel as [|fuel IH]; intros dec p id lvl c; cbn [fast_recursiveDecode fast_recursiveDecode_calls].
  - destruct (S lvl =? x_height t); [|reflexivity]. unfold drop.
    destruct (fast_getWord t id); cbn [bind]; [|reflexivity|reflexivity]. destruct (word_bits _ _ _ _ _); reflexivity.
  - destruct (S lvl =? x_height t); unfold drop.
    { destruct (fast_getWord t id); cbn [bind]; [|reflexivity|reflexivity]. destruct (word_bits _ _ _ _ _); reflexivity. }
    destruct (fast_getNode t id lvl) as [n| |]; cbn [bind]; [|reflexivity|reflexivity].
    destruct (N.eqb n 2 || N.eqb n 3)%bool.
    + destruct (fast_getLeftChild t id lvl) as [i| |]; cbn [bind]; [|reflexivity|reflexivity].
      rewrite <- (IH dec p i (S lvl) (c ++ [(lvl, p)])). unfold drop.
      destruct (fast_recursiveDecode_calls _ _ dec _ _ _ _) as [[d1 c1]| |]; cbn [bind]; [|reflexivity|reflexivity].
      destruct (N.eqb n 1 || N.eqb n 3)%bool; [|reflexivity].
      destruct (shl1 _) as [b| |]; cbn [bind]; [|reflexivity|reflexivity].
      destruct (fast_getRightChild t id lvl) as [j| |]; cbn [bind]; [|reflexivity|reflexivity]. apply IH.
    + cbn [bind]. destruct (N.eqb n 1 || N.eqb n 3)%bool; [|reflexivity].
      destruct (shl1 _) as [b| |]; cbn [bind]; [|reflexivity|reflexivity].
      destruct (fast_getRightChild t id lvl) as [j| |]; cbn [bind]; [|reflexivity|reflexivity]. apply IH.
Qed.

Lemma fast_runsRecursiveDecode_erase : forall t fuel dec p id lvl c,
  drop (fast_runsRecursiveDecode_calls fuel t dec p id lvl c) = fast_runsRecursiveDecode fuel t dec p id lvl.
Proof.
  intros t. induction fuel as [|fuel IH]; intros dec p id lvl c; cbn [fast_runsRecursiveDecode fast_runsRecursiveDecode_calls].
  - destruct (S lvl =? x_height t); [|reflexivity]. unfold drop.
    destruct (fast_getWord t id); cbn [bind]; [|reflexivity|reflexivity]. destruct (word_bits _ _ _ _ _); reflexivity.
  - destruct (S lvl =? x_height t); unfold drop.
    { destruct (fast_getWord t id); cbn [bind]; [|reflexivity|reflexivity]. destruct (word_bits _ _ _ _ _); reflexivity. }
    destruct (fast_getNode t id lvl) as [n| |]; cbn [bind]; [|reflexivity|reflexivity].
    destruct (N.eqb n 0). { destruct (shl1 _); reflexivity. }
    destruct (N.eqb n 2 || N.eqb n 3)%bool.
    + destruct (fast_getLeftChild t id lvl) as [i| |]; cbn [bind]; [|reflexivity|reflexivity].
      rewrite <- (IH dec p i (S lvl) (c ++ [(lvl, p)])). unfold drop.
      destruct (fast_runsRecursiveDecode_calls _ _ dec _ _ _ _) as [[d1 c1]| |]; cbn [bind]; [|reflexivity|reflexivity].
      destruct (N.eqb n 1 || N.eqb n 3)%bool; [|reflexivity].
      destruct (shl1 _) as [b| |]; cbn [bind]; [|reflexivity|reflexivity].
      destruct (fast_getRightChild t id lvl) as [j| |]; cbn [bind]; [|reflexivity|reflexivity]. apply IH.
    + cbn [bind]. destruct (N.eqb n 1 || N.eqb n 3)%bool; [|reflexivity].
      destruct (shl1 _) as [b| |]; cbn [bind]; [|reflexivity|reflexivity].
      destruct (fast_getRightChild t id lvl) as [j| |]; cbn [bind]; [|reflexivity|reflexivity]. apply IH.
Qed.

Theorem fast_decode_erase : forall t v, drop (fast_decode_calls t v) = fast_decode t v.
Proof.
  intros t v. unfold fast_decode_calls, fast_decode. destruct (x_runs_encoded t).
  - unfold drop. destruct (oget (x_empty_trie t)) as [e| |]; cbn [bind]; [|reflexivity|reflexivity].
    destruct e; [reflexivity|]. apply fast_runsRecursiveDecode_erase.
  - apply fast_recursiveDecode_erase.
Qed.

(** * The calls, on an abstract tree *)

Section Walk.
  Context {A : Type}.
  Variable lg : nat.

  Fixpoint walk (d : nat) (t : tree A) (lvl : nat) (p : N) : calls :=
    (lvl, p) ::
    match t with
    | Leaf _ | Full => []
    | TL l => walk (pred d) l (S lvl) p
    | TR r => walk (pred d) r (S lvl) (p + pow2 (pred d + lg))
    | TB l r => walk (pred d) l (S lvl) p ++ walk (pred d) r (S lvl) (p + pow2 (pred d + lg))
    end.

  Lemma walk_visits : forall t d (X : forest (A := A)) lvl p, wf d t -> X 0 = Some t ->
    visits lg 1 d X lvl p = walk d t lvl p.
  Proof.
    induction t as [a| |l IHl|r IHr|l IHl r IHr]; intros d X lvl p W E; cbn [wf] in W.
    - subst d. reflexivity.
    - destruct d; cbn [visits walk]; auto. unfold none_left, drop_full. cbn [seq forallb]. rewrite E. reflexivity.
    - destruct W as (H0 & W). destruct d as [|d]; [lia|]. cbn [pred] in *. cbn [visits walk pred].
      assert (D : drop_full X 0 = Some (TL l)) by (unfold drop_full; rewrite E; auto).
      unfold none_left, all_left, all_right. cbn [seq forallb]. rewrite D. cbn [andb].
      rewrite app_nil_r. f_equal. apply IHl; auto. unfold lefts. rewrite D. auto.
    - destruct W as (H0 & W). destruct d as [|d]; [lia|]. cbn [pred] in *. cbn [visits walk pred].
      assert (D : drop_full X 0 = Some (TR r)) by (unfold drop_full; rewrite E; auto).
      unfold none_left, all_left, all_right. cbn [seq forallb]. rewrite D. cbn [andb app].
      f_equal. apply IHr; auto. unfold rights. rewrite D. auto.
    - destruct W as (H0 & W1 & W2). destruct d as [|d]; [lia|]. cbn [pred] in *. cbn [visits walk pred].
      assert (D : drop_full X 0 = Some (TB l r)) by (unfold drop_full; rewrite E; auto).
      unfold none_left, all_left, all_right. cbn [seq forallb]. rewrite D. cbn [andb].
      f_equal. f_equal; [apply IHl|apply IHr]; auto; unfold lefts, rights; rewrite D; auto.
  Qed.
End Walk.

Section BinWalk.
  Variable height : nat.
  Variable getNode : nat -> nat -> result N.
  Variable getLeft getRight : nat -> nat -> result nat.
  Hypothesis height64 : height <= 64.

  Let R := reps getNode getLeft getRight uok.

  Lemma recursiveDecode_walk : forall t d lvl id p dec c fuel,
    wf d t -> plain t -> lvl + d = height -> aligned d p -> d <= fuel -> R t lvl id ->
    recursiveDecode_calls height height getNode getLeft getRight fuel dec p id lvl c
    = Ok (dec ++ sel umem d t p, c ++ walk 0 d t lvl p).
  Proof.
    induction t; intros d lvl id p dec c fuel Hwf Hpl Hd Ha Hf Hr; cbn in Hwf, Hpl.
    - subst d. replace lvl with height by lia.
      destruct fuel; cbn [recursiveDecode_calls]; rewrite Nat.eqb_refl; reflexivity.
    - tauto.
    - destruct Hwf as (H0 & Hwf). destruct d as [|d]; [lia|]. cbn [pred] in *.
      destruct fuel as [|fuel]; [lia|]. cbn [recursiveDecode_calls].
      replace (lvl =? height) with false by (symmetry; apply Nat.eqb_neq; lia).
      destruct Hr as (Hn & i & Hc & Hr). rewrite Hn. cbn [bind N.eqb orb Pos.eqb].
      rewrite Hc. cbn [bind]. rewrite (IHt d) by (auto using aligned_S; lia).
      cbn [bind]. rewrite sel_TL by auto. cbn [walk pred]. rewrite <- app_assoc. auto.
    - destruct Hwf as (H0 & Hwf). destruct d as [|d]; [lia|]. cbn [pred] in *.
      destruct fuel as [|fuel]; [lia|]. cbn [recursiveDecode_calls].
      replace (lvl =? height) with false by (symmetry; apply Nat.eqb_neq; lia).
      destruct Hr as (Hn & i & Hc & Hr). rewrite Hn. cbn [bind N.eqb orb Pos.eqb].
      replace (height - lvl - 1) with d by lia.
      rewrite shl1_pow2 by lia. cbn [bind]. rewrite Hc. cbn [bind].
      rewrite lor_right by auto. rewrite (IHt d) by (auto using aligned_right; lia).
      rewrite sel_TR by auto. cbn [walk pred]. rewrite <- app_assoc, Nat.add_0_r. auto.
    - destruct Hwf as (H0 & Hwf1 & Hwf2). destruct d as [|d]; [lia|]. cbn [pred] in *.
      destruct Hpl as (P1 & P2).
      destruct fuel as [|fuel]; [lia|]. cbn [recursiveDecode_calls].
      replace (lvl =? height) with false by (symmetry; apply Nat.eqb_neq; lia).
      destruct Hr as (Hn & (i & Hc & Hr1 & _) & (i' & Hc' & Hr2)). rewrite Hn.
      cbn [bind N.eqb orb Pos.eqb]. rewrite Hc. cbn [bind].
      rewrite (IHt1 d) by (auto using aligned_S; lia). cbn [bind].
      replace (height - lvl - 1) with d by lia.
      rewrite shl1_pow2 by lia. cbn [bind]. rewrite Hc'. cbn [bind].
      rewrite lor_right by auto. rewrite (IHt2 d) by (auto using aligned_right; lia).
      rewrite sel_TB by auto. cbn [walk pred]. rewrite !app_assoc, <- !app_assoc, Nat.add_0_r. auto.
  Qed.

  Variable stop : nat.
  Hypothesis stop_le : stop <= height.
  Hypothesis height63 : height < 64.

  Lemma runsRecursiveDecode_walk : forall t d lvl id p dec c fuel,
    wf d t -> lvl + d = height -> lvl + nodelev t <= stop -> (is_leaf t = true -> lvl = stop) ->
    aligned d p -> d <= fuel -> R t lvl id ->
    runsRecursiveDecode_calls height stop getNode getLeft getRight fuel dec p id lvl c
    = Ok (dec ++ sel umem d t p, c ++ walk 0 d t lvl p).
  Proof.
    induction t; intros d lvl id p dec c fuel Hwf Hd Hst Hlf Ha Hf Hr; cbn in Hwf, Hst.
    - subst d. cbn in Hlf. rewrite Hlf by auto.
      destruct fuel; cbn [runsRecursiveDecode_calls]; rewrite Nat.eqb_refl; reflexivity.
    - destruct fuel as [|fuel]; [lia|]. cbn [runsRecursiveDecode_calls].
      replace (lvl =? stop) with false by (symmetry; apply Nat.eqb_neq; lia).
      cbn in Hr. rewrite Hr. cbn [bind N.eqb].
      replace (height - lvl) with d by lia. rewrite shl1_pow2 by lia. cbn [bind].
      rewrite push_range_aligned by auto. rewrite sel_Full. auto.
    - destruct Hwf as (H0 & Hwf). destruct d as [|d]; [lia|]. cbn [pred] in *.
      destruct fuel as [|fuel]; [lia|]. cbn [runsRecursiveDecode_calls].
      replace (lvl =? stop) with false by (symmetry; apply Nat.eqb_neq; lia).
      destruct Hr as (Hn & i & Hc & Hr). rewrite Hn. cbn [bind N.eqb orb Pos.eqb].
      rewrite Hc. cbn [bind]. rewrite (IHt d); auto using aligned_S; try lia.
      { cbn [bind]. rewrite sel_TL by auto. cbn [walk pred]. rewrite <- app_assoc. auto. }
      intros Hl. destruct t; try discriminate. cbn in *. lia.
    - destruct Hwf as (H0 & Hwf). destruct d as [|d]; [lia|]. cbn [pred] in *.
      destruct fuel as [|fuel]; [lia|]. cbn [runsRecursiveDecode_calls].
      replace (lvl =? stop) with false by (symmetry; apply Nat.eqb_neq; lia).
      destruct Hr as (Hn & i & Hc & Hr). rewrite Hn. cbn [bind N.eqb orb Pos.eqb].
      replace (height - lvl - 1) with d by lia.
      rewrite shl1_pow2 by lia. cbn [bind]. rewrite Hc. cbn [bind].
      rewrite lor_right by auto. rewrite (IHt d); auto using aligned_right; try lia.
      { rewrite sel_TR by auto. cbn [walk pred]. rewrite <- app_assoc, Nat.add_0_r. auto. }
      intros Hl. destruct t; try discriminate. cbn in *. lia.
    - destruct Hwf as (H0 & Hwf1 & Hwf2). destruct d as [|d]; [lia|]. cbn [pred] in *.
      destruct fuel as [|fuel]; [lia|]. cbn [runsRecursiveDecode_calls].
      replace (lvl =? stop) with false by (symmetry; apply Nat.eqb_neq; lia).
      destruct Hr as (Hn & (i & Hc & Hr1 & _) & (i' & Hc' & Hr2)). rewrite Hn.
      cbn [bind N.eqb orb Pos.eqb]. rewrite Hc. cbn [bind].
      rewrite (IHt1 d); auto using aligned_S; try lia.
      2:{ intros Hl. destruct t1; try discriminate. cbn in *. lia. }
      cbn [bind]. replace (height - lvl - 1) with d by lia.
      rewrite shl1_pow2 by lia. cbn [bind]. rewrite Hc'. cbn [bind].
      rewrite lor_right by auto. rewrite (IHt2 d); auto using aligned_right; try lia.
      2:{ intros Hl. destruct t2; try discriminate. cbn in *. lia. }
      rewrite sel_TB by auto. cbn [walk pred]. rewrite !app_assoc, <- !app_assoc, Nat.add_0_r. auto.
  Qed.
End BinWalk.

Section FastWalk.
  Variable t : fast.
  Let lw := x_lw t.
  Hypothesis Hlw : lw <= 6.

  Let R := reps (fast_getNode t) (fast_getLeftChild t) (fast_getRightChild t)
                (fun id w => fast_getWord t id = Ok w).
  Let small (w : N) : Prop := (w < 2 ^ pow2 lw)%N.

  Lemma fast_recursiveDecode_walk : forall T d lvl id p dec c fuel,
    wf d T -> plain T -> all_leaves small T ->
    lvl + d + 1 = x_height t -> lvl + d + lw = x_height_u t -> x_height_u t <= 64 ->
    aligned (d + lw) p -> d <= fuel -> R T lvl id ->
    fast_recursiveDecode_calls fuel t dec p id lvl c
    = Ok (dec ++ sel (wmem lw) (d + lw) T p, c ++ walk lw d T lvl p).
  Proof.
    induction T; intros d lvl id p dec c fuel Hwf Hpl Hsm Hh Hhu H64 Ha Hf Hr; cbn in Hwf, Hpl, Hsm.
    - subst d.
      assert (E : fast_recursiveDecode_calls fuel t dec p id lvl c =
                  let* w := fast_getWord t id in
                  let* dec := word_bits (word_fuel (x_lw t)) (x_lw t) w p dec in Ok (dec, c ++ [(lvl, p)])).
      { destruct fuel; cbn [fast_recursiveDecode_calls];
        replace (S lvl =? x_height t) with true by (symmetry; apply Nat.eqb_eq; lia); reflexivity. }
      rewrite E. cbn in Hr. rewrite Hr. cbn [bind]. fold lw. rewrite word_bits_spec by auto. reflexivity.
    - tauto.
    - destruct Hwf as (H0 & Hwf). destruct d as [|d]; [lia|]. cbn [pred Nat.add] in *.
      destruct fuel as [|fuel]; [lia|]. cbn [fast_recursiveDecode_calls].
      replace (S lvl =? x_height t) with false by (symmetry; apply Nat.eqb_neq; lia).
      destruct Hr as (Hn & i & Hc & Hr). rewrite Hn. cbn [bind N.eqb orb Pos.eqb].
      rewrite Hc. cbn [bind]. rewrite (IHT d) by (auto using aligned_S; lia).
      cbn [bind]. rewrite sel_TL by auto. cbn [walk pred]. rewrite <- app_assoc. auto.
    - destruct Hwf as (H0 & Hwf). destruct d as [|d]; [lia|]. cbn [pred Nat.add] in *.
      destruct fuel as [|fuel]; [lia|]. cbn [fast_recursiveDecode_calls].
      replace (S lvl =? x_height t) with false by (symmetry; apply Nat.eqb_neq; lia).
      destruct Hr as (Hn & i & Hc & Hr). rewrite Hn. cbn [bind N.eqb orb Pos.eqb].
      replace (x_height_u t - lvl - 1) with (d + lw) by lia.
      rewrite shl1_pow2 by lia. cbn [bind]. rewrite Hc. cbn [bind].
      rewrite lor_right by auto. rewrite (IHT d) by (auto using aligned_right; lia).
      rewrite sel_TR by auto. cbn [walk pred]. rewrite <- app_assoc. auto.
    - destruct Hwf as (H0 & Hwf1 & Hwf2). destruct d as [|d]; [lia|]. cbn [pred Nat.add] in *.
      destruct Hpl as (P1 & P2). destruct Hsm as (S1 & S2).
      destruct fuel as [|fuel]; [lia|]. cbn [fast_recursiveDecode_calls].
      replace (S lvl =? x_height t) with false by (symmetry; apply Nat.eqb_neq; lia).
      destruct Hr as (Hn & (i & Hc & Hr1 & _) & (i' & Hc' & Hr2)). rewrite Hn.
      cbn [bind N.eqb orb Pos.eqb]. rewrite Hc. cbn [bind].
      rewrite (IHT1 d) by (auto using aligned_S; lia). cbn [bind].
      replace (x_height_u t - lvl - 1) with (d + lw) by lia.
      rewrite shl1_pow2 by lia. cbn [bind]. rewrite Hc'. cbn [bind].
      rewrite lor_right by auto. rewrite (IHT2 d) by (auto using aligned_right; lia).
      rewrite sel_TB by auto. cbn [walk pred]. rewrite !app_assoc, <- !app_assoc. auto.
  Qed.

  Lemma fast_runsRecursiveDecode_walk : forall T d lvl id p dec c fuel,
    wf d T -> all_leaves small T ->
    lvl + d + 1 = x_height t -> lvl + d + lw = x_height_u t -> x_height_u t < 64 ->
    aligned (d + lw) p -> d <= fuel -> R T lvl id ->
    fast_runsRecursiveDecode_calls fuel t dec p id lvl c
    = Ok (dec ++ sel (wmem lw) (d + lw) T p, c ++ walk lw d T lvl p).
  Proof.
    induction T; intros d lvl id p dec c fuel Hwf Hsm Hh Hhu H64 Ha Hf Hr; cbn in Hwf, Hsm.
    - subst d.
      assert (E : fast_runsRecursiveDecode_calls fuel t dec p id lvl c =
                  let* w := fast_getWord t id in
                  let* dec := word_bits (word_fuel (x_lw t)) (x_lw t) w p dec in Ok (dec, c ++ [(lvl, p)])).
      { destruct fuel; cbn [fast_runsRecursiveDecode_calls];
        replace (S lvl =? x_height t) with true by (symmetry; apply Nat.eqb_eq; lia); reflexivity. }
      rewrite E. cbn in Hr. rewrite Hr. cbn [bind]. fold lw. rewrite word_bits_spec by auto. reflexivity.
    - destruct fuel as [|fuel]; [lia|]. cbn [fast_runsRecursiveDecode_calls].
      replace (S lvl =? x_height t) with false by (symmetry; apply Nat.eqb_neq; lia).
      cbn in Hr. rewrite Hr. cbn [bind N.eqb].
      replace (x_height_u t - lvl) with (d + lw) by lia.
      rewrite shl1_pow2 by lia. cbn [bind].
      rewrite push_range_aligned by auto. rewrite sel_Full. auto.
    - destruct Hwf as (H0 & Hwf). destruct d as [|d]; [lia|]. cbn [pred Nat.add] in *.
      destruct fuel as [|fuel]; [lia|]. cbn [fast_runsRecursiveDecode_calls].
      replace (S lvl =? x_height t) with false by (symmetry; apply Nat.eqb_neq; lia).
      destruct Hr as (Hn & i & Hc & Hr). rewrite Hn. cbn [bind N.eqb orb Pos.eqb].
      rewrite Hc. cbn [bind]. rewrite (IHT d) by (auto using aligned_S; lia).
      cbn [bind]. rewrite sel_TL by auto. cbn [walk pred]. rewrite <- app_assoc. auto.
    - destruct Hwf as (H0 & Hwf). destruct d as [|d]; [lia|]. cbn [pred Nat.add] in *.
      destruct fuel as [|fuel]; [lia|]. cbn [fast_runsRecursiveDecode_calls].
      replace (S lvl =? x_height t) with false by (symmetry; apply Nat.eqb_neq; lia).
      destruct Hr as (Hn & i & Hc & Hr). rewrite Hn. cbn [bind N.eqb orb Pos.eqb].
      replace (x_height_u t - lvl - 1) with (d + lw) by lia.
      rewrite shl1_pow2 by lia. cbn [bind]. rewrite Hc. cbn [bind].
      rewrite lor_right by auto. rewrite (IHT d) by (auto using aligned_right; lia).
      rewrite sel_TR by auto. cbn [walk pred]. rewrite <- app_assoc. auto.
    - destruct Hwf as (H0 & Hwf1 & Hwf2). destruct d as [|d]; [lia|]. cbn [pred Nat.add] in *.
      destruct Hsm as (S1 & S2).
      destruct fuel as [|fuel]; [lia|]. cbn [fast_runsRecursiveDecode_calls].
      replace (S lvl =? x_height t) with false by (symmetry; apply Nat.eqb_neq; lia).
      destruct Hr as (Hn & (i & Hc & Hr1 & _) & (i' & Hc' & Hr2)). rewrite Hn.
      cbn [bind N.eqb orb Pos.eqb]. rewrite Hc. cbn [bind].
      rewrite (IHT1 d) by (auto using aligned_S; lia). cbn [bind].
      replace (x_height_u t - lvl - 1) with (d + lw) by lia.
      rewrite shl1_pow2 by lia. cbn [bind]. rewrite Hc'. cbn [bind].
      rewrite lor_right by auto. rewrite (IHT2 d) by (auto using aligned_right; lia).
      rewrite sel_TB by auto. cbn [walk pred]. rewrite !app_assoc, <- !app_assoc. auto.
  Qed.
End FastWalk.

(** * Decoding from the layout *)

Lemma bin_make_walk : forall u h v enc s, height_of u = Ok h -> (2 <= u <= 2 ^ 48)%N ->
  1 <= h <= 48 -> (u <= pow2 h)%N -> ((3 <= u)%N -> 2 <= h) -> stored_ok u v enc s ->
  exists t, bin_make u v enc s = Ok t /\ repr lok_bin h h (bin_ops t) (bin_tree h enc s) /\
    (forall w, bin_decode_calls t w = Ok (w ++ s, walk 0 h (bin_tree h enc s) 0 0)).
Proof.
  intros u h v enc s Hh Hu H1 Hp H2 ((Hs & Hb & Hv) & Hne & Hm).
  assert (E := sel_is_set u h s Hp Hne Hs Hb). unfold bin_tree. set (T := tree_of unit_leaf 0 h s) in *.
  assert (Hpl : plain T) by apply tree_of_plain.
  unfold bin_make, bin_build. destruct v as [il|il].
  - destruct Hv as (H3 & _ & Hl). specialize (H2 H3).
    destruct (flat_build_layout s u h Hh) as (t & -> & L & Hre & He); auto; try lia.
    cbn [bind]. destruct enc.
    + assert (Em : nodelev (ucompress T) = h).
      { apply (deep_iff T h 0); auto using aligned_0; try lia. { apply L. }
        apply (mixed_block_iff u h s); auto. }
      destruct (flat_layout_runs t h T L Hpl Em) as (t' & Ht' & L' & Hre' & He').
      cbn [bin_encodeRuns]. rewrite Ht'. cbn [bind]. exists (BFlat t').
      split; auto. assert (R := flat_reps _ _ _ L'). destruct L' as (_ & W & EH & _). split.
      { split; [exact EH|]. split; auto. }
      intros w. cbn [bin_decode_calls]. unfold flat_decode_calls. rewrite Hre', He', He, EH.
      rewrite <- (app_nil_l (walk _ _ _ _ _)). assert (E' : sel umem h (ucompress T) 0 = s) by (rewrite ucompress_sel; auto). rewrite <- E'.
      apply runsRecursiveDecode_walk; auto using aligned_0; try lia.
      intros Hl'. destruct (ucompress T); try discriminate. cbn in W. lia.
    + exists (BFlat t). split; auto. assert (R := flat_reps _ _ _ L). destruct L as (_ & W & EH & _). split.
      { split; [exact EH|]. split; auto. }
      intros w. cbn [bin_decode_calls]. unfold flat_decode_calls. rewrite Hre, EH.
      rewrite <- (app_nil_l (walk _ _ _ _ _)). rewrite <- E.
      apply recursiveDecode_walk; auto using aligned_0; lia.
  - destruct (level_build_layout il s u h Hh) as (t & -> & L & Hre & He & _); auto; try lia.
    { apply below_short with (u := u); auto. lia. }
    fold T in L. cbn [bind]. destruct enc.
    + destruct (level_encodeRuns_spec _ _ _ L Hpl) as (t' & Ht' & L' & Hre' & Hhr & He' & _).
      cbn [bin_encodeRuns]. rewrite Ht'. cbn [bind]. exists (BLevel t').
      split; auto. assert (R := level_reps _ _ _ L'). assert (EH := level_height _ _ _ L').
      destruct L' as (_ & W & _). split.
      { split; [exact EH|]. split; auto. }
      intros w. cbn [bin_decode_calls]. unfold level_decode_calls. rewrite Hre', He', He, EH, Hhr.
      rewrite <- (app_nil_l (walk _ _ _ _ _)). assert (E' : sel umem h (ucompress T) 0 = s) by (rewrite ucompress_sel; auto). rewrite <- E'.
      assert (Hn := nodelev_le _ _ _ W).
      apply runsRecursiveDecode_walk; auto using aligned_0; try lia.
      intros Hl'. destruct (ucompress T); try discriminate. cbn in W. lia.
    + exists (BLevel t). split; auto. assert (R := level_reps _ _ _ L). assert (EH := level_height _ _ _ L).
      destruct L as (_ & W & _). split.
      { split; [exact EH|]. split; auto. }
      intros w. cbn [bin_decode_calls]. unfold level_decode_calls. rewrite Hre, EH.
      rewrite <- (app_nil_l (walk _ _ _ _ _)). rewrite <- E.
      apply recursiveDecode_walk; auto using aligned_0; lia.
Qed.

Lemma fast_make_walk : forall u hu lw jh je (enc : bool) s, height_of u = Ok hu ->
  lw <= 6 -> lw <= hu -> hu <= 48 -> (u <= pow2 hu)%N -> fast_ok u s -> (enc = true -> je = Some false) ->
  exists t, fast_make u lw jh je enc s = Ok t /\
    repr lok_fast (hu - lw) (S (hu - lw)) (fast_ops t) (fast_tree lw (hu - lw) enc s) /\
    (forall w, fast_decode_calls t w = Ok (w ++ s, walk lw (hu - lw) (fast_tree lw (hu - lw) enc s) 0 0)).
Proof.
  intros u hu lw jh je enc s Hh Hlw Hlh H48 Hp (Hne & Hs & Hb & Hl) Hj.
  destruct (fast_build_layout lw jh je s u hu Hh) as (t & Ht & L & E1 & E2 & Hre & Hje); auto; try lia.
  unfold fast_tree. set (T := tree_of (word_of lw) lw (hu - lw) s) in *.
  assert (Hall : all_leaves (fun w => w < 2 ^ pow2 lw)%N T).
  { apply all_leaves_tree_of. apply word_of_bound. }
  assert (E : sel (wmem lw) (hu - lw + lw) T 0 = s).
  { assert (D := distinct_fast_set lw (hu - lw) s Hne (increasing_nondecreasing _ Hs)).
    unfold distinct_fast in D.
    apply (is_set_of_unique s); [|apply is_set_of_self; auto]. apply D.
    replace (hu - lw + lw) with hu by lia. eapply below_within; eauto. }
  assert (Hpl : plain T) by apply tree_of_plain.
  unfold fast_make. rewrite Ht. cbn [bind]. destruct enc.
  - assert (Hx : x_height t = S (hu - lw)) by apply L.
    destruct (fast_encodeRuns_spec t T ltac:(rewrite Hx; exact L) Hpl) as (t' & Ht' & L' & El & Eu & Hre' & Hje').
    rewrite Ht'. rewrite Hx, E1 in L'. rewrite E1 in El. exists t'.
    split; auto. assert (R := fast_reps _ _ _ L'). destruct L' as (_ & W & EH & _). rewrite Nat.sub_succ, Nat.sub_0_r in W.
    split; [split; [exact EH|]; split; auto|].
    intros w. unfold fast_decode_calls. rewrite Hre', Hje', Hje, (Hj eq_refl). cbn [oget bind]. rewrite EH.
    rewrite <- (app_nil_l (walk _ _ _ _ _)). assert (E' : sel (wmem lw) (hu - lw + lw) (xcompress lw T) 0 = s) by (rewrite xcompress_sel; auto). rewrite <- E'. clear E E'. subst T. rewrite <- El in *.
    apply fast_runsRecursiveDecode_walk; auto using aligned_0; try lia.
    apply all_leaves_compress; auto.
  - exists t. split; auto. assert (R := fast_reps _ _ _ L). destruct L as (_ & W & EH & _). rewrite Nat.sub_succ, Nat.sub_0_r in W.
    split; [split; [exact EH|]; split; auto|].
    intros w. unfold fast_decode_calls. rewrite Hre, EH.
    rewrite <- (app_nil_l (walk _ _ _ _ _)). rewrite <- E. clear E. subst T. rewrite <- E1 in *.
    apply fast_recursiveDecode_walk; auto using aligned_0; try lia.
Qed.

(** * The same calls as the intersection of the trie alone *)

Lemma bin_alone : forall u x, (2 <= u <= 2 ^ 48)%N -> bitem_ok u x ->
  exists t c, make_bitem u x = Ok t /\ (forall w, bin_decode_calls t w = Ok (w ++ snd x, c)) /\
    forall hc (runs : bool), (1 <= hc)%N -> (runs = false -> snd (fst x) = false) ->
      exists r, Intersect_calls Bin hc [bin_ops t] runs = Ok (r, c).
Proof.
  intros u [[v enc] s] Hu Hx. destruct (height_of_spec u Hu) as (h & Hh & H1 & Hp & H2 & _).
  destruct (bin_make_walk u h v enc s Hh Hu H1 Hp H2 Hx) as (t & Ht & R & Hd).
  exists t, (walk 0 h (bin_tree h enc s) 0 0%N). split; auto. split; auto.
  intros hc runs Hhc Hr. cbn [fst snd] in Hr.
  assert (HR : Forall2 (repr lok_bin h h) [bin_ops t] [bin_tree h enc s]) by (constructor; auto).
  assert (W : wf h (bin_tree h enc s)) by apply R.
  rewrite <- (walk_visits 0 (bin_tree h enc s) h (forest_of [bin_tree h enc s])) by auto.
  apply (calls_visits lok_bin umem 0 h h Bin [bin_ops t] [bin_tree h enc s] true HR ltac:(cbn; lia)
    (bin_end h) (bin_tot h) ltac:(lia) ltac:(lia) (bin_last h) (bin_leaf h [bin_ops t]) hc Hhc runs).
  intros Hf. constructor; auto. rewrite (Hr Hf). apply tree_of_plain.
Qed.

Lemma fast_alone : forall u lw x, fast_universe u lw -> fitem_ok u x ->
  (f_enc x = true -> snd (fst (fst x)) = Some false) ->
  exists t c, make_fitem u lw x = Ok t /\ (forall w, fast_decode_calls t w = Ok (w ++ snd x, c)) /\
    forall hc (runs : bool), (1 <= hc)%N -> (runs = false -> f_enc x = false) ->
      exists r, Intersect_calls (Fast lw) hc [fast_ops t] runs = Ok (r, c).
Proof.
  intros u lw [[[jh je] enc] s] (Hlw & Hu) Hx Hj. unfold f_enc in *. cbn [fst snd] in *.
  assert (H8 : (2 ^ N.of_nat 3 <= 2 ^ N.of_nat lw)%N).
  { apply N.pow_le_mono_r; [lia|]. cbn in Hlw. lia. }
  change (2 ^ N.of_nat 3)%N with 8%N in H8.
  destruct (height_of_spec u ltac:(lia)) as (h & Hh & H1 & Hp & H2 & Hk).
  assert (Hlh : lw <= h).
  { destruct lw as [|lw]; [lia|]. change (2 ^ N.of_nat (S lw))%N with (pow2 (S lw)) in Hu.
    rewrite pow2_S in Hu. assert (lw < h) by (apply Hk; lia). lia. }
  assert (H6 : lw <= 6) by (cbn in Hlw; lia).
  destruct (fast_make_walk u h lw jh je enc s Hh H6 Hlh ltac:(lia) Hp Hx Hj) as (t & Ht & R & Hd).
  set (d := h - lw) in *. set (T := fast_tree lw d enc s) in *.
  exists t, (walk lw d T 0 0%N). split; auto. split; auto.
  intros hc runs Hhc Hr.
  assert (HR : Forall2 (repr lok_fast d (S d)) [fast_ops t] [T]) by (constructor; auto).
  assert (W : wf d T) by apply R.
  rewrite <- (walk_visits lw T d (forest_of [T])) by auto.
  apply (calls_visits lok_fast (wmem lw) lw d (S d) (Fast lw) [fast_ops t] [T] false HR ltac:(cbn; lia)
    (fast_end lw d) (fast_tot lw d) ltac:(lia) ltac:(lia) (fast_last d) (fast_leaf lw d H6 [fast_ops t]) hc Hhc runs).
  intros Hf. constructor; auto. unfold T. rewrite (Hr Hf). apply tree_of_plain.
Qed.

(** * The theorems *)

Lemma each_one : forall X Y (f : X -> result Y) x y, f x = Ok y -> each_ok f [x] = Ok [y].
Proof. intros X Y f x y E. unfold each_ok. cbn. rewrite E. reflexivity. Qed.

Lemma only_set : forall s r, increasing s -> is_intersection [s] r -> r = s.
Proof.
  intros s r Hs (Hr & Hi). apply sorted_unique; auto. intros y. rewrite Hi. split.
  - intros H. inversion H; auto.
  - intros H. constructor; auto.
Qed.

Theorem bin_decode_work : forall u x, (2 <= u <= 2 ^ 48)%N -> bitem_ok u x ->
  exists t c, make_bitem u x = Ok t /\ (forall v, bin_decode_calls t v = Ok (v ++ snd x, c)) /\
    NoDup c /\
    (forall m p, In (m, p) c <-> exists b q, call_at (digits u) m p b q /\ prefix_of_member (snd x) b q /\
       (m = 0 \/ ~ bin_run x b p)) /\
    length c <= 1 + digits u * length (snd x) /\
    (forall hc (runs : bool), (1 <= hc)%N -> (runs = false -> snd (fst x) = false) ->
       Intersect_calls Bin hc [bin_ops t] runs = Ok (snd x, c)).
Proof.
  intros u x Hu Hx. destruct (bin_alone u x Hu Hx) as (t & c & Ht & Hd & Hc).
  assert (Hs : increasing (snd x)) by apply Hx.
  assert (K : forall hc (runs : bool), (1 <= hc)%N -> (runs = false -> snd (fst x) = false) ->
    Intersect_calls Bin hc [bin_ops t] runs = Ok (snd x, c) /\ NoDup c /\
    (forall m p, In (m, p) c <-> exists b q, call_at (digits u) m p b q /\ common_prefix [snd x] b q /\
       (m = 0 \/ ~ Forall (fun x => bin_run x b p) [x])) /\
    Forall (fun s => length c <= 1 + digits u * length s) [snd x]).
  { intros hc runs Hhc Hr. destruct (Hc hc runs Hhc Hr) as (r & E).
    destruct (bin_calls u [x] runs in_order in_order hc Hu ltac:(cbn; lia) ltac:(constructor; auto)
      ltac:(intros Hf; constructor; auto) Hhc) as (Ts & r' & c' & E1 & E2 & _ & HI & Nd & Hin & Hl).
    rewrite (each_one _ _ _ _ _ Ht) in E1. injection E1 as <-. cbn [map] in *. rewrite E in E2.
    injection E2 as <- <-. rewrite (only_set _ _ Hs HI) in E. auto. }
  exists t, c. split; auto. split; auto.
  destruct (K 1%N true ltac:(lia) ltac:(discriminate)) as (_ & Nd & Hin & Hl). split; auto. split.
  { intros m p. rewrite Hin. unfold common_prefix.
    split; intros (b & q & H1 & H2 & H3); exists b, q; (split; [auto|]).
    - split; [inversion H2; auto|]. destruct H3 as [H3|H3]; auto.
    - split; [auto|]. destruct H3 as [H3|H3]; auto. right. intros F. inversion F; auto. }
  split; [inversion Hl; auto|]. intros hc runs Hhc Hr. apply K; auto.
Qed.

Theorem fast_decode_work : forall u lw x, fast_universe u lw -> fitem_ok u x ->
  (f_enc x = true -> snd (fst (fst x)) = Some false) ->
  exists t c, make_fitem u lw x = Ok t /\ (forall v, fast_decode_calls t v = Ok (v ++ snd x, c)) /\
    NoDup c /\
    (forall m p, In (m, p) c <-> exists b q, call_at (digits u) m p b q /\ lw <= b /\ prefix_of_member (snd x) b q /\
       (m = 0 \/ ~ fast_run x b p)) /\
    length c <= 1 + (digits u - lw) * length (snd x) /\
    (forall hc (runs : bool), (1 <= hc)%N -> (runs = false -> f_enc x = false) ->
       Intersect_calls (Fast lw) hc [fast_ops t] runs = Ok (snd x, c)).
Proof.
  intros u lw x Hu Hx Hj. destruct (fast_alone u lw x Hu Hx Hj) as (t & c & Ht & Hd & Hc).
  assert (Hs : increasing (snd x)) by apply Hx.
  assert (K : forall hc (runs : bool), (1 <= hc)%N -> (runs = false -> f_enc x = false) ->
    Intersect_calls (Fast lw) hc [fast_ops t] runs = Ok (snd x, c) /\ NoDup c /\
    (forall m p, In (m, p) c <-> exists b q, call_at (digits u) m p b q /\ lw <= b /\ common_prefix [snd x] b q /\
       (m = 0 \/ ~ Forall (fun x => fast_run x b p) [x])) /\
    Forall (fun s => length c <= 1 + (digits u - lw) * length s) [snd x]).
  { intros hc runs Hhc Hr. destruct (Hc hc runs Hhc Hr) as (r & E).
    destruct (fast_calls u lw [x] runs in_order in_order hc Hu ltac:(cbn; lia) ltac:(constructor; auto)
      ltac:(intros Hf; constructor; auto) Hhc) as (Ts & r' & c' & E1 & E2 & _ & HI & Nd & Hin & Hl).
    rewrite (each_one _ _ _ _ _ Ht) in E1. injection E1 as <-. cbn [map] in *. rewrite E in E2.
    injection E2 as <- <-. rewrite (only_set _ _ Hs HI) in E. auto. }
  exists t, c. split; auto. split; auto.
  destruct (K 1%N true ltac:(lia) ltac:(discriminate)) as (_ & Nd & Hin & Hl). split; auto. split.
  { intros m p. rewrite Hin. unfold common_prefix.
    split; intros (b & q & H1 & Hb & H2 & H3); exists b, q; (split; [auto|split; [auto|]]).
    - split; [inversion H2; auto|]. destruct H3 as [H3|H3]; auto.
    - split; [auto|]. destruct H3 as [H3|H3]; auto. right. intros F. inversion F; auto. }
  split; [inversion Hl; auto|]. intros hc runs Hhc Hr. apply K; auto.
Qed.

(** ** Runs *)

Theorem bin_decode_run_work : forall u x R, (2 <= u <= 2 ^ 48)%N -> bitem_ok u x -> snd (fst x) = true ->
  union_of R (snd x) ->
  exists t c, make_bitem u x = Ok t /\ (forall v, bin_decode_calls t v = Ok (v ++ snd x, c)) /\
    length c <= 1 + 4 * (digits u + 1) * length R.
Proof.
  intros u x R Hu Hx He HR. destruct (bin_decode_work u x Hu Hx) as (t & c & Ht & Hd & _ & _ & _ & Hi).
  exists t, c. split; auto. split; auto.
  destruct (bin_run_work u [x] [R] in_order in_order 1%N Hu ltac:(cbn; lia) ltac:(constructor; auto)
    ltac:(constructor; auto) ltac:(lia) ltac:(constructor; auto)) as (Ts & r & c' & E1 & E2 & _ & _ & L).
  rewrite (each_one _ _ _ _ _ Ht) in E1. injection E1 as <-. cbn [map list_sum fold_right] in *.
  rewrite (Hi 1%N true ltac:(lia) ltac:(discriminate)) in E2. injection E2 as <- <-.
  rewrite Nat.add_0_r in L. exact L.
Qed.

Theorem fast_decode_run_work : forall u lw x R, fast_universe u lw -> fitem_ok u x ->
  f_enc x = true -> snd (fst (fst x)) = Some false -> union_of R (snd x) ->
  exists t c, make_fitem u lw x = Ok t /\ (forall v, fast_decode_calls t v = Ok (v ++ snd x, c)) /\
    length c <= 1 + 4 * (digits u - lw) * length R.
Proof.
  intros u lw x R Hu Hx He Hj HR.
  destruct (fast_decode_work u lw x Hu Hx (fun _ => Hj)) as (t & c & Ht & Hd & _ & _ & _ & Hi).
  exists t, c. split; auto. split; auto.
  destruct (fast_run_work u lw [x] [R] in_order in_order 1%N Hu ltac:(cbn; lia) ltac:(constructor; auto)
    ltac:(constructor; auto) ltac:(lia) ltac:(constructor; auto)) as (Ts & r & c' & E1 & E2 & _ & _ & L).
  rewrite (each_one _ _ _ _ _ Ht) in E1. injection E1 as <-. cbn [map list_sum fold_right] in *.
  rewrite (Hi 1%N true ltac:(lia) ltac:(discriminate)) in E2. injection E2 as <- <-.
  rewrite Nat.add_0_r in L. exact L.
Qed.

(** * Tries marked as empty *)

Lemma no_bits_no_calls : forall h, 1 <= h ->
  exists t, flat_from_ones (repeat [] h) h (repeat 0 h) true = Ok t /\
    forall v, bin_decode_calls (BFlat t) v = Ok (v, []).
Proof.
  intros h Hh. destruct (flat_from_empty_ex h true Hh) as (t & Et & E1 & _).
  exists t. split; auto. intros v. cbn [bin_decode_calls]. unfold flat_decode_calls.
  assert (R : f_runs_encoded t = true).
  { revert Et. clear. unfold flat_from_ones. intros Et.
    apply bind_inv in Et. destruct Et as (((a & b) & c) & _ & Et).
    apply bind_inv in Et. destruct Et as (p & _ & Et).
    apply bind_inv in Et. destruct Et as (((x & y) & z) & _ & Et). injection Et as <-. reflexivity. }
  rewrite R, E1. reflexivity.
Qed.

Lemma fast_vanish_no_calls : forall lw jh u s, In lw [3; 4; 5; 6] ->
  (2 ^ N.of_nat lw < 2 * u <= 2 * 2 ^ 48)%N ->
  s <> [] -> increasing s -> below u s -> shorter 32 s ->
  exists t t', fast_build lw jh (Some true) s u = Ok t /\ fast_encodeRuns t = Ok t' /\
    forall v, fast_decode_calls t' v = Ok (v, []).
Proof.
  intros lw jh u s Hlw Hu Hne Hs Hb Hl.
  destruct (fast_built lw jh (Some true) u s Hlw Hu Hne Hs Hb Hl)
    as (d & t & Ht & Hd & Hp & L & Hpl & Hr & He & E1 & E2 & Hal & E).
  assert (Hx : x_height t = S d) by apply L.
  destruct (fast_encodeRuns_spec t _ ltac:(rewrite Hx; exact L) Hpl) as (t' & Ht' & L' & F1 & F2 & F3 & F4).
  exists t, t'. repeat split; auto. intros v. unfold fast_decode_calls. rewrite F3, F4, He. reflexivity.
Qed.
