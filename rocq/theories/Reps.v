(** When a trie object, seen through its methods, represents an abstract tree;
    correctness of decoding against that relation. *)

From Verif Require Import Base FlatTrie Facts Tree.

Section Reps.
  Context {A : Type}.
  Variable getNode : nat -> nat -> result N.
  Variable getLeft getRight : nat -> nat -> result nat.
  Variable leafok : nat -> A -> Prop.

  Fixpoint reps (t : tree A) (lvl id : nat) : Prop :=
    match t with
    | Leaf a => leafok id a
    | Full => getNode id lvl = Ok 0%N
    | TL l => getNode id lvl = Ok 2%N /\
              exists c, getLeft id lvl = Ok c /\ reps l (S lvl) c
    | TR r => getNode id lvl = Ok 1%N /\
              exists c, getRight id lvl = Ok c /\ reps r (S lvl) c
    | TB l r => getNode id lvl = Ok 3%N /\
                (exists c, getLeft id lvl = Ok c /\ reps l (S lvl) c /\ reps r (S lvl) (c + 1)) /\
                (exists c, getRight id lvl = Ok c /\ reps r (S lvl) c)
    end.
End Reps.

(** Node levels used by a tree. *)
Fixpoint nodelev {A} (t : tree A) : nat :=
  match t with
  | Leaf _ => 0
  | Full => 1
  | TL l => S (nodelev l)
  | TR r => S (nodelev r)
  | TB l r => S (max (nodelev l) (nodelev r))
  end.

Lemma nodelev_le : forall A (t : tree A) d, wf d t -> nodelev t <= d.
Proof.
  induction t; cbn; intros; try lia.
  - destruct H as (? & H). apply IHt in H. lia.
  - destruct H as (? & H). apply IHt in H. lia.
  - destruct H as (? & H & H'). apply IHt1 in H. apply IHt2 in H'. lia.
Qed.

Lemma nodelev_plain : forall A (t : tree A) d, wf d t -> plain t -> nodelev t = d.
Proof.
  induction t; cbn; intros d H P; try lia; try tauto.
  - destruct H as (? & H). apply IHt in H; auto. lia.
  - destruct H as (? & H). apply IHt in H; auto. lia.
  - destruct H as (? & H & H'). apply IHt1 in H; try tauto. apply IHt2 in H'; try tauto. lia.
Qed.

(** * Leaves of flat and level-wise tries *)

Definition umem (a : unit) (x : N) : bool := true.
Definition uok (id : nat) (a : unit) : Prop := True.

Section Decode.
  Variable height : nat.
  Variable getNode : nat -> nat -> result N.
  Variable getLeft getRight : nat -> nat -> result nat.
  Hypothesis height64 : height <= 64.

  Let R := reps getNode getLeft getRight uok.

  Lemma recursiveDecode_spec : forall t d lvl id p dec fuel,
    wf d t -> plain t -> lvl + d = height -> aligned d p -> d <= fuel -> R t lvl id ->
    recursiveDecode height height getNode getLeft getRight fuel dec p id lvl
    = Ok (dec ++ sel umem d t p).
  Proof.
    induction t; intros d lvl id p dec fuel Hwf Hpl Hd Ha Hf Hr; cbn in Hwf, Hpl.
    - subst d. replace lvl with height by lia.
      destruct fuel; cbn [recursiveDecode]; rewrite Nat.eqb_refl; reflexivity.
    - tauto.
    - destruct Hwf as (H0 & Hwf). destruct d as [|d]; [lia|]. cbn [pred] in *.
      destruct fuel as [|fuel]; [lia|]. cbn [recursiveDecode].
      replace (lvl =? height) with false by (symmetry; apply Nat.eqb_neq; lia).
      destruct Hr as (Hn & c & Hc & Hr). rewrite Hn. cbn [bind N.eqb orb Pos.eqb].
      rewrite Hc. cbn [bind]. rewrite (IHt d) by (auto using aligned_S; lia).
      cbn [bind]. rewrite sel_TL by auto. auto.
    - destruct Hwf as (H0 & Hwf). destruct d as [|d]; [lia|]. cbn [pred] in *.
      destruct fuel as [|fuel]; [lia|]. cbn [recursiveDecode].
      replace (lvl =? height) with false by (symmetry; apply Nat.eqb_neq; lia).
      destruct Hr as (Hn & c & Hc & Hr). rewrite Hn. cbn [bind N.eqb orb Pos.eqb].
      replace (height - lvl - 1) with d by lia.
      rewrite shl1_pow2 by lia. cbn [bind]. rewrite Hc. cbn [bind].
      rewrite lor_right by auto. rewrite (IHt d) by (auto using aligned_right; lia).
      rewrite sel_TR by auto. auto.
    - destruct Hwf as (H0 & Hwf1 & Hwf2). destruct d as [|d]; [lia|]. cbn [pred] in *.
      destruct Hpl as (P1 & P2).
      destruct fuel as [|fuel]; [lia|]. cbn [recursiveDecode].
      replace (lvl =? height) with false by (symmetry; apply Nat.eqb_neq; lia).
      destruct Hr as (Hn & (c & Hc & Hr1 & _) & (c' & Hc' & Hr2)). rewrite Hn.
      cbn [bind N.eqb orb Pos.eqb]. rewrite Hc. cbn [bind].
      rewrite (IHt1 d) by (auto using aligned_S; lia). cbn [bind].
      replace (height - lvl - 1) with d by lia.
      rewrite shl1_pow2 by lia. cbn [bind]. rewrite Hc'. cbn [bind].
      rewrite lor_right by auto. rewrite (IHt2 d) by (auto using aligned_right; lia).
      rewrite sel_TB by auto. rewrite app_assoc. auto.
  Qed.

  Variable stop : nat.
  Hypothesis stop_le : stop <= height.
  Hypothesis height63 : height < 64.

  Lemma runsRecursiveDecode_spec : forall t d lvl id p dec fuel,
    wf d t -> lvl + d = height -> lvl + nodelev t <= stop -> (is_leaf t = true -> lvl = stop) ->
    aligned d p -> d <= fuel -> R t lvl id ->
    runsRecursiveDecode height stop getNode getLeft getRight fuel dec p id lvl
    = Ok (dec ++ sel umem d t p).
  Proof.
    induction t; intros d lvl id p dec fuel Hwf Hd Hst Hlf Ha Hf Hr; cbn in Hwf, Hst.
    - subst d. cbn in Hlf. rewrite Hlf by auto.
      destruct fuel; cbn [runsRecursiveDecode]; rewrite Nat.eqb_refl; reflexivity.
    - destruct fuel as [|fuel]; [lia|]. cbn [runsRecursiveDecode].
      replace (lvl =? stop) with false by (symmetry; apply Nat.eqb_neq; lia).
      cbn in Hr. rewrite Hr. cbn [bind N.eqb].
      replace (height - lvl) with d by lia. rewrite shl1_pow2 by lia. cbn [bind].
      rewrite push_range_aligned by auto. rewrite sel_Full. auto.
    - destruct Hwf as (H0 & Hwf). destruct d as [|d]; [lia|]. cbn [pred] in *.
      destruct fuel as [|fuel]; [lia|]. cbn [runsRecursiveDecode].
      replace (lvl =? stop) with false by (symmetry; apply Nat.eqb_neq; lia).
      destruct Hr as (Hn & c & Hc & Hr). rewrite Hn. cbn [bind N.eqb orb Pos.eqb].
      rewrite Hc. cbn [bind]. rewrite (IHt d); auto using aligned_S; try lia.
      { cbn [bind]. rewrite sel_TL by auto. auto. }
      intros Hl. destruct t; try discriminate. cbn in *. lia.
    - destruct Hwf as (H0 & Hwf). destruct d as [|d]; [lia|]. cbn [pred] in *.
      destruct fuel as [|fuel]; [lia|]. cbn [runsRecursiveDecode].
      replace (lvl =? stop) with false by (symmetry; apply Nat.eqb_neq; lia).
      destruct Hr as (Hn & c & Hc & Hr). rewrite Hn. cbn [bind N.eqb orb Pos.eqb].
      replace (height - lvl - 1) with d by lia.
      rewrite shl1_pow2 by lia. cbn [bind]. rewrite Hc. cbn [bind].
      rewrite lor_right by auto. rewrite (IHt d); auto using aligned_right; try lia.
      { rewrite sel_TR by auto. auto. }
      intros Hl. destruct t; try discriminate. cbn in *. lia.
    - destruct Hwf as (H0 & Hwf1 & Hwf2). destruct d as [|d]; [lia|]. cbn [pred] in *.
      destruct fuel as [|fuel]; [lia|]. cbn [runsRecursiveDecode].
      replace (lvl =? stop) with false by (symmetry; apply Nat.eqb_neq; lia).
      destruct Hr as (Hn & (c & Hc & Hr1 & _) & (c' & Hc' & Hr2)). rewrite Hn.
      cbn [bind N.eqb orb Pos.eqb]. rewrite Hc. cbn [bind].
      rewrite (IHt1 d); auto using aligned_S; try lia.
      2:{ intros Hl. destruct t1; try discriminate. cbn in *. lia. }
      cbn [bind]. replace (height - lvl - 1) with d by lia.
      rewrite shl1_pow2 by lia. cbn [bind]. rewrite Hc'. cbn [bind].
      rewrite lor_right by auto. rewrite (IHt2 d); auto using aligned_right; try lia.
      2:{ intros Hl. destruct t2; try discriminate. cbn in *. lia. }
      rewrite sel_TB by auto. rewrite app_assoc. auto.
  Qed.
End Decode.
