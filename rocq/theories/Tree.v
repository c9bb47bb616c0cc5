(** Abstract binary tries and their level-order layout (proof device). *)

From Verif Require Import Base Facts.

(** A trie node: [Leaf] past the last node level, [Full] a run (00), or a node
    with a left, a right or both children. *)
Inductive tree (A : Type) :=
| Leaf (a : A)
| Full
| TL (l : tree A)
| TR (r : tree A)
| TB (l r : tree A).
Arguments Leaf {A} a.
Arguments Full {A}.
Arguments TL {A} l.
Arguments TR {A} r.
Arguments TB {A} l r.

Section Tree.
  Context {A : Type}.
  Definition kids (t : tree A) : list (tree A) :=
    match t with
    | Leaf _ | Full => []
    | TL l => [l]
    | TR r => [r]
    | TB l r => [l; r]
    end.

  Definition code2 (t : tree A) : list bool :=
    match t with
    | Leaf _ => []
    | Full => [false; false]
    | TL _ => [true; false]
    | TR _ => [false; true]
    | TB _ _ => [true; true]
    end.

  Definition is_leaf (t : tree A) : bool :=
    match t with Leaf _ => true | _ => false end.

  Definition has_left (t : tree A) : bool :=
    match t with TL _ | TB _ _ => true | _ => false end.

  Definition has_right (t : tree A) : bool :=
    match t with TR _ | TB _ _ => true | _ => false end.

  (** All leaves at depth [d], runs strictly above. *)
  Fixpoint wf (d : nat) (t : tree A) : Prop :=
    match t with
    | Leaf _ => d = 0
    | Full => 0 < d
    | TL l => 0 < d /\ wf (pred d) l
    | TR r => 0 < d /\ wf (pred d) r
    | TB l r => 0 < d /\ wf (pred d) l /\ wf (pred d) r
    end.

  (** No run. *)
  Fixpoint plain (t : tree A) : Prop :=
    match t with
    | Leaf _ => True
    | Full => False
    | TL l => plain l
    | TR r => plain r
    | TB l r => plain l /\ plain r
    end.

  (** * Level order *)

  Fixpoint fiter (i : nat) (F : list (tree A)) : list (tree A) :=
    match i with
    | O => F
    | S i' => flat_map kids (fiter i' F)
    end.

  Definition bits (F : list (tree A)) : list bool := flat_map code2 F.

  Fixpoint levelsF (d : nat) (F : list (tree A)) : list (list bool) :=
    match d with
    | O => []
    | S d' => bits F :: levelsF d' (flat_map kids F)
    end.

  Fixpoint zapp (a b : list (list bool)) : list (list bool) :=
    match a, b with
    | x :: a', y :: b' => (x ++ y) :: zapp a' b'
    | _, _ => []
    end.

  Definition levels (d : nat) (t : tree A) : list (list bool) := levelsF d [t].

  Lemma levelsF_length : forall d F, length (levelsF d F) = d.
  Proof. induction d; intros; cbn; auto. Qed.

  Lemma bits_app : forall F G, bits (F ++ G) = bits F ++ bits G.
  Proof. intros; apply flat_map_app'. Qed.

  Lemma levelsF_app : forall d F G, levelsF d (F ++ G) = zapp (levelsF d F) (levelsF d G).
  Proof.
    induction d; intros; cbn; auto. rewrite bits_app, flat_map_app', IHd. auto.
  Qed.

  Lemma levelsF_nil : forall d, levelsF d [] = repeat [] d.
  Proof. induction d; cbn; auto. rewrite IHd; auto. Qed.

  Lemma levels_Full : forall d, levels (S d) Full = [false; false] :: repeat [] d.
  Proof. intros; unfold levels; cbn. rewrite levelsF_nil. auto. Qed.
  Lemma levels_TL : forall d l, levels (S d) (TL l) = [true; false] :: levels d l.
  Proof. reflexivity. Qed.
  Lemma levels_TR : forall d l, levels (S d) (TR l) = [false; true] :: levels d l.
  Proof. reflexivity. Qed.
  Lemma levels_TB : forall d l r,
    levels (S d) (TB l r) = [true; true] :: zapp (levels d l) (levels d r).
  Proof.
    intros; unfold levels. change (levelsF (S d) [TB l r]) with
      ([true; true] :: levelsF d ([l] ++ [r])). rewrite levelsF_app. auto.
  Qed.

  Lemma levelsF_nth : forall d F i, i < d -> nth_error (levelsF d F) i = Some (bits (fiter i F)).
  Proof.
    intros d F i; revert d F.
    assert (E : forall i F, fiter i (flat_map kids F) = flat_map kids (fiter i F)).
    { induction i0; intros; cbn; auto. rewrite IHi0; auto. }
    induction i; intros [|d] F H; try lia; auto.
    cbn [levelsF nth_error]. rewrite IHi by lia. rewrite E. auto.
  Qed.

  Lemma count_code2 : forall t, count_true (code2 t) = length (kids t).
  Proof. destruct t; auto. Qed.

  Lemma count_bits : forall F, count_true (bits F) = length (flat_map kids F).
  Proof.
    induction F; cbn; auto. rewrite count_true_app, app_length, count_code2.
    unfold bits in IHF. lia.
  Qed.

  Lemma bits_length : forall F, (forall t, In t F -> is_leaf t = false) ->
    length (bits F) = 2 * length F.
  Proof.
    induction F; intros; cbn; auto. rewrite app_length.
    unfold bits in IHF. rewrite IHF by (intros; apply H; right; auto).
    specialize (H a (or_introl eq_refl)). destruct a; cbn in *; try discriminate; lia.
  Qed.

  Lemma fiter_wf : forall i d F, i <= d -> Forall (wf d) F -> Forall (wf (d - i)) (fiter i F).
  Proof.
    induction i; intros d F Hi H; cbn.
    - rewrite Nat.sub_0_r; auto.
    - specialize (IHi d F ltac:(lia) H). replace (d - S i) with (pred (d - i)) by lia.
      remember (d - i) as e. clear - IHi. apply Forall_forall. intros x Hx.
      apply in_flat_map in Hx. destruct Hx as (t & Ht & Hx).
      rewrite Forall_forall in IHi. apply IHi in Ht.
      destruct t; cbn in *; try tauto; intuition subst; auto.
  Qed.

  Lemma wf_not_leaf : forall d t, 0 < d -> wf d t -> is_leaf t = false.
  Proof. destruct t; cbn; auto; intros; lia. Qed.

  Lemma wf_leaf : forall t, wf 0 t -> exists a, t = Leaf a.
  Proof. destruct t; cbn; intros; eauto; lia. Qed.

  Lemma fiter_app : forall i F G, fiter i (F ++ G) = fiter i F ++ fiter i G.
  Proof. induction i; intros; cbn; auto. rewrite IHi, flat_map_app'. auto. Qed.

  Lemma fiter_length : forall i F, length (fiter i F) <= 2 ^ i * length F.
  Proof.
    induction i; intros; cbn [fiter Nat.pow].
    - lia.
    - specialize (IHi F). remember (fiter i F) as G. clear HeqG.
      assert (length (flat_map kids G) <= 2 * length G).
      { clear. induction G; cbn; auto. rewrite app_length.
        destruct a; cbn; lia. }
      nia.
  Qed.

End Tree.

Section Mem.
  Context {A : Type}.
  (** Membership at a leaf. *)
  Variable lmem : A -> N -> bool.

  (** [mem k t x]: the low [k] bits of [x] select an element of [t]. *)
  Fixpoint mem (k : nat) (t : tree A) (x : N) : bool :=
    match t with
    | Leaf a => lmem a x
    | Full => true
    | TL l => if N.testbit x (N.of_nat (pred k)) then false else mem (pred k) l x
    | TR r => if N.testbit x (N.of_nat (pred k)) then mem (pred k) r x else false
    | TB l r => if N.testbit x (N.of_nat (pred k)) then mem (pred k) r x else mem (pred k) l x
    end.

  (** The elements of [t] under prefix [p], in order. *)
  Definition sel (k : nat) (t : tree A) (p : N) : list N :=
    filter (mem k t) (nrange p (2 ^ k)).

  Lemma sel_Full : forall k p, sel k Full p = nrange p (2 ^ k).
  Proof. intros; apply filter_all; auto. Qed.

  Lemma sel_split : forall k t p,
    sel (S k) t p = filter (mem (S k) t) (nrange p (2 ^ k))
                    ++ filter (mem (S k) t) (nrange (p + pow2 k) (2 ^ k)).
  Proof. intros; unfold sel. rewrite nrange_halves, filter_app. auto. Qed.

  Lemma left_bit : forall k p x, aligned (S k) p -> In x (nrange p (2 ^ k)) ->
    N.testbit x (N.of_nat k) = false.
  Proof. intros. apply In_half in H0. eapply testbit_left; eauto. Qed.

  Lemma right_bit : forall k p x, aligned (S k) p -> In x (nrange (p + pow2 k) (2 ^ k)) ->
    N.testbit x (N.of_nat k) = true.
  Proof.
    intros. apply In_half in H0. eapply testbit_right; eauto. rewrite pow2_S. lia.
  Qed.

  Lemma sel_TL : forall k l p, aligned (S k) p -> sel (S k) (TL l) p = sel k l p.
  Proof.
    intros. rewrite sel_split. rewrite (filter_none _ _ (nrange (p + pow2 k) _)).
    - rewrite app_nil_r. apply filter_ext_in'. intros. cbn [mem pred].
      erewrite left_bit by eauto. auto.
    - intros. cbn [mem pred]. erewrite right_bit by eauto. auto.
  Qed.

  Lemma sel_TR : forall k r p, aligned (S k) p -> sel (S k) (TR r) p = sel k r (p + pow2 k).
  Proof.
    intros. rewrite sel_split. rewrite (filter_none _ _ (nrange p _)).
    - cbn [app]. apply filter_ext_in'. intros. cbn [mem pred].
      erewrite right_bit by eauto. auto.
    - intros. cbn [mem pred]. erewrite left_bit by eauto. auto.
  Qed.

  Lemma sel_TB : forall k l r p, aligned (S k) p ->
    sel (S k) (TB l r) p = sel k l p ++ sel k r (p + pow2 k).
  Proof.
    intros. rewrite sel_split. f_equal; apply filter_ext_in'; intros; cbn [mem pred].
    - erewrite left_bit by eauto. auto.
    - erewrite right_bit by eauto. auto.
  Qed.

End Mem.

Section Runs.
  Context {A : Type}.
  (** * Runs *)

  Variable lfull : A -> bool.
  (** [keep]: a node with two leaf children is never turned into a run. *)
  Variable keep : bool.

  Fixpoint full (t : tree A) : bool :=
    match t with
    | Leaf a => lfull a
    | Full => true
    | TB l r => full l && full r
    | _ => false
    end.

  Fixpoint compress (t : tree A) : tree A :=
    match t with
    | Leaf a => Leaf a
    | Full => Full
    | TL l => TL (compress l)
    | TR r => TR (compress r)
    | TB l r =>
      if (full l && full r && negb (keep && is_leaf l && is_leaf r))%bool then Full
      else TB (compress l) (compress r)
    end.

  Lemma compress_wf : forall t d, wf d t -> wf d (compress t).
  Proof.
    induction t; cbn; intros; auto; intuition.
    destruct (_ && _)%bool; cbn; auto.
  Qed.

  Variable lmem : A -> N -> bool.
  Hypothesis lfull_mem : forall a, lfull a = true -> forall x, lmem a x = true.

  Lemma full_mem : forall t k x, full t = true -> mem lmem k t x = true.
  Proof.
    induction t; cbn; intros; auto; try discriminate.
    apply andb_true_iff in H. destruct H.
    destruct (N.testbit _ _); auto.
  Qed.

  Lemma compress_mem : forall t k x, mem lmem k (compress t) x = mem lmem k t x.
  Proof.
    induction t; cbn; intros; auto.
    - rewrite IHt; auto.
    - rewrite IHt; auto.
    - destruct (full t1 && full t2)%bool eqn:E; cbn.
      + apply andb_true_iff in E. destruct E.
        destruct (negb _); cbn.
        * destruct (N.testbit _ _); rewrite full_mem; auto.
        * rewrite IHt1, IHt2. auto.
      + rewrite IHt1, IHt2. auto.
  Qed.
End Runs.
