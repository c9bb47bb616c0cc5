(** The intersection of several abstract trees under one prefix, and its
    decomposition over the two halves of a range (proof device). *)

From Verif Require Import Base Facts Tree.

(** * forallb over indices *)

Lemma forallb_seq : forall (f : nat -> bool) n,
  forallb f (seq 0 n) = true <-> forall i, i < n -> f i = true.
Proof.
  intros. rewrite forallb_forall. split; intros H i Hi.
  - apply H. apply in_seq. lia.
  - apply H. apply in_seq in Hi. lia.
Qed.

Lemma forallb_seq_false : forall (f : nat -> bool) n,
  forallb f (seq 0 n) = false <-> exists i, i < n /\ f i = false.
Proof.
  intros f n. induction n.
  - cbn. split; [discriminate|]. intros (i & H & _). lia.
  - rewrite seq_S, forallb_app. cbn [forallb Nat.add]. rewrite andb_true_r, andb_false_iff, IHn.
    split.
    + intros [(i & H & E)|E]; eauto.
    + intros (i & H & E). destruct (Nat.eq_dec i n).
      * subst. auto.
      * left. exists i. split; auto. lia.
Qed.

Lemma forallb_seq_S : forall (f : nat -> bool) n,
  forallb f (seq 0 (S n)) = forallb f (seq 0 n) && f n.
Proof.
  intros. rewrite seq_S, forallb_app. cbn [forallb Nat.add]. rewrite andb_true_r. auto.
Qed.

Lemma forallb_seq_ext : forall (f g : nat -> bool) n, (forall i, i < n -> f i = g i) ->
  forallb f (seq 0 n) = forallb g (seq 0 n).
Proof.
  intros f g n H. induction n; auto. rewrite !forallb_seq_S. rewrite IHn, H; auto.
Qed.

Section InterSpec.
  Context {A : Type}.
  Variable lmem : A -> N -> bool.
  Variable lg : nat.
  Variable n : nat.

  (** One entry per trie; [None]: the trie imposes no constraint any more. *)
  Definition forest := nat -> option (tree A).

  Definition fmem (k : nat) (X : forest) (x : N) : bool :=
    forallb (fun i => match X i with Some t => mem lmem k t x | None => true end) (seq 0 n).

  Definition inter (d : nat) (X : forest) (p : N) : list N :=
    filter (fmem (d + lg) X) (nrange p (2 ^ (d + lg))).

  (** A run imposes no constraint. *)
  Definition drop_full (X : forest) : forest :=
    fun i => match X i with Some Full => None | y => y end.

  Definition lefts (X : forest) : forest :=
    fun i => match X i with
             | Some (TL l) => Some l
             | Some (TB l _) => Some l
             | _ => None
             end.

  Definition rights (X : forest) : forest :=
    fun i => match X i with
             | Some (TR r) => Some r
             | Some (TB _ r) => Some r
             | _ => None
             end.

  Definition all_left (X : forest) : bool :=
    forallb (fun i => match X i with Some t => has_left t | None => true end) (seq 0 n).

  Definition all_right (X : forest) : bool :=
    forallb (fun i => match X i with Some t => has_right t | None => true end) (seq 0 n).

  Definition none_left (X : forest) : bool :=
    forallb (fun i => match X i with Some _ => false | None => true end) (seq 0 n).

  Lemma inter_ext : forall d X Y p, (forall i, i < n -> X i = Y i) -> inter d X p = inter d Y p.
  Proof.
    intros. apply filter_ext_in'. intros. apply forallb_seq_ext. intros. rewrite H; auto.
  Qed.

  Lemma inter_drop_full : forall d X p, inter d (drop_full X) p = inter d X p.
  Proof.
    intros. apply filter_ext_in'. intros. apply forallb_seq_ext. intros. unfold drop_full.
    destruct (X i) as [[]|]; auto.
  Qed.

  Lemma inter_none : forall d X p, none_left X = true -> inter d X p = nrange p (2 ^ (d + lg)).
  Proof.
    intros. apply filter_all. intros. apply forallb_seq. intros i Hi.
    unfold none_left in H. rewrite forallb_seq in H. specialize (H i Hi).
    destruct (X i); auto. discriminate.
  Qed.

  Lemma inter_step : forall d X p, aligned (S d + lg) p ->
    (forall i t, i < n -> X i = Some t -> wf (S d) t /\ t <> Full) ->
    inter (S d) X p =
    (if all_left X then inter d (lefts X) p else [])
    ++ (if all_right X then inter d (rights X) (p + pow2 (d + lg)) else []).
  Proof.
    intros d X p Ha Hw. unfold inter. cbn [Nat.add] in *. rewrite nrange_halves, filter_app.
    f_equal.
    - destruct (all_left X) eqn:E.
      + unfold all_left in E. rewrite forallb_seq in E.
        apply filter_ext_in'. intros x Hx. apply forallb_seq_ext. intros i Hi.
        specialize (E i Hi). unfold lefts. destruct (X i) as [t|] eqn:EX; auto.
        assert (B := left_bit _ _ _ Ha Hx).
        destruct t; try discriminate; cbn [mem pred]; rewrite B; auto.
      + unfold all_left in E. apply forallb_seq_false in E. destruct E as (i & Hi & E).
        apply filter_none. intros x Hx. apply forallb_seq_false. exists i. split; auto.
        destruct (X i) as [t|] eqn:EX; [|discriminate].
        assert (B := left_bit _ _ _ Ha Hx). destruct (Hw i t Hi EX) as (W & F).
        destruct t; try discriminate; cbn [mem pred]; rewrite ?B; auto; try congruence; cbn in W; discriminate.
    - destruct (all_right X) eqn:E.
      + unfold all_right in E. rewrite forallb_seq in E.
        apply filter_ext_in'. intros x Hx. apply forallb_seq_ext. intros i Hi.
        specialize (E i Hi). unfold rights. destruct (X i) as [t|] eqn:EX; auto.
        assert (B := right_bit lmem _ _ _ Ha Hx).
        destruct t; try discriminate; cbn [mem pred]; rewrite B; auto.
      + unfold all_right in E. apply forallb_seq_false in E. destruct E as (i & Hi & E).
        apply filter_none. intros x Hx. apply forallb_seq_false. exists i. split; auto.
        destruct (X i) as [t|] eqn:EX; [|discriminate].
        assert (B := right_bit lmem _ _ _ Ha Hx). destruct (Hw i t Hi EX) as (W & F).
        destruct t; try discriminate; cbn [mem pred]; rewrite ?B; auto; try congruence; cbn in W; discriminate.
  Qed.

  Lemma drop_full_some : forall X i t, drop_full X i = Some t -> X i = Some t /\ t <> Full.
  Proof.
    unfold drop_full; intros. destruct (X i) as [[]|]; inversion H; subst; split; auto; discriminate.
  Qed.
End InterSpec.
