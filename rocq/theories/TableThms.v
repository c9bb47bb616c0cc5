(** Proofs about the table of the query tool. *)

From Coq Require Import String Decimal DecimalN.
From Verif Require Import Base Text Spec SpecText SpecTools Table SpecTable.

Lemma digits_acc : forall d a,
  N.pos (Pos.of_uint_acc d a) = fold_left (fun a c => a * 10 + (c - 48))%N (digits d) (N.pos a).
Proof.
  induction d; intros a; cbn [digits fold_left Pos.of_uint_acc]; auto;
    rewrite IHd; f_equal; lia.
Qed.

Lemma digits_value : forall d, decimal_value (digits d) = N.of_uint d.
Proof.
  unfold decimal_value, N.of_uint. induction d; cbn [digits fold_left Pos.of_uint]; auto; rewrite digits_acc; reflexivity.
Qed.

Lemma digits_range : forall d, Forall (fun c => 48 <= c <= 57)%N (digits d).
Proof. induction d; cbn [digits]; constructor; auto; lia. Qed.

Theorem print_value : forall n, decimal_value (print_number n) = n.
Proof. intros. unfold print_number. rewrite digits_value. apply DecimalN.Unsigned.of_to. Qed.

Theorem print_decimal : forall n, decimal (print_number n).
Proof.
  intros n. split; [|apply digits_range]. unfold print_number. intros E.
  destruct n as [|p]; [discriminate|]. assert (V := DecimalN.Unsigned.of_to (N.pos p)).
  destruct (N.to_uint (N.pos p)); try discriminate.
Qed.

(** The lines are the rows of the answered queries. *)
Theorem rows_text : forall lists time queries rs, (forall n, field (time n)) ->
  Forall2 (answers lists) queries rs ->
  forall nq, exists rows, rows_of (table_rows time nq (combine queries rs)) rows /\
    Forall2 (row_of lists) (small_queries queries) rows /\
    map (fun row => snd (fst row)) rows = map time (seq nq (List.length rows)).
Proof.
  intros lists time queries rs T H. induction H as [|q r queries rs A _ IH]; intros nq.
  - exists []. repeat split; constructor.
  - cbn [combine table_rows]. unfold small_queries in *. cbn [filter]. destruct r as [r|].
    + destruct A as (L & A). apply Nat.leb_le in L. rewrite L. destruct (IH (S nq)) as (rows & R & F & S).
      eexists. split; [|split].
      * cbn [app]. apply rows_row; [apply print_decimal|apply T|apply print_decimal|exact R].
      * constructor; auto. split; cbn [fst snd]; [apply print_value|]. exists r. split; auto. apply print_value.
      * cbn [map List.length seq fst snd]. f_equal. exact S.
    + cbn [answers] in A. replace (List.length q <=? 16) with false by (symmetry; apply Nat.leb_gt; exact A).
      apply IH.
Qed.
