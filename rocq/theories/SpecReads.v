(** How often the positions of an input are read. *)

From Coq Require Import List NArith.
Import ListNotations.

(** The lists in [cs] hold positions of an input of [n] values, no position more than [k] times
    in all. *)
Definition read_at_most (k n : nat) (cs : list (list N)) : Prop :=
  Forall (fun i => (i < N.of_nat n)%N) (concat cs) /\
  (forall i, count_occ N.eq_dec (concat cs) i <= k) /\
  length (concat cs) <= k * n.

(** No step reads nothing. *)
Definition each_step_reads (cs : list (list N)) : Prop := Forall (fun c => c <> []) cs.
