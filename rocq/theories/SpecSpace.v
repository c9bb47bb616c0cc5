(** Sets made of intervals. *)

From Coq Require Import List Arith NArith.
Import ListNotations.

(** The members of [s] are the numbers in the intervals [R], given by their ends. *)
Definition union_of (R : list (N * N)) (s : list N) : Prop :=
  forall x, In x s <-> exists a b, In (a, b) R /\ (a <= x <= b)%N.

(** The number of nodes of a binary tree of so many levels that has at most [c] nodes on each. *)
Definition capped (c levels : nat) : nat :=
  list_sum (map (fun l => Nat.min (2 ^ l) c) (seq 0 levels)).
