(** Digits that are left when the prefix shared with the value before is omitted. *)

From Coq Require Import List NArith.
Import ListNotations.

(** [x] and [y] agree without their last [k] digits and differ in the first of these. *)
Definition parted (y x : N) (k : nat) : Prop :=
  1 <= k /\ (x / 2 ^ N.of_nat k = y / 2 ^ N.of_nat k)%N /\
  (x / 2 ^ N.of_nat (k - 1) <> y / 2 ^ N.of_nat (k - 1))%N.

(** [ks] has this number for each member of [s] but the first. *)
Definition partings (s : list N) (ks : list nat) : Prop :=
  Forall2 (fun yx k => parted (fst yx) (snd yx) k) (combine s (tl s)) ks.
