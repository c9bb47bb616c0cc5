(** What printed averages should say. *)

From Coq Require Import QArith Qabs.
From Verif Require Import Base SpecText.

Definition of_N (n : N) : Q := inject_Z (Z.of_N n).

(** The number that a decimal text denotes: digits, with or without a point and digits behind it,
    with or without an exponent. *)
Definition with_point (ip fp : list N) : list N :=
  match fp with
  | [] => ip
  | _ => ip ++ 46%N :: fp
  end.

Definition point_value (ip fp : list N) : Q :=
  (of_N (decimal_value (ip ++ fp)) * 10 ^ (- Z.of_nat (length fp)))%Q.

Inductive denotes : list N -> Q -> Prop :=
| denotes_plain : forall ip fp, decimal ip -> Forall (fun c => 48 <= c <= 57)%N fp ->
    denotes (with_point ip fp) (point_value ip fp)
| denotes_large : forall ip fp ep, decimal ip -> Forall (fun c => 48 <= c <= 57)%N fp -> decimal ep ->
    denotes (with_point ip fp ++ 101%N :: 43%N :: ep) (point_value ip fp * 10 ^ Z.of_N (decimal_value ep))
| denotes_small : forall ip fp ep, decimal ip -> Forall (fun c => 48 <= c <= 57)%N fp -> decimal ep ->
    denotes (with_point ip fp ++ 101%N :: 45%N :: ep) (point_value ip fp * 10 ^ (- Z.of_N (decimal_value ep))).

(** [x] is [v] to six parts in a million. *)
Definition about (x v : Q) : Prop := (Qabs (x - v) <= (6 # 1000000) * v)%Q.

(** [text] prints the average [a / b] of [a] over [b] things to six parts in a million. *)
Definition prints_average (a b : N) (text : option (list N)) : Prop :=
  exists w x, text = Some w /\ denotes w x /\ about x (of_N a / of_N b).

(** Rounding to nearest of IEEE 754 with [p] bits: [2 ^ e] is the distance of the numbers around
    [v], and [m * 2 ^ e] is the nearest of them, with [m] even in the middle of two. *)
Definition nearest (p : N) (v : Q) (m : N) (e : Z) : Prop :=
  (2 ^ (Z.of_N p - 1 + e) <= v < 2 ^ (Z.of_N p + e))%Q /\
  (Qabs (v - of_N m * 2 ^ e) <= (1 # 2) * 2 ^ e)%Q /\
  ((Qabs (v - of_N m * 2 ^ e) == (1 # 2) * 2 ^ e)%Q -> N.even m = true).
