(** What a construction may hold. *)

From Coq Require Import List.
Import ListNotations.

(** The numbers of [l], none of them above [n]. *)
Definition at_most (n : nat) (l : list nat) : Prop := Forall (fun k => k <= n) l.

(** The numbers of [l], all of them [n]. *)
Definition always (n : nat) (l : list nat) : Prop := Forall (fun k => k = n) l.

(** [l] begins with [n]. *)
Definition starts_at (n : nat) (l : list nat) : Prop := exists r, l = n :: r.

(** [l] ends with [n]. *)
Definition ends_at (n : nat) (l : list nat) : Prop := exists r, l = r ++ [n].

(** Each number of [l] and the one at its place in [m] add up to [n] at most. *)
Definition together_at_most (n : nat) (l m : list nat) : Prop := Forall2 (fun a b => a + b <= n) l m.

(** How many of [bs] are 1. *)
Definition ones (bs : list bool) : nat := count_occ Bool.bool_dec bs true.
