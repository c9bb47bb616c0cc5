(** What the size measures count.  Nothing here refers to tries. *)

From Coq Require Import List NArith.
Import ListNotations.

(** [P] holds of exactly [n] values. *)
Definition counts (P : N -> Prop) (n : nat) : Prop :=
  exists l, NoDup l /\ length l = n /\ forall q, In q l <-> P q.

(** Number of binary digits of the values below [u]. *)
Definition digits (u : N) : nat := N.to_nat (N.log2_up u).

(** [q] is the prefix of a member, with the last [k] digits removed. *)
Definition prefix_of_member (s : list N) (k : nat) (q : N) : Prop :=
  exists x, In x s /\ q = (x / 2 ^ N.of_nat k)%N.

(** [s] contains the whole aligned block of 2^[b] values around [x]. *)
Definition block_full (s : list N) (b : nat) (x : N) : Prop :=
  forall y, (y / 2 ^ N.of_nat b = x / 2 ^ N.of_nat b)%N -> In y s.

(** [q] is such a prefix of a member [x] whose block of twice the size of [q]'s,
    and of at least four values, is not full. *)
Definition prefix_outside_runs (s : list N) (k : nat) (q : N) : Prop :=
  exists x, In x s /\ q = (x / 2 ^ N.of_nat k)%N /\ ~ block_full s (Nat.max 2 (S k)) x.

(** Number of binary digits of [g], at least one. *)
Definition width (g : N) : N := N.size (N.max 1 g).

Definition sumN (l : list N) : N := fold_right N.add 0%N l.

(** The first value, then for each next value how many values it skips. *)
Fixpoint gaps_after (x : N) (l : list N) : list N :=
  match l with
  | [] => []
  | y :: l' => (y - x - 1)%N :: gaps_after y l'
  end.
Definition gaps (v : list N) : list N :=
  match v with
  | [] => []
  | x :: l => x :: gaps_after x l
  end.

(** [n] consecutive values from [x]. *)
Fixpoint consecutive (x : N) (n : nat) : list N :=
  match n with
  | O => []
  | S n' => x :: consecutive (x + 1) n'
  end.

(** The list made of one run of [n] values from [x], then for each (g, m) a gap of
    [g] missing values and a run of [m] values. *)
Fixpoint from_runs (x : N) (n : nat) (rest : list (N * nat)) : list N :=
  consecutive x n ++
  match rest with
  | [] => []
  | (g, m) :: rest' => from_runs (x + N.of_nat n + g) m rest'
  end.

(** Cost of the gaps and of the runs of such a list. *)
Definition gap_costs (rest : list (N * nat)) : N := sumN (map (fun gm => width (fst gm - 1)) rest).
Definition run_costs (lens : list nat) : N := sumN (map (fun n => width (N.of_nat n - 1)) lens).

(** Every gap and every run of [rest] is nonempty. *)
Definition runs_ok (rest : list (N * nat)) : Prop :=
  Forall (fun gm => 0 < fst gm /\ 0 < N.of_nat (snd gm))%N rest.
