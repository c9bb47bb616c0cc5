(** What the statistics of a collection should be.  Nothing here refers to how the
    tools read files. *)

From Verif Require Import Base Spec SpecMeasures.

(** The lists with more than [min_length] values. *)
Definition long_lists (min_length : N) (lists : list (list N)) : list (list N) :=
  filter (fun l => N.ltb min_length (N.of_nat (length l))) lists.

Definition total_length (lists : list (list N)) : N :=
  sumN (map (fun l => N.of_nat (length l)) lists).

(** The last value, as many times as there are values. *)
Definition last_repeated (l : list N) : list N := repeat (last l 0%N) (length l).

(** One bit for each value up to the last, set for the members. *)
Definition member_bits (l : list N) : list bool :=
  map (fun v => existsb (N.eqb v) l) (nrange 0 (N.to_nat (last l 0%N + 1))).

(** How many values, modulo 2^32, lie between the last value of one list and the first
    value of the next when the lists follow each other, each over its own copy of the
    universe. *)
Definition between (u : N) (l l' : list N) : N :=
  ((u - last l 0 + hd 0 l' - 1) mod 2 ^ 32)%N.

(** Cost of those gaps.  [intended] leaves out the start of the first list; the tool
    charges 32 bits there, and 32 bits after each list that ends in 0. *)
Fixpoint joint_costs (u : N) (lists : list (list N)) : N :=
  match lists with
  | l :: ((l' :: _) as lists') => width (between u l l') + joint_costs u lists'
  | _ => 0
  end%N.

Fixpoint joint_charges (u : N) (lists : list (list N)) : N :=
  match lists with
  | l :: ((l' :: _) as lists') =>
    (if N.eqb (last l 0) 0 then 32 else width (between u l l')) + joint_charges u lists'
  | _ => 0
  end%N.

(** Cost of the gaps inside the lists. *)
Definition gap_bits (lists : list (list N)) : N :=
  sumN (map (fun l => sumN (map width (gaps l))) lists).

(** [n] is the number of prefixes of every length with property [P]. *)
Definition prefix_total (P : list N -> nat -> N -> Prop) (u : N) (l : list N) (n : nat) : Prop :=
  exists ns, n = list_sum ns /\ Forall2 (fun k m => counts (P l k) m) (seq 0 (digits u)) ns.
