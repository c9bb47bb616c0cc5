(** The bits that describe a set of integers level by level.  Nothing here refers to
    tries. *)

From Coq Require Import List NArith.
Import ListNotations.

(** The distinct values of the members without their last [k] digits, in the order of the
    members. *)
Definition prefixes (s : list N) (k : nat) : list N :=
  nodup N.eq_dec (map (fun x => x / 2 ^ N.of_nat k)%N s).

(** Some member without its last [k] digits is [q]. *)
Definition has_prefix (s : list N) (k : nat) (q : N) : bool :=
  existsb (fun x => N.eqb (x / 2 ^ N.of_nat k) q) s.

(** Two bits for a prefix with [k] digits missing: does a member continue it with the digit
    zero, does a member continue it with the digit one. *)
Definition node_bits (s : list N) (k : nat) (q : N) : list bool :=
  [has_prefix s (k - 1) (2 * q); has_prefix s (k - 1) (2 * q + 1)].

(** The bits of all prefixes with [k] digits missing, and of all levels of numbers of [h]
    digits. *)
Definition level_bits (s : list N) (k : nat) : list bool := flat_map (node_bits s k) (prefixes s k).
Definition set_levels (h : nat) (s : list N) : list (list bool) :=
  map (fun l => level_bits s (h - l)) (seq 0 h).

(** All 2^[k] numbers that start with [q] are members. *)
Definition all_in (s : list N) (k : nat) (q : N) : bool :=
  N.eqb (N.of_nat (length (filter (fun x => N.eqb (x / 2 ^ N.of_nat k) q) s))) (2 ^ N.of_nat k).

(** With runs: a prefix of at least two missing digits all of whose continuations are members
    has the bits 00, and nothing is written below it. *)
Definition run_bits (s : list N) (k : nat) (q : N) : list bool :=
  if (Nat.leb 2 k && all_in s k q)%bool then [false; false] else node_bits s k q.
Definition run_level_bits (s : list N) (k : nat) : list bool :=
  flat_map (run_bits s k) (filter (fun q => negb (all_in s (S k) (q / 2))) (prefixes s k)).
Definition run_levels (h : nat) (s : list N) : list (list bool) :=
  map (fun l => run_level_bits s (h - l)) (seq 0 h).

(** The positions of the ones of a sequence of bits. *)
Definition ones_of (b : list bool) : list nat :=
  filter (fun i => nth i b false) (seq 0 (length b)).

(** The last level that holds bits is level [m]. *)
Definition last_level (L : list (list bool)) (m : nat) : Prop :=
  m < length L /\ nth m L [] <> [] /\ forall l, m < l -> nth l L [] = [].
