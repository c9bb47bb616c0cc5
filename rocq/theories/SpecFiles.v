(** Preconditions of the property theorems about stored tries. *)

From Verif Require Import Base FlatTrie LevelTrie FastTrie Tries.

(** Bit vectors have fewer than 2^64 bits (sdsl keeps their length in 64 bits). *)
Definition bv_fits (v : list bool) : Prop := (N.of_nat (length v) < 2 ^ 64)%N.

Definition fits (t : bin_trie) : Prop :=
  match t with
  | BFlat t => bv_fits (f_bTrie t) /\ bv_fits (f_lastLevel t)
  | BLevel t => Forall bv_fits (l_bTrie t)
  end.

Definition fast_fits (t : fast) : Prop :=
  bv_fits (x_bTrie t) /\ (N.of_nat (length (x_lastLevel t)) < 2 ^ 64)%N.

(** Two objects of the same class (load() never changes the class). *)
Definition same_class (t o : bin_trie) : Prop :=
  match t, o with
  | BFlat _, BFlat _ => True
  | BLevel t, BLevel o => l_il t = l_il o
  | _, _ => False
  end.

(** The object belongs to the class [v]. *)
Definition has_class (v : variant) (t : bin_trie) : Prop :=
  match v, t with
  | VFlat _, BFlat _ => True
  | VLevel il, BLevel t => l_il t = il
  | _, _ => False
  end.

(** [t'] is [t] with indeterminate members replaced by some value: every member that
    is determinate in [t] is the same in [t']. *)
Definition refines (t t' : fast) : Prop :=
  x_lw t' = x_lw t /\ x_height t' = x_height t /\ x_height_u t' = x_height_u t /\
  x_runs_encoded t' = x_runs_encoded t /\ x_bTrie t' = x_bTrie t /\
  x_lastLevel t' = x_lastLevel t /\ x_rank t' = x_rank t /\
  (forall h, x_height_with_runs t = Some h -> x_height_with_runs t' = Some h) /\
  (forall e, x_empty_trie t = Some e -> x_empty_trie t' = Some e).

(** A uint16_t member holds less than 2^16. *)
Definition u16_member (o : option nat) : Prop :=
  forall h, o = Some h -> (N.of_nat h < 2 ^ 16)%N.
