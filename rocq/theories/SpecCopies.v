(** Vocabulary of property C39. *)

From Verif Require Import Base FlatTrie LevelTrie FastTrie ParallelFor Intersection Tries Copies Spec SpecTries.

(** The event destroys or overwrites the object at [a]. *)
Definition touches (a : nat) (e : event) : Prop :=
  match e with
  | Assign b _ | Destroy b | Encode b | Load b _ => a = b
  | _ => False
  end.

(** The sets for which decoding needs a rank query. *)
Definition needs_rank (k : maker) (s : list N) (u : N) : Prop :=
  match k with
  | MakeBin v => (3 <= u <= 2 ^ 48)%N /\ s <> [] /\ plain_ok u v s
  | MakeFast lw _ _ => fast_universe u lw /\ (2 ^ N.of_nat lw < u)%N /\ fast_ok u s
  end.
