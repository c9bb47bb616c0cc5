(** What a trie stores. *)

From Verif Require Import Base FlatTrie LevelTrie FastTrie Tries.

(** The number of levels and all bits, in the order in which serialize() writes them. *)
Definition stored_bits (t : bin_trie) : nat * list bool :=
  match t with
  | BFlat t => (f_height t, f_bTrie t ++ f_lastLevel t)
  | BLevel t => (length (l_bTrie t), concat (l_bTrie t))
  end.

(** A fast trie also stores words. *)
Definition fast_stored_bits (t : fast) : nat * list bool * list N := (x_height t, x_bTrie t, x_lastLevel t).
