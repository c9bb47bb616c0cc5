(** What the build tools should print about a collection. *)

From Verif Require Import Base FlatTrie LevelTrie Tries Serialize Tools SpecTools Report.

(** All the values of all the lists. *)
Definition all_values (lists : list (list N)) : N := N.of_nat (length (concat lists)).

(** The bytes of a collection file before the first trie. *)
Definition header_bytes (rank_type : N) : N := if N.eqb rank_type 1 then 22%N else 18%N.

Definition fast_header_bytes : N := 20%N.

(** A report on the lists that were kept, as its labels say: the size is that of
    the tries stored in [file] after its header. *)
Definition reports (header u : N) (lists : list (list N)) (file : list N) (r : report) : Prop :=
  r_universe r = u /\ r_lists r = N.of_nat (length lists) /\ r_ints r = all_values lists /\
  (header + r_size r = N.of_nat (length file))%N.
