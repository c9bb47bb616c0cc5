(** Collections with lists of any length: the lengths that the counting pass of the build tools
    meets. *)

From Verif Require Import Base Spec SpecTools.

(** The numbers of a collection file after the first two: each list after its length. *)
Definition words (lists : list (list N)) : list N :=
  concat (map (fun l => N.of_nat (length l) :: l) lists).

(** A reader takes a number for the length n of a list and goes on n mod 2^30 numbers later. *)
Inductive lengths_met : list N -> list N -> Prop :=
| met_end : lengths_met [] []
| met_list n ws met : lengths_met (skipn (N.to_nat (n mod 2 ^ 30)) ws) met ->
    lengths_met (n :: ws) (n :: met).

(** The lengths in the range of --min_size and --max_size. *)
Definition in_range (min_size max_size : N) (lengths : list N) : list N :=
  filter (fun n => (N.ltb min_size n && N.leb n max_size)%bool) lengths.

(** Every number fits in its field; a list of 2^30 values or more is kept. *)
Definition long_collection_ok (min_size max_size one u : N) (lists : list (list N)) : Prop :=
  (one < 2 ^ 32)%N /\ (u < 2 ^ 32)%N /\ Forall (below (2 ^ 32)) lists /\ Forall (shorter 32) lists /\
  Forall (fun l => shorter 30 l \/ In l (kept_lists min_size max_size lists)) lists.

(** The [n] numbers from [x] on. *)
Fixpoint run_from (x : N) (n : nat) : list N :=
  match n with O => [] | S n' => x :: run_from (x + 1) n' end.

(** The lists that the second pass reads: a length within the limits is followed by its list,
    any other as above. *)
Inductive lists_read (min_size max_size : N) : list N -> list (list N) -> Prop :=
| read_end : lists_read min_size max_size [] []
| read_kept l ws ls : (min_size < N.of_nat (length l) <= max_size)%N -> lists_read min_size max_size ws ls ->
    lists_read min_size max_size (N.of_nat (length l) :: l ++ ws) (l :: ls)
| read_other n ws ls : ~ (min_size < n <= max_size)%N ->
    lists_read min_size max_size (skipn (N.to_nat (n mod 2 ^ 30)) ws) ls ->
    lists_read min_size max_size (n :: ws) ls.

(** Every number fits in its field. *)
Definition fitting_collection (one u : N) (lists : list (list N)) : Prop :=
  (one < 2 ^ 32)%N /\ (u < 2 ^ 32)%N /\ Forall (below (2 ^ 32)) lists /\ Forall (shorter 32) lists.
