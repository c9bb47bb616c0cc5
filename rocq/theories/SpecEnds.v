(** Computations that end.  [OutOfFuel] is the outcome of a loop or recursion of the model
    that was stopped before its end. *)

From Verif Require Import Base FastTrie Serialize Tools.

Definition ends {A : Type} (m : result A) : Prop := m <> OutOfFuel.

(** The words of a fast trie are values of its word type. *)
Definition words_fit (t : fast) : Prop :=
  x_lw t <= 6 /\ Forall (fun w => (w <= wmax (x_lw t))%N) (x_lastLevel t).

(** Reading an sdsl structure ends, whatever the file holds. *)
Definition codecs_end (c : codecs) : Prop :=
  (forall input, ends (bv_load (c_bv c) input)) /\ (forall input, ends (bv_load (c_last c) input)) /\
  (forall input v, ends (rk_load (c_rank c) input v)).

Definition formats_end (fm : formats) : Prop :=
  codecs_end (fm_v fm) /\ codecs_end (fm_v5 fm) /\ forall b, codecs_end (fm_il fm b).

(** The tries that the tool loads from [file] have heights in its range. *)
Definition fast_heights (fm : formats) (blank : nat -> fast) (parallel : bool) (file : list N) : Prop :=
  forall queries rank_type runs levelwise wsize rest tries,
    read_fast_header file = Ok (rank_type, runs, levelwise, wsize, rest) ->
    load_tries (fast_codecs fm rank_type) (blank (word_log wsize)) queries rest = Ok tries ->
    Forall (fun p => (if parallel then 2 else 1) <= x_height (snd p) /\ x_height (snd p) + word_log wsize <= 64) tries.
