(** Files and options of the tools, independently of how they are processed. *)

From Verif Require Import Base FastTrie ParallelFor Serialize Tries Tools Spec SpecTries SpecFiles ParForThms.

(** A posting list in a collection file: its length and its values, 4 bytes each. *)
Definition list_bytes (l : list N) : list N :=
  le_bytes 4 (N.of_nat (length l)) ++ concat (map (le_bytes 4) l).

(** A collection file: a number (1 in the collections used), the universe, the lists. *)
Definition collection_file (one u : N) (lists : list (list N)) : list N :=
  le_bytes 4 one ++ le_bytes 4 u ++ concat (map list_bytes lists).

(** The lists with more than [min_size] and at most [max_size] values. *)
Definition kept_lists (min_size max_size : N) (lists : list (list N)) : list (list N) :=
  filter (fun l => (N.ltb min_size (N.of_nat (length l)) && N.leb (N.of_nat (length l)) max_size)%bool)
         lists.

(** Every number fits in its field; lists of 2^30 values or more cannot be skipped by
    the tools. *)
Definition collection_ok (one u : N) (lists : list (list N)) : Prop :=
  (one < 2 ^ 32)%N /\ (u < 2 ^ 32)%N /\ (N.of_nat (length lists) < 2 ^ 32)%N /\
  Forall (shorter 30) lists /\ Forall (below (2 ^ 32)) lists.

(** The posting lists with the given positions. *)
Definition lists_at (lists : list (list N)) (q : list N) : list (list N) :=
  map (fun i => nth (N.to_nat i) lists []) q.

(** A query whose ids are positions of lists. *)
Definition query_ok (lists : list (list N)) (q : list N) : Prop :=
  q <> [] /\ Forall (fun i => (i < N.of_nat (length lists))%N) q.

(** The answer to a query: skipped above 16 ids, else the intersection of the lists. *)
Definition answers (lists : list (list N)) (q : list N) (a : option (list N)) : Prop :=
  match a with
  | None => 16 < length q
  | Some r => length q <= 16 /\ is_intersection (lists_at lists q) r
  end.

(** The options of build_tries whose output the query tool can load: not the
    level-wise interleaved class, and block sizes the query tool knows. *)
Definition loadable_options (rank_type block : N) (levelwise : bool) : Prop :=
  (rank_type < 2 ^ 32)%N /\ (block < 2 ^ 32)%N /\
  (rank_type = 1%N -> levelwise = false /\ In block [128; 256; 512]%N).

(** The modes in which answers about the lists [kept] are exact: sequential, or parallel over plain
    tries (not with tries of height 1 on four or more threads), or parallel over tries with runs
    when no list has a whole block as large as a thread's share, or there are too few levels to
    share (C12, C13). *)
Definition exact_mode (u : N) (runs parallel : bool) (hc : N)
           (sched : nat -> nat -> scheduler * scheduler) (kept : list (list N)) : Prop :=
  (1 <= hc)%N /\
  (parallel = true -> (hc < 2 ^ 16)%N /\ (3 <= u \/ hc <= 3 /\ runs = false)%N /\
     (runs = true -> Forall (no_block (thread_block u hc)) kept \/ (rounded u < 4 * 2 ^ N.log2 hc)%N) /\
     forall nq rep, valid_scheduler (fst (sched nq rep)) /\ valid_scheduler (snd (sched nq rep))).

Definition fast_exact_mode (u : N) (lw : nat) (runs parallel : bool) (hc : N)
           (sched : nat -> nat -> scheduler * scheduler) (kept : list (list N)) : Prop :=
  (1 <= hc)%N /\
  (parallel = true -> (hc < 2 ^ 16)%N /\ (2 ^ N.of_nat lw < u \/ hc = 1 /\ runs = false)%N /\
     (runs = true -> Forall (no_block (thread_block u hc)) kept \/
        (rounded u < 2 * 2 ^ N.of_nat lw * 2 ^ N.log2 hc)%N) /\
     forall nq rep, valid_scheduler (fst (sched nq rep)) /\ valid_scheduler (snd (sched nq rep))).

(** The values that uninitialised members can hold. *)
Definition junk_ok (junk : nat -> fast_junk) : Prop :=
  forall i, u16_member (j_hwr (junk i)) /\ (j_hwr_bytes (junk i) < 2 ^ 16)%N /\
            (j_empty_byte (junk i) < 256)%N.

(** A newly made trie over words of 2^lw bits has no words yet. *)
Definition blank_ok (blank : nat -> fast) : Prop :=
  forall lw, x_lw (blank lw) = lw /\ x_lastLevel (blank lw) = [].
