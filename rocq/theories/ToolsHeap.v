(** The query tools and the intersection checkers with a record of the tries that they make
    with new and destroy with delete.  A trie is named by its position in the file, which
    stands for the pointer. *)

From Verif Require Import Base FlatTrie LevelTrie FastTrie ParallelFor Intersection Tries
  Serialize Tools Reference Checker.

(** new and delete of one trie: tools/intersection_query_log.cpp:48-76, 163,
    tools/intersection_querylog_fastTrie.cpp:62, 71, 117, test/test_intersection.cpp:65-93, 157,
    test/test_intersection_fastTrie.cpp:60, 127. *)
Inductive heap_event := Make (i : N) | Free (i : N).

(** The loop that deletes what a vector or map of pointers holds:
    tools/intersection_query_log.cpp:162-163, tools/intersection_querylog_fastTrie.cpp:116-117,
    test/test_intersection.cpp:156-157, test/test_intersection_fastTrie.cpp:126-127.  The null
    pointers that operator[] adds to a map are deleted without effect. *)
Definition free_each {T : Type} (pointers : list (N * T)) : list heap_event :=
  map (fun p => Free (fst p)) pointers.

(** loadSequences as in [load_sequences]: tools/intersection_query_log.cpp:40-82. *)
Fixpoint load_sequences_heap (n : nat) (i : N) (obj : result (codecs * bin_trie)) (input : list N)
  : result (list (N * bin_trie) * list N * list heap_event) :=
  match n with
  | O => Ok ([], input, [])
  | S n' =>
    let* (c, old) := obj in
    let* (t, input) := bin_load c old input in
    let* (ts, input, ev) := load_sequences_heap n' (i + 1) obj input in
    Ok ((i, t) :: ts, input, Make i :: ev)
  end.

(** main and performIntersections as in [load_collection] and [query_log]:
    tools/intersection_query_log.cpp:212-216, 33-82, 106-169. *)
Definition query_log_heap (fm : formats) (sched : nat -> nat -> scheduler * scheduler) (hc : N)
           (parallel : bool) (file : list N) (queries : list (list N))
  : result (list (option (list N)) * list heap_event) :=
  let* (rank_type, file) := read_le 4 file in
  let* (block, file) := (if N.eqb rank_type 1 then read_le 4 file else Ok (512%N, file)) in
  let* (runs, file) := read_bool file in
  let* (levelwise, file) := read_bool file in
  let* (n, file) := read_le 4 file in
  let* (one, file) := read_le 4 file in
  let* (u, file) := read_le 4 file in
  let* (seqs, _, made) := load_sequences_heap (N.to_nat n) 0 (loaded_object fm rank_type block levelwise) file in
  let* answers :=
    run_queries (fun i => let* p := vgetN seqs i in Ok (snd p))
      (fun nq rep ts =>
         Intersect Bin (fst (sched nq rep)) (snd (sched nq rep)) hc (map bin_ops ts) runs parallel)
      0 queries in
  Ok (answers, made ++ free_each seqs).

(** The loop of loadTries as in [load_tries_loop]: tools/intersection_querylog_fastTrie.cpp:61-73. *)
Fixpoint load_tries_loop_heap (c : codecs) (blank : fast) (n : nat) (i : N) (ids : list N) (np : nat)
         (input : list N) (tries : list (N * fast)) (ev : list heap_event)
  : result (list (N * fast) * list heap_event) :=
  match n with
  | O => Ok (tries, ev)
  | S n' =>
    let ev := ev ++ [Make i] in
    let* (t, input) := fast_load c blank input in
    let* id := vget ids np in
    if N.eqb i id then
      let tries := tries ++ [(i, t)] in
      if S np =? length ids then Ok (tries, ev)
      else load_tries_loop_heap c blank n' (i + 1) ids (S np) input tries ev
    else load_tries_loop_heap c blank n' (i + 1) ids np input tries (ev ++ [Free i])
  end.

(** main, loadTries and performIntersections as in [fast_query_log] and [load_tries]:
    tools/intersection_querylog_fastTrie.cpp:45-122, 157-195. *)
Definition fast_query_log_heap (fm : formats) (blank : nat -> fast)
           (sched : nat -> nat -> scheduler * scheduler) (hc : N)
           (parallel : bool) (file : list N) (queries : list (list N))
  : result (list (option (list N)) * list heap_event) :=
  let* (rank_type, runs, levelwise, wsize, file) := read_fast_header file in
  let* runs := oget runs in
  let lw := word_log wsize in
  let* (n, file) := read_le 4 file in
  let* (one, file) := read_le 4 file in
  let* (u, file) := read_le 4 file in
  let* (tries, made) := load_tries_loop_heap (fast_codecs fm rank_type) (blank lw) (N.to_nat n) 0
                          (set_indexes queries) 0 file [] [] in
  let* answers := map_queries tries
    (fun nq rep ts =>
       Intersect (Fast lw) (fst (sched nq rep)) (snd (sched nq rep)) hc (map fast_ops ts) runs parallel)
    queries in
  Ok (answers, made ++ free_each tries).

(** The loop of loadTries in the checkers, as in [load_wanted]: test/test_intersection.cpp:60-101,
    test/test_intersection_fastTrie.cpp:59-67.  A trie that no query asks for is not deleted. *)
Fixpoint load_wanted_heap {T : Type} (load : list N -> result (T * list N)) (n : nat) (i : N)
         (ids : list N) (np : nat) (input : list N) (tries : list (N * T)) (ev : list heap_event)
  : result (list (N * T) * list heap_event) :=
  match n with
  | O => Ok (tries, ev)
  | S n' =>
    let ev := ev ++ [Make i] in
    let* (t, input) := load input in
    let* id := vget ids np in
    if N.eqb i id then
      let tries := tries ++ [(i, t)] in
      if S np =? length ids then Ok (tries, ev)
      else load_wanted_heap load n' (i + 1) ids (S np) input tries ev
    else load_wanted_heap load n' (i + 1) ids np input tries ev
  end.

(** As in [check_collection]: test/test_intersection.cpp:44-59, 106-160, 180-197. *)
Definition check_collection_heap (fm : formats) (sched : nat -> scheduler * scheduler) (hc : N)
           (sort : list (list N) -> list (list N)) (file : list N) (queries : list (list N))
  : result (bool * nat * list heap_event) :=
  let* (rank_type, file) := read_le 4 file in
  let* (block, file) := (if N.eqb rank_type 1 then read_le 4 file else Ok (512%N, file)) in
  let* (runs, file) := read_bool file in
  let* (levelwise, file) := read_bool file in
  let* (n, file) := read_le 4 file in
  let* (one, file) := read_le 4 file in
  let* (u, file) := read_le 4 file in
  let load input := let* (c, old) := loaded_object fm rank_type block levelwise in bin_load c old input in
  let* (tries, made) := load_wanted_heap load (N.to_nat n) 0 (set_indexes queries) 0 file [] [] in
  let* v := check_queries (wanted_trie tries) (fun t => bin_decode t [])
    (fun nq ts => Intersect Bin (fst (sched nq)) (snd (sched nq)) hc (map bin_ops ts) runs true)
    sort 0 queries in
  Ok (v, made ++ free_each tries).

(** As in [check_fast_collection]: test/test_intersection_fastTrie.cpp:44-56, 71-130, 152-160. *)
Definition check_fast_collection_heap (fm : formats) (blank : fast)
           (sched : nat -> scheduler * scheduler) (hc : N)
           (sort : list (list N) -> list (list N)) (file : list N) (queries : list (list N))
  : result (bool * nat * list heap_event) :=
  let* (rank_type, runs, n, one, u, file) := check_fast_header file in
  let* runs := oget runs in
  let* (tries, made) := load_wanted_heap (fast_load (fast_codecs fm rank_type) blank) (N.to_nat n) 0
                  (set_indexes queries) 0 file [] [] in
  let* v := check_queries (wanted_trie tries) (fun t => fast_decode t [])
    (fun nq ts => Intersect (Fast 6) (fst (sched nq)) (snd (sched nq)) hc (map fast_ops ts) runs true)
    sort 0 queries in
  Ok (v, made ++ free_each tries).
