(** The query tools with the flags of AND read as C++ reads them (Strict.v). *)

From Verif Require Import Base FlatTrie LevelTrie FastTrie ParallelFor Intersection Tries Serialize Tools Strict.

(** Intersect: src/intersection.cpp:305-435, src/fastTrieIntersection.cpp:327-459. *)
Definition strict_call (k : kind) (s1 s2 : scheduler) (hc : N) (Ts : list trie_ops) (runs parallel : bool)
  : result (list N) :=
  if parallel then Intersect_strict_par k s1 s2 hc Ts runs else Intersect_strict k hc Ts runs.

(** performIntersections, as [query_log]: tools/intersection_query_log.cpp:109-169. *)
Definition query_log_strict (fm : formats) (sched : nat -> nat -> scheduler * scheduler) (hc : N)
           (parallel : bool) (file : list N) (queries : list (list N))
  : result (list (option (list N))) :=
  let* (runs, seqs) := load_collection fm file in
  run_queries (fun i => vgetN seqs i)
    (fun nq rep ts =>
       strict_call Bin (fst (sched nq rep)) (snd (sched nq rep)) hc (map bin_ops ts) runs parallel)
    0 queries.

(** performIntersections, as [fast_query_log]: tools/intersection_querylog_fastTrie.cpp:78-123. *)
Definition fast_query_log_strict (fm : formats) (blank : nat -> fast)
           (sched : nat -> nat -> scheduler * scheduler) (hc : N)
           (parallel : bool) (file : list N) (queries : list (list N))
  : result (list (option (list N))) :=
  let* (rank_type, runs, levelwise, wsize, file) := read_fast_header file in
  let* runs := oget runs in
  let lw := word_log wsize in
  let* tries := load_tries (fast_codecs fm rank_type) (blank lw) queries file in
  map_queries tries
    (fun nq rep ts =>
       strict_call (Fast lw) (fst (sched nq rep)) (snd (sched nq rep)) hc (map fast_ops ts) runs parallel)
    queries.
