(** The intersection checkers with the flags of AND read as C++ reads them (Strict.v). *)

From Verif Require Import Base FlatTrie LevelTrie FastTrie ParallelFor Intersection Tries Serialize Tools Reference Checker
  Strict StrictTools.

(** The header and loadTries: test/test_intersection.cpp:180-184, 44-103.  The result: the
    option runs and the tries of the ids that the queries have. *)
Definition checker_tries (fm : formats) (file : list N) (queries : list (list N)) : result (bool * list (N * bin_trie)) :=
  let* (rank_type, file) := read_le 4 file in
  let* (block, file) := (if N.eqb rank_type 1 then read_le 4 file else Ok (512%N, file)) in
  let* (runs, file) := read_bool file in
  let* (levelwise, file) := read_bool file in
  let* (n, file) := read_le 4 file in
  let* (one, file) := read_le 4 file in
  let* (u, file) := read_le 4 file in
  let load input := let* (c, old) := loaded_object fm rank_type block levelwise in bin_load c old input in
  let* tries := load_wanted load (N.to_nat n) 0 (set_indexes queries) 0 file [] in
  Ok (runs, tries).

(** test/test_intersection.cpp as in [check_collection]; the call of Intersect (line
    133) is read strictly. *)
Definition check_collection_strict (fm : formats) (sched : nat -> scheduler * scheduler) (hc : N)
           (sort : list (list N) -> list (list N)) (file : list N) (queries : list (list N))
  : result (bool * nat) :=
  let* (runs, tries) := checker_tries fm file queries in
  check_queries (wanted_trie tries) (fun t => bin_decode t [])
    (fun nq ts => strict_call Bin (fst (sched nq)) (snd (sched nq)) hc (map bin_ops ts) runs true)
    sort 0 queries.

(** test/test_intersection_fastTrie.cpp as in [check_fast_collection]; the call of Intersect
    (line 99) is read strictly. *)
Definition check_fast_collection_strict (fm : formats) (blank : fast)
           (sched : nat -> scheduler * scheduler) (hc : N)
           (sort : list (list N) -> list (list N)) (file : list N) (queries : list (list N))
  : result (bool * nat) :=
  let* (rank_type, runs, n, one, u, file) := check_fast_header file in
  let* runs := oget runs in
  let* tries := load_wanted (fast_load (fast_codecs fm rank_type) blank) (N.to_nat n) 0
                  (set_indexes queries) 0 file [] in
  check_queries (wanted_trie tries) (fun t => fast_decode t [])
    (fun nq ts => strict_call (Fast 6) (fst (sched nq)) (snd (sched nq)) hc (map fast_ops ts) runs true)
    sort 0 queries.
