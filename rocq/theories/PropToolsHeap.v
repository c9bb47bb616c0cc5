(** Property C95: the tries that the query tools and the intersection checkers make and destroy. *)

From Verif Require Import Base FlatTrie LevelTrie FastTrie ParallelFor Intersection Tries Serialize Tools Reference Checker
  Spec SpecTries SpecTools SerializeThms ParForThms ToolsThms FastToolsThms CheckerFast ToolsHeap SpecHeap ToolsHeapThms.

(** The record leaves the results as they are. *)
Theorem C95_record : forall fm sched hc parallel file queries,
  (let* (r, _) := query_log_heap fm sched hc parallel file queries in Ok r)
  = query_log fm sched hc parallel file queries.
Proof. exact query_log_erase. Qed.
Print Assumptions C95_record.

Theorem C95_fast_record : forall fm blank sched hc parallel file queries,
  (let* (r, _) := fast_query_log_heap fm blank sched hc parallel file queries in Ok r)
  = fast_query_log fm blank sched hc parallel file queries.
Proof. exact fast_query_log_erase. Qed.
Print Assumptions C95_fast_record.

Theorem C95_checker_record : forall fm sched hc sort file queries,
  (let* (v, _) := check_collection_heap fm sched hc sort file queries in Ok v)
  = check_collection fm sched hc sort file queries.
Proof. exact check_erase. Qed.
Print Assumptions C95_checker_record.

Theorem C95_fast_checker_record : forall fm blank sched hc sort file queries,
  (let* (v, _) := check_fast_collection_heap fm blank sched hc sort file queries in Ok v)
  = check_fast_collection fm blank sched hc sort file queries.
Proof. exact check_fast_erase. Qed.
Print Assumptions C95_fast_checker_record.

(** The query tool frees each trie once and leaves none.  It never holds more tries than the
    file has, but it holds all of them while it answers, whatever the queries ask for.
    Missing: that it holds only the tries asked for, which is false. *)
Theorem C95_query_partial : forall fm sched hc parallel file queries answers ev,
  query_log_heap fm sched hc parallel file queries = Ok (answers, ev) ->
  exists runs ts, load_collection fm file = Ok (runs, ts) /\
    alive_after ev = Some [] /\
    at_any_time ev (fun live => length live <= length ts) /\
    exists before later, ev = before ++ later /\ alive_after before = Some (nrange 0 (length ts)).
Proof. exact query_heap. Qed.
Print Assumptions C95_query_partial.

(** The query tool for fast tries frees each trie once and leaves none, and at any time at most
    one trie is alive that no query asks for. *)
Theorem C95_fast_query : forall fm blank sched hc parallel file queries answers ev,
  fast_query_log_heap fm blank sched hc parallel file queries = Ok (answers, ev) ->
  alive_after ev = Some [] /\ at_any_time ev (fun live => length (not_asked queries live) <= 1).
Proof. exact fast_query_heap. Qed.
Print Assumptions C95_fast_query.

(** The checkers free no trie twice, but leave alive exactly those tries that no query asks for
    and that precede one that a query asks for. *)
Theorem C95_checker_partial : forall fm sched hc sort file queries failed nq ev,
  check_collection_heap fm sched hc sort file queries = Ok (failed, nq, ev) ->
  exists n, stored_sets file = Ok n /\ leaks n queries failed ev.
Proof. exact check_heap. Qed.
Print Assumptions C95_checker_partial.

Theorem C95_fast_checker_partial : forall fm blank sched hc sort file queries failed nq ev,
  check_fast_collection_heap fm blank sched hc sort file queries = Ok (failed, nq, ev) ->
  exists n, stored_sets file = Ok n /\ leaks n queries failed ev.
Proof. exact check_fast_heap. Qed.
Print Assumptions C95_fast_checker_partial.

(** Four lists, of which the queries ask for the second and the third. *)
Example C95_example :
  let lists := [[3; 5; 9]; [5; 40]; [5; 6; 40]; [1; 2]]%N in
  let sched := (fun _ _ => (in_order, in_order)) : nat -> nat -> scheduler * scheduler in
  let once := (fun _ => (in_order, in_order)) : nat -> scheduler * scheduler in
  let blank lw := fast_default lw 0 0 None false None in
  let bin := build_tries plain_formats 0 100 0 512 false false (collection_file 1 64 lists) in
  let junk := (fun _ => mkJunk None (Some false) 77 0) : nat -> fast_junk in
  let fast lw := build_fast_tries plain_formats junk 0 100 0 false false lw (collection_file 1 256 lists) in
  let queries := [[1; 2]]%N in
  (let* file := bin in query_log_heap plain_formats sched 4 false file queries)
  = Ok ([Some [5; 40]%N], map Make [0; 1; 2; 3]%N ++ map Free [0; 1; 2; 3]%N) /\
  (let* file := fast 4 in fast_query_log_heap plain_formats blank sched 4 false file queries)
  = Ok ([Some [5; 40]%N], [Make 0; Free 0; Make 1; Make 2; Free 1; Free 2]%N) /\
  (let* file := bin in check_collection_heap plain_formats once 4 (fun l => l) file queries)
  = Ok (false, 1, [Make 0; Make 1; Make 2; Free 1; Free 2]%N) /\
  (let* file := fast 6 in
   check_fast_collection_heap plain_formats (blank 6) once 1 (fun l => l) (without_word_size file) queries)
  = Ok (false, 1, [Make 0; Make 1; Make 2; Free 1; Free 2]%N) /\
  alive_after [Make 0; Make 1; Make 2; Free 1; Free 2]%N = Some [0%N] /\
  (let* file := bin in stored_sets file) = Ok 4%N.
Proof. repeat split; vm_compute; reflexivity. Qed.

(** So a check can leave a trie alive. *)
Theorem C95_checker_refuted :
  ~ (forall fm sched hc sort file queries failed nq ev,
       check_collection_heap fm sched hc sort file queries = Ok (failed, nq, ev) -> alive_after ev = Some []).
Proof. exact check_heap_leaks. Qed.
Print Assumptions C95_checker_refuted.
