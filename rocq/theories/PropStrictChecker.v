(** Property C94: the intersection checkers use only variables they have set. *)

From Verif Require Import Base FlatTrie LevelTrie FastTrie ParallelFor Intersection Tries Serialize Tools Strict StrictTools
  Reference Checker StrictChecker
  Spec SpecTries SpecFiles SpecTools SpecMeasures SpecCalls SpecLost SpecStrict SpecStrictTools SpecChecker SerializeThms
  ParForThms InterRefute ToolsThms FastToolsThms ReferenceFacts CheckerFast StrictCheckerThms.

(** [check_collection_strict] is the checker of test_intersection with every variable read as
    C++ reads it: one that was not set is undefined behaviour.  Whenever it is defined, the
    verdict is that of C63. *)
Theorem C94_agrees : forall fm sched hc sort file queries v,
  check_collection_strict fm sched hc sort file queries = Ok v -> check_collection fm sched hc sort file queries = Ok v.
Proof. exact checker_strict_agrees. Qed.
Print Assumptions C94_agrees.

(** The same for fast tries. *)
Theorem C94_fast_agrees : forall fm blank sched hc sort file queries v,
  check_fast_collection_strict fm blank sched hc sort file queries = Ok v ->
  check_fast_collection fm blank sched hc sort file queries = Ok v.
Proof. exact fast_checker_strict_agrees. Qed.
Print Assumptions C94_fast_agrees.

(** Over collections built with runs nothing unset is read: C63 holds as it is. *)
Theorem C94_runs : forall fm min_size max_size rank_type block levelwise one u lists hc sched sort queries,
  formats_ok fm -> collection_ok one u lists -> (2 <= u)%N ->
  loadable_options rank_type block levelwise ->
  Forall (stored_ok u (built_variant rank_type levelwise) true) (kept_lists min_size max_size lists) -> concat queries <> [] ->
  exists file,
    build_tries fm min_size max_size rank_type block true levelwise (collection_file one u lists) = Ok file /\
    check_collection_strict fm sched hc sort file queries = check_collection fm sched hc sort file queries.
Proof. exact checker_strict_runs. Qed.
Print Assumptions C94_runs.

(** The same for fast tries; the checker takes the file without the word size (C63). *)
Theorem C94_fast_runs : forall fm junk min_size max_size rank_type levelwise one u lists blank hc sched sort queries,
  formats_ok fm -> collection_ok one u lists -> fast_universe u 6 -> (rank_type < 2 ^ 32)%N -> rank_type <> 1%N ->
  junk_ok junk -> Forall (fast_ok u) (kept_lists min_size max_size lists) ->
  exists file,
    build_fast_tries fm junk min_size max_size rank_type true levelwise 6 (collection_file one u lists) = Ok file /\
    check_fast_collection_strict fm blank sched hc sort (without_word_size file) queries
    = check_fast_collection fm blank sched hc sort (without_word_size file) queries.
Proof. exact fast_checker_strict_runs. Qed.
Print Assumptions C94_fast_runs.

(** Full claim: over every collection.  Over collections built without runs it holds exactly
    for the logs of which every query of at most 16 ids is as [flags_ok] says, and then all
    queries pass; one other query, and the check is undefined. *)
Theorem C94_plain_partial : forall fm min_size max_size rank_type block levelwise one u lists hc sched sort queries,
  formats_ok fm -> collection_ok one u lists -> (3 <= u)%N ->
  loadable_options rank_type block levelwise ->
  Forall (stored_ok u (built_variant rank_type levelwise) false) (kept_lists min_size max_size lists) ->
  (1 <= hc < 2 ^ 16)%N ->
  (forall nq, valid_scheduler (fst (sched nq)) /\ valid_scheduler (snd (sched nq))) -> valid_sort sort ->
  queries <> [] -> Forall (query_ok (kept_lists min_size max_size lists)) queries ->
  exists file,
    build_tries fm min_size max_size rank_type block false levelwise (collection_file one u lists) = Ok file /\
    (Forall (fun q => length q <= 16 -> flags_ok 2 0 u hc true (lists_at (kept_lists min_size max_size lists) q)) queries ->
       check_collection_strict fm sched hc sort file queries = Ok (false, length (short_queries queries))) /\
    (Exists (fun q => length q <= 16 /\ ~ flags_ok 2 0 u hc true (lists_at (kept_lists min_size max_size lists) q)) queries ->
       check_collection_strict fm sched hc sort file queries = UB Indeterminate).
Proof. exact checker_strict. Qed.
Print Assumptions C94_plain_partial.

(** The same for fast tries. *)
Theorem C94_fast_plain_partial : forall fm junk min_size max_size rank_type levelwise one u lists blank hc sched sort queries,
  formats_ok fm -> collection_ok one u lists -> fast_universe u 6 -> (64 < u)%N -> (rank_type < 2 ^ 32)%N -> rank_type <> 1%N ->
  junk_ok junk -> blank_ok blank -> Forall (fast_ok u) (kept_lists min_size max_size lists) ->
  (1 <= hc < 2 ^ 16)%N ->
  (forall nq, valid_scheduler (fst (sched nq)) /\ valid_scheduler (snd (sched nq))) -> valid_sort sort ->
  queries <> [] -> Forall (query_ok (kept_lists min_size max_size lists)) queries ->
  exists file,
    build_fast_tries fm junk min_size max_size rank_type false levelwise 6 (collection_file one u lists) = Ok file /\
    (Forall (fun q => length q <= 16 -> flags_ok 7 6 u hc true (lists_at (kept_lists min_size max_size lists) q)) queries ->
       check_fast_collection_strict fm (blank 6) sched hc sort (without_word_size file) queries
       = Ok (false, length (short_queries queries))) /\
    (Exists (fun q => length q <= 16 /\ ~ flags_ok 7 6 u hc true (lists_at (kept_lists min_size max_size lists) q)) queries ->
       check_fast_collection_strict fm (blank 6) sched hc sort (without_word_size file) queries = UB Indeterminate).
Proof. exact fast_checker_strict. Qed.
Print Assumptions C94_fast_plain_partial.

(** So one query whose answer has an odd value without the even one before it makes the check
    undefined, although every value of a flag that was not set gives the verdict that all is
    well. *)
Theorem C94_odd_refuted : forall fm min_size max_size rank_type block levelwise one u lists hc sched sort queries q x,
  formats_ok fm -> collection_ok one u lists -> (3 <= u)%N ->
  loadable_options rank_type block levelwise ->
  Forall (stored_ok u (built_variant rank_type levelwise) false) (kept_lists min_size max_size lists) ->
  (1 <= hc < 2 ^ 16)%N ->
  (forall nq, valid_scheduler (fst (sched nq)) /\ valid_scheduler (snd (sched nq))) -> valid_sort sort ->
  Forall (query_ok (kept_lists min_size max_size lists)) queries ->
  In q queries -> length q <= 16 -> N.odd x = true ->
  Forall (fun s => In x s) (lists_at (kept_lists min_size max_size lists) q) ->
  ~ Forall (fun s => In (x - 1)%N s) (lists_at (kept_lists min_size max_size lists) q) ->
  exists file,
    build_tries fm min_size max_size rank_type block false levelwise (collection_file one u lists) = Ok file /\
    check_collection fm sched hc sort file queries = Ok (false, length (short_queries queries)) /\
    check_collection_strict fm sched hc sort file queries = UB Indeterminate.
Proof. exact checker_odd. Qed.
Print Assumptions C94_odd_refuted.

(** For fast tries: a common value in an odd-numbered word, one list having nothing in the
    word before it. *)
Theorem C94_fast_odd_refuted : forall fm junk min_size max_size rank_type levelwise one u lists blank hc sched sort queries q x,
  formats_ok fm -> collection_ok one u lists -> fast_universe u 6 -> (64 < u)%N -> (rank_type < 2 ^ 32)%N -> rank_type <> 1%N ->
  junk_ok junk -> blank_ok blank -> Forall (fast_ok u) (kept_lists min_size max_size lists) ->
  (1 <= hc < 2 ^ 16)%N ->
  (forall nq, valid_scheduler (fst (sched nq)) /\ valid_scheduler (snd (sched nq))) -> valid_sort sort ->
  Forall (query_ok (kept_lists min_size max_size lists)) queries ->
  In q queries -> length q <= 16 -> digits u <> N.to_nat (N.log2 hc) + 7 ->
  N.odd (x / 64) = true ->
  Forall (fun s => In x s) (lists_at (kept_lists min_size max_size lists) q) ->
  Exists (fun s => forall y, In y s -> (y / 64 + 1 <> x / 64)%N) (lists_at (kept_lists min_size max_size lists) q) ->
  exists file,
    build_fast_tries fm junk min_size max_size rank_type false levelwise 6 (collection_file one u lists) = Ok file /\
    check_fast_collection fm (blank 6) sched hc sort (without_word_size file) queries
      = Ok (false, length (short_queries queries)) /\
    check_fast_collection_strict fm (blank 6) sched hc sort (without_word_size file) queries = UB Indeterminate.
Proof. exact fast_checker_odd. Qed.
Print Assumptions C94_fast_odd_refuted.

(** The first two lists can be checked; with the third, which has 11 and not 10 in common
    with the second, and 200 in a word after one where it has nothing, the same check is
    undefined. *)
Example C94_example :
  let lists := [[0; 1; 2; 4; 40]; [0; 1; 2; 4; 7; 11; 21; 200]; [11; 21; 200]]%N in
  let sched := (fun _ => (in_order, backwards)) : nat -> scheduler * scheduler in
  let bin runs queries :=
    let* file := build_tries plain_formats 0 100 0 512 runs true (collection_file 1 256 lists) in
    check_collection_strict plain_formats sched 2 (fun l => l) file queries in
  let fast queries :=
    let* file := build_fast_tries plain_formats (fun _ => mkJunk None (Some false) 77 0) 0 100 0 false false 6
                   (collection_file 1 256 lists) in
    check_fast_collection_strict plain_formats (fast_default 6 0 0 None false None) sched 1 (fun l => l)
      (without_word_size file) queries in
  (collection_ok 1 256 lists /\ kept_lists 0 100 lists = lists /\ loadable_options 0 512 true /\
   Forall (stored_ok 256 (built_variant 0 true) false) lists /\ fast_universe 256 6 /\ Forall (fast_ok 256) lists /\
   Forall (query_ok lists) [[0; 1]; [1; 2]]%N /\ digits 256 = 8) /\
  (bin false [[0; 1]]%N = Ok (false, 1) /\ bin false [[0; 1]; [1; 2]]%N = UB Indeterminate /\
   bin true [[0; 1]; [1; 2]]%N = Ok (false, 2)) /\
  (fast [[0; 1]]%N = Ok (false, 1) /\ fast [[0; 1]; [1; 2]]%N = UB Indeterminate).
Proof.
  cbv zeta. split; [|split; vm_compute; repeat split; reflexivity].
  split; [split; [reflexivity|split; [reflexivity|split; [reflexivity|split; repeat constructor]]]|].
  split; [reflexivity|]. split; [split; [reflexivity|split; [reflexivity|discriminate]]|].
  split; [repeat first [apply Forall_cons | apply Forall_nil]; sets_ok|].
  split; [split; [cbn; auto|split; [reflexivity|discriminate]]|].
  split; [repeat first [apply Forall_cons | apply Forall_nil]; sets_ok|].
  split; [|reflexivity]. repeat first [apply Forall_cons | apply Forall_nil]; split; try discriminate; repeat constructor.
Qed.
