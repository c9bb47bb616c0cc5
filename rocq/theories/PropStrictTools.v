(** Property C89: the query tools use only variables they have set. *)

From Verif Require Import Base FlatTrie LevelTrie FastTrie ParallelFor Intersection Tries Serialize Tools Strict StrictTools
  Spec SpecTries SpecFiles SpecTools SpecMeasures SpecCalls SpecLost SpecStrict SpecStrictTools SerializeThms
  ParForThms InterRefute ToolsThms FastToolsThms StrictToolsThms.

(** [query_log_strict] is the query tool with every variable read as C++ reads it: one that
    was not set is undefined behaviour.  Whenever it is defined, the answers are those of the
    other theorems. *)
Theorem C89_agrees : forall fm sched hc parallel file queries rs,
  query_log_strict fm sched hc parallel file queries = Ok rs -> query_log fm sched hc parallel file queries = Ok rs.
Proof. exact query_strict_agrees. Qed.
Print Assumptions C89_agrees.

(** The same for fast tries. *)
Theorem C89_fast_agrees : forall fm blank sched hc parallel file queries rs,
  fast_query_log_strict fm blank sched hc parallel file queries = Ok rs ->
  fast_query_log fm blank sched hc parallel file queries = Ok rs.
Proof. exact fast_query_strict_agrees. Qed.
Print Assumptions C89_fast_agrees.

(** Over collections built with runs nothing unset is read, in any mode: C36 and the others
    hold as they are. *)
Theorem C89_runs : forall fm min_size max_size rank_type block levelwise one u lists hc parallel sched queries,
  formats_ok fm -> collection_ok one u lists -> (2 <= u)%N ->
  loadable_options rank_type block levelwise ->
  Forall (stored_ok u (built_variant rank_type levelwise) true) (kept_lists min_size max_size lists) ->
  exists file,
    build_tries fm min_size max_size rank_type block true levelwise (collection_file one u lists) = Ok file /\
    query_log_strict fm sched hc parallel file queries = query_log fm sched hc parallel file queries.
Proof. exact built_strict_runs. Qed.
Print Assumptions C89_runs.

(** The same for fast tries. *)
Theorem C89_fast_runs : forall fm junk min_size max_size rank_type levelwise lw one u lists blank hc parallel sched queries,
  formats_ok fm -> collection_ok one u lists -> fast_universe u lw -> (rank_type < 2 ^ 32)%N -> rank_type <> 1%N ->
  junk_ok junk -> blank_ok blank -> Forall (fast_ok u) (kept_lists min_size max_size lists) -> concat queries <> [] ->
  exists file,
    build_fast_tries fm junk min_size max_size rank_type true levelwise lw (collection_file one u lists) = Ok file /\
    fast_query_log_strict fm blank sched hc parallel file queries = fast_query_log fm blank sched hc parallel file queries.
Proof. exact built_fast_strict_runs. Qed.
Print Assumptions C89_fast_runs.

(** Full claim: over every collection.  Over collections built without runs it holds exactly
    for the logs of which every query of at most 16 ids is as [flags_ok] says, and then the
    answers are the intersections; one other query, and the run is undefined. *)
Theorem C89_plain_partial : forall fm min_size max_size rank_type block levelwise one u lists hc parallel sched queries,
  formats_ok fm -> collection_ok one u lists -> (3 <= u)%N ->
  loadable_options rank_type block levelwise ->
  Forall (stored_ok u (built_variant rank_type levelwise) false) (kept_lists min_size max_size lists) ->
  (1 <= hc < 2 ^ 16)%N ->
  (forall nq rep, valid_scheduler (fst (sched nq rep)) /\ valid_scheduler (snd (sched nq rep))) ->
  Forall (query_ok (kept_lists min_size max_size lists)) queries ->
  exists file,
    build_tries fm min_size max_size rank_type block false levelwise (collection_file one u lists) = Ok file /\
    (Forall (fun q => length q <= 16 -> flags_ok 2 0 u hc parallel (lists_at (kept_lists min_size max_size lists) q)) queries ->
       exists rs, query_log_strict fm sched hc parallel file queries = Ok rs /\
         Forall2 (answers (kept_lists min_size max_size lists)) queries rs) /\
    (Exists (fun q => length q <= 16 /\ ~ flags_ok 2 0 u hc parallel (lists_at (kept_lists min_size max_size lists) q)) queries ->
       query_log_strict fm sched hc parallel file queries = UB Indeterminate).
Proof. exact query_strict. Qed.
Print Assumptions C89_plain_partial.

(** The same for fast tries. *)
Theorem C89_fast_plain_partial : forall fm junk min_size max_size rank_type levelwise lw one u lists blank hc parallel sched queries,
  formats_ok fm -> collection_ok one u lists -> fast_universe u lw -> (2 ^ N.of_nat lw < u)%N ->
  (rank_type < 2 ^ 32)%N -> rank_type <> 1%N ->
  junk_ok junk -> blank_ok blank -> Forall (fast_ok u) (kept_lists min_size max_size lists) ->
  (1 <= hc < 2 ^ 16)%N ->
  (forall nq rep, valid_scheduler (fst (sched nq rep)) /\ valid_scheduler (snd (sched nq rep))) ->
  queries <> [] -> Forall (query_ok (kept_lists min_size max_size lists)) queries ->
  exists file,
    build_fast_tries fm junk min_size max_size rank_type false levelwise lw (collection_file one u lists) = Ok file /\
    (Forall (fun q => length q <= 16 -> flags_ok (S lw) lw u hc parallel (lists_at (kept_lists min_size max_size lists) q)) queries ->
       exists rs, fast_query_log_strict fm blank sched hc parallel file queries = Ok rs /\
         Forall2 (answers (kept_lists min_size max_size lists)) queries rs) /\
    (Exists (fun q => length q <= 16 /\ ~ flags_ok (S lw) lw u hc parallel (lists_at (kept_lists min_size max_size lists) q)) queries ->
       fast_query_log_strict fm blank sched hc parallel file queries = UB Indeterminate).
Proof. exact fast_query_strict. Qed.
Print Assumptions C89_fast_plain_partial.

(** So one query whose answer has an odd value without the even one before it makes the
    run undefined, in sequence and in parallel. *)
Theorem C89_odd_refuted : forall fm min_size max_size rank_type block levelwise one u lists hc parallel sched queries q x,
  formats_ok fm -> collection_ok one u lists -> (3 <= u)%N ->
  loadable_options rank_type block levelwise ->
  Forall (stored_ok u (built_variant rank_type levelwise) false) (kept_lists min_size max_size lists) ->
  (1 <= hc < 2 ^ 16)%N ->
  (forall nq rep, valid_scheduler (fst (sched nq rep)) /\ valid_scheduler (snd (sched nq rep))) ->
  Forall (query_ok (kept_lists min_size max_size lists)) queries ->
  In q queries -> length q <= 16 -> N.odd x = true ->
  Forall (fun s => In x s) (lists_at (kept_lists min_size max_size lists) q) ->
  ~ Forall (fun s => In (x - 1)%N s) (lists_at (kept_lists min_size max_size lists) q) ->
  exists file,
    build_tries fm min_size max_size rank_type block false levelwise (collection_file one u lists) = Ok file /\
    query_log_strict fm sched hc parallel file queries = UB Indeterminate.
Proof. exact query_odd. Qed.
Print Assumptions C89_odd_refuted.

(** For fast tries: a common value in an odd-numbered word, one list having nothing in the
    word before it. *)
Theorem C89_fast_odd_refuted : forall fm junk min_size max_size rank_type levelwise lw one u lists blank hc parallel sched queries q x,
  formats_ok fm -> collection_ok one u lists -> fast_universe u lw -> (2 ^ N.of_nat lw < u)%N ->
  (rank_type < 2 ^ 32)%N -> rank_type <> 1%N ->
  junk_ok junk -> blank_ok blank -> Forall (fast_ok u) (kept_lists min_size max_size lists) ->
  (1 <= hc < 2 ^ 16)%N ->
  (forall nq rep, valid_scheduler (fst (sched nq rep)) /\ valid_scheduler (snd (sched nq rep))) ->
  Forall (query_ok (kept_lists min_size max_size lists)) queries ->
  In q queries -> length q <= 16 ->
  (parallel = true -> digits u <> N.to_nat (N.log2 hc) + S lw) ->
  N.odd (x / 2 ^ N.of_nat lw) = true ->
  Forall (fun s => In x s) (lists_at (kept_lists min_size max_size lists) q) ->
  Exists (fun s => forall y, In y s -> (y / 2 ^ N.of_nat lw + 1 <> x / 2 ^ N.of_nat lw)%N) (lists_at (kept_lists min_size max_size lists) q) ->
  exists file,
    build_fast_tries fm junk min_size max_size rank_type false levelwise lw (collection_file one u lists) = Ok file /\
    fast_query_log_strict fm blank sched hc parallel file queries = UB Indeterminate.
Proof. exact fast_query_odd. Qed.
Print Assumptions C89_fast_odd_refuted.

(** The first two lists can be queried; with the third, which has 11 and not 10 in common
    with the second, and nothing in the word before, the same run is undefined. *)
Example C89_example :
  let lists := [[0; 1; 2; 4; 40]; [0; 1; 2; 4; 7; 11; 21; 50]; [11; 21; 33]]%N in
  let sched := (fun _ _ => (in_order, backwards)) : nat -> nat -> scheduler * scheduler in
  let bin parallel queries :=
    let* file := build_tries plain_formats 0 100 0 512 false false (collection_file 1 64 lists) in
    query_log_strict plain_formats sched 2 parallel file queries in
  let fast parallel queries :=
    let* file := build_fast_tries plain_formats (fun _ => mkJunk None (Some false) 77 0) 0 100 0 false false 3
                   (collection_file 1 64 lists) in
    fast_query_log_strict plain_formats (fun lw => fast_default lw 0 0 None false None) sched 2 parallel file queries in
  (collection_ok 1 64 lists /\ kept_lists 0 100 lists = lists /\ loadable_options 0 512 false /\
   Forall (stored_ok 64 (built_variant 0 false) false) lists /\ fast_universe 64 3 /\ Forall (fast_ok 64) lists /\
   Forall (query_ok lists) [[0; 1]; [1; 2]]%N /\ digits 64 = 6) /\
  (bin false [[0; 1]]%N = Ok [Some [0; 1; 2; 4]%N] /\ bin true [[0; 1]]%N = Ok [Some [0; 1; 2; 4]%N] /\
   bin false [[0; 1]; [1; 2]]%N = UB Indeterminate /\ bin true [[0; 1]; [1; 2]]%N = UB Indeterminate) /\
  (fast false [[0; 1]]%N = Ok [Some [0; 1; 2; 4]%N] /\ fast true [[0; 1]]%N = Ok [Some [0; 1; 2; 4]%N] /\
   fast false [[0; 1]; [1; 2]]%N = UB Indeterminate /\ fast true [[0; 1]; [1; 2]]%N = UB Indeterminate).
Proof.
  cbv zeta. split; [|split; vm_compute; repeat split; reflexivity].
  split; [split; [reflexivity|split; [reflexivity|split; [reflexivity|split; repeat constructor]]]|].
  split; [reflexivity|]. split; [split; [reflexivity|split; [reflexivity|discriminate]]|].
  split; [repeat first [apply Forall_cons | apply Forall_nil]; sets_ok|].
  split; [split; [left; reflexivity|split; [reflexivity|discriminate]]|].
  split; [repeat first [apply Forall_cons | apply Forall_nil]; sets_ok|].
  split; [|reflexivity]. repeat first [apply Forall_cons | apply Forall_nil]; split; try discriminate; repeat constructor.
Qed.
