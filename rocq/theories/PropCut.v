(** Property C73: collection files of which only the first part was written. *)

From Verif Require Import Base FlatTrie LevelTrie FastTrie ParallelFor Intersection Tries Serialize
  Tools Cut Spec SpecTries SpecFiles SpecTools SpecCut SerializeThms InterRefute ParForThms ToolsThms
  FastToolsThms CutThms.

(** The model of truncated files agrees with the model of the tools wherever that one
    gives an answer, whatever the memory holds. *)
Theorem C73_whole : forall fm k sched hc parallel file queries rs,
  query_log fm sched hc parallel file queries = Ok rs ->
  query_log_cut fm k sched hc parallel file queries = Ok rs.
Proof. exact query_log_ok. Qed.
Print Assumptions C73_whole.

Theorem C73_fast_whole : forall fm k blank sched hc parallel file queries rs,
  fast_query_log fm blank sched hc parallel file queries = Ok rs ->
  fast_query_log_cut fm k blank sched hc parallel file queries = Ok rs.
Proof. exact fast_query_log_ok. Qed.
Print Assumptions C73_fast_whole.

(** Full claim: a file cut at any byte is reported.  It never is: the program uses
    variables that were never set, or goes on with the tries before the cut and one
    trie whose content depends on the memory. *)
Theorem C73_load_partial : forall fm k min_size max_size rank_type block runs levelwise one u lists,
  formats_ok fm -> formats_need_all fm -> collection_ok one u lists -> (2 <= u)%N ->
  loadable_options rank_type block levelwise ->
  Forall (stored_ok u (built_variant rank_type levelwise) runs) (kept_lists min_size max_size lists) ->
  exists file ts,
    build_tries fm min_size max_size rank_type block runs levelwise (collection_file one u lists) = Ok file /\
    load_collection fm file = Ok (runs, ts) /\
    each_ok (bin_make u (built_variant rank_type levelwise) runs) (kept_lists min_size max_size lists) = Ok ts /\
    forall p, p < length file ->
      load_collection_cut fm k (cut_at p file) = UB Indeterminate \/
      exists i x, i < length (kept_lists min_size max_size lists) /\
        load_collection_cut fm k (cut_at p file) = Ok (runs, firstn i ts ++ [x]).
Proof. exact collection_cut. Qed.
Print Assumptions C73_load_partial.

(** What can still be relied on: when answers come out, no query named a list after
    the cut one, and the queries about lists before it are answered in full. *)
Theorem C73_answers_partial : forall fm k min_size max_size rank_type block runs levelwise one u lists,
  formats_ok fm -> formats_need_all fm -> collection_ok one u lists -> (2 <= u)%N ->
  loadable_options rank_type block levelwise ->
  Forall (stored_ok u (built_variant rank_type levelwise) runs) (kept_lists min_size max_size lists) ->
  exists file,
    build_tries fm min_size max_size rank_type block runs levelwise (collection_file one u lists) = Ok file /\
    forall p, p < length file ->
      load_collection_cut fm k (cut_at p file) = UB Indeterminate \/
      exists i, (i < N.of_nat (length (kept_lists min_size max_size lists)))%N /\
        forall hc parallel sched queries rs, exact_mode u runs parallel hc sched (kept_lists min_size max_size lists) ->
          Forall (fun q => q <> []) queries ->
          query_log_cut fm k sched hc parallel (cut_at p file) queries = Ok rs ->
          Forall2 (fun q r => Forall (fun x => (x <= i)%N) q /\
                     (Forall (fun x => (x < i)%N) q -> answers (kept_lists min_size max_size lists) q r))
                  queries rs.
Proof. exact queries_cut. Qed.
Print Assumptions C73_answers_partial.

(** The answers about the cut list can be wrong. *)
Theorem C73_unnoticed_refuted :
  ~ (forall fm k min_size max_size rank_type block runs levelwise one u lists file hc parallel sched
            queries rs p,
       formats_ok fm -> formats_need_all fm -> collection_ok one u lists -> (2 <= u)%N ->
       loadable_options rank_type block levelwise ->
       Forall (stored_ok u (built_variant rank_type levelwise) runs) (kept_lists min_size max_size lists) ->
       exact_mode u runs parallel hc sched (kept_lists min_size max_size lists) ->
       Forall (query_ok (kept_lists min_size max_size lists)) queries ->
       build_tries fm min_size max_size rank_type block runs levelwise (collection_file one u lists) = Ok file ->
       p < length file ->
       query_log_cut fm k sched hc parallel (cut_at p file) queries = Ok rs ->
       Forall2 (answers (kept_lists min_size max_size lists)) queries rs).
Proof. exact cut_unnoticed. Qed.
Print Assumptions C73_unnoticed_refuted.

(** Fast tries: up to some byte everything is undefined, from it on the answers are
    those of the whole file (the tool stops reading after the last list it needs). *)
Theorem C73_fast_partial :
  forall fm k junk min_size max_size rank_type runs levelwise lw one u lists blank hc parallel sched queries,
  formats_ok fm -> formats_need_all fm -> collection_ok one u lists -> fast_universe u lw ->
  (rank_type < 2 ^ 32)%N -> rank_type <> 1%N ->
  junk_ok junk -> blank_ok blank -> Forall (fast_ok u) (kept_lists min_size max_size lists) ->
  fast_exact_mode u lw runs parallel hc sched (kept_lists min_size max_size lists) ->
  queries <> [] -> Forall (query_ok (kept_lists min_size max_size lists)) queries ->
  exists file e rs,
    build_fast_tries fm junk min_size max_size rank_type runs levelwise lw (collection_file one u lists) = Ok file /\
    e <= length file /\ Forall2 (answers (kept_lists min_size max_size lists)) queries rs /\
    (forall p, e <= p ->
       fast_query_log_cut fm k blank sched hc parallel (cut_at p file) queries = Ok rs) /\
    (forall p, p < e ->
       fast_query_log_cut fm k blank sched hc parallel (cut_at p file) queries = UB Indeterminate).
Proof. exact fast_queries_cut. Qed.
Print Assumptions C73_fast_partial.

Definition no_junk (i : nat) : fast_junk := mkJunk None (Some false) 77 0.

(** A file of 136 bytes cut in the header, in the last bytes of the first trie, between
    two tries, in the last bytes of the last trie, not at all; fast tries, where a query
    about the first list needs 60 of 140 bytes. *)
Example C73_example :
  let lists := [[1; 2; 3; 9]; [2; 3; 9]; [0; 2; 3; 8]]%N in
  let queries := [[0; 1]; [0; 2]]%N in
  let s := fun _ _ => (in_order, in_order) in
  let bin p := let* file := build_tries il_formats 1 100 1 256 false false (collection_file 1 50 lists) in
               query_log_cut il_formats zeros s 1 false (cut_at p file) queries in
  let fast p := let* file := build_fast_tries il_formats no_junk 1 100 0 false false 4 (collection_file 1 50 lists) in
                fast_query_log_cut il_formats zeros (fun lw => fast_default lw 0 0 None false None) s 1 false
                  (cut_at p file) [[0]]%N in
  (formats_ok il_formats /\ formats_need_all il_formats /\ collection_ok 1 50 lists /\
   loadable_options 1 256 false /\
   Forall (stored_ok 50 (built_variant 1 false) false) (kept_lists 1 100 lists) /\
   exact_mode 50 false false 1 s (kept_lists 1 100 lists) /\ Forall (query_ok (kept_lists 1 100 lists)) queries /\
   fast_universe 50 4 /\ Forall (fast_ok 50) (kept_lists 1 100 lists)) /\
  map bin [15; 55; 60; 130; 136] =
    [UB Indeterminate; UB OutOfBounds; UB Indeterminate; Ok [Some [2; 3; 9]; Some []];
     Ok [Some [2; 3; 9]; Some [2; 3]]]%N /\
  map fast [0; 7; 59; 60; 140] =
    [UB Indeterminate; UB Indeterminate; UB Indeterminate; Ok [Some [1; 2; 3; 9]];
     Ok [Some [1; 2; 3; 9]]]%N.
Proof.
  cbv zeta. split.
  2:{ vm_compute. split; reflexivity. }
  split; [apply il_formats_ok|]. split; [apply il_formats_need_all|].
  split; [split; [reflexivity|split; [reflexivity|split; [reflexivity|split; repeat constructor]]]|].
  split; [split; [reflexivity|split; [reflexivity|intros _; cbn; auto]]|].
  split; [constructor; [|constructor; [|constructor; [|constructor]]]; sets_ok|].
  split; [split; [discriminate|discriminate]|].
  split; [constructor; [|constructor; [|constructor]]; (split; [discriminate|repeat constructor])|].
  split; [split; [cbn; auto|split; [reflexivity|discriminate]]|].
  constructor; [|constructor; [|constructor; [|constructor]]]; sets_ok.
Qed.
