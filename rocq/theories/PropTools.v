(** Properties C34, C35, C36, C37: the command-line tools. *)

From Verif Require Import Base FlatTrie LevelTrie FastTrie ParallelFor Intersection Tries Serialize
  Tools Spec SpecTries SpecFiles SpecTools SerializeThms InterRefute ParForThms ToolsThms FastToolsThms
  SpecLost SpecAnswers ToolsExact.

(** C34.  Full claim: for every rank type, block size and layout.  Proved for all but
    the level-wise interleaved tries and block sizes other than 128, 256 and 512,
    where it is false; for posting lists that the class can hold (C01, C02, C06). *)
Theorem C34_collection_round_trip_partial : forall fm min_size max_size rank_type block runs levelwise one u lists,
  formats_ok fm -> collection_ok one u lists -> (2 <= u)%N ->
  loadable_options rank_type block levelwise ->
  Forall (stored_ok u (built_variant rank_type levelwise) runs) (kept_lists min_size max_size lists) ->
  exists file ts,
    build_tries fm min_size max_size rank_type block runs levelwise (collection_file one u lists) = Ok file /\
    load_collection fm file = Ok (runs, ts) /\
    each_ok (bin_make u (built_variant rank_type levelwise) runs) (kept_lists min_size max_size lists) = Ok ts /\
    each_ok (fun t => bin_decode t []) ts = Ok (kept_lists min_size max_size lists).
Proof. exact collection_round_trip. Qed.
Print Assumptions C34_collection_round_trip_partial.

(** Five lists of which three are kept, run-encoded interleaved flat tries. *)
Example C34_example :
  let lists := [[0; 1; 2; 3; 9]; [5]; [3; 4; 5; 6; 7]; []; [1; 2; 3]]%N in
  let kept := [[0; 1; 2; 3; 9]; [3; 4; 5; 6; 7]; [1; 2; 3]]%N in
  (formats_ok plain_formats /\ collection_ok 1 13 lists /\ loadable_options 1 256 false /\
   kept_lists 1 100 lists = kept /\ Forall (stored_ok 13 (built_variant 1 false) true) kept) /\
  (let* file := build_tries plain_formats 1 100 1 256 true false (collection_file 1 13 lists) in
   let* (runs, ts) := load_collection plain_formats file in
   let* ls := each_ok (fun t => bin_decode t []) ts in Ok (runs, ls)) = Ok (true, kept).
Proof.
  cbv zeta. split; [|vm_compute; reflexivity]. split; [apply plain_formats_ok|].
  split; [split; [reflexivity|split; [reflexivity|split; [reflexivity|split; repeat constructor]]]|].
  split; [split; [reflexivity|split; [reflexivity|intros _; cbn; auto]]|]. split; [reflexivity|].
  constructor; [|constructor; [|constructor; [|constructor]]]; sets_ok.
  - exists 9%N, 8%N. cbn. intuition discriminate.
  - exists 3%N, 2%N. cbn. intuition discriminate.
  - exists 3%N, 0%N. cbn. intuition discriminate.
Qed.

(** The level-wise interleaved class: the build tool reads through a null pointer. *)
Theorem C34_levelwise_il_refuted : forall fm min_size max_size block runs one u lists,
  collection_ok one u lists -> kept_lists min_size max_size lists <> [] ->
  Forall (stored_ok u (VLevel true) runs) (kept_lists min_size max_size lists) -> (2 <= u)%N ->
  build_tries fm min_size max_size 1 block runs true (collection_file one u lists) = UB NullDeref.
Proof. exact no_il_levelwise. Qed.
Print Assumptions C34_levelwise_il_refuted.

(** Other block sizes (64 is what the build tool then uses): the file is written, and
    the query tool calls load() through an uninitialised pointer. *)
Theorem C34_block_size_refuted : forall fm min_size max_size block runs one u lists,
  formats_ok fm -> collection_ok one u lists -> (2 <= u)%N -> (block < 2 ^ 32)%N ->
  ~ In block [128; 256; 512]%N -> kept_lists min_size max_size lists <> [] ->
  Forall (stored_ok u (VFlat true) runs) (kept_lists min_size max_size lists) ->
  exists file, build_tries fm min_size max_size 1 block runs false (collection_file one u lists) = Ok file /\
    load_collection fm file = UB Indeterminate.
Proof. exact block_64_not_loadable. Qed.
Print Assumptions C34_block_size_refuted.

Example C34_refuted_example :
  let lists := [[1; 2; 3]; [3; 4; 12]]%N in
  (collection_ok 1 13 lists /\ kept_lists 0 100 lists = lists /\ ~ In 64%N [128; 256; 512]%N /\
   Forall (stored_ok 13 (VLevel true) true) lists /\ Forall (stored_ok 13 (VFlat true) true) lists) /\
  build_tries plain_formats 0 100 1 128 true true (collection_file 1 13 lists) = UB NullDeref /\
  (let* file := build_tries plain_formats 0 100 1 64 true false (collection_file 1 13 lists) in
   load_collection plain_formats file) = UB Indeterminate.
Proof.
  cbv zeta. split; [|vm_compute; split; reflexivity].
  split; [split; [reflexivity|split; [reflexivity|split; [reflexivity|split; repeat constructor]]]|].
  split; [reflexivity|]. split; [cbn; intuition discriminate|].
  split; (constructor; [|constructor; [|constructor]]); sets_ok.
  - exists 3%N, 0%N. cbn. intuition discriminate.
  - exists 3%N, 2%N. cbn. intuition discriminate.
Qed.

(** C35.  Full claim: for every rank type.  Proved for all but 1 (interleaved). *)
Theorem C35_fast_header_partial : forall fm junk min_size max_size rank_type runs levelwise lw one u lists,
  formats_ok fm -> collection_ok one u lists -> fast_universe u lw ->
  (rank_type < 2 ^ 32)%N -> rank_type <> 1%N ->
  junk_ok junk -> Forall (fast_ok u) (kept_lists min_size max_size lists) ->
  exists file body,
    build_fast_tries fm junk min_size max_size rank_type runs levelwise lw (collection_file one u lists)
      = Ok file /\
    read_fast_header file = Ok (rank_type, Some runs, Some levelwise, wbits lw,
      le_bytes 4 (N.of_nat (length (kept_lists min_size max_size lists)))
      ++ le_bytes 4 one ++ le_bytes 4 u ++ body).
Proof. exact fast_header_round_trip. Qed.
Print Assumptions C35_fast_header_partial.

(** With rank type 1 the query tool takes the number of sets for the flags and the
    word size, and the first word of the collection for the number of sets. *)
Theorem C35_fast_header_refuted : forall fm junk min_size max_size runs levelwise lw one u lists,
  formats_ok fm -> collection_ok one u lists -> fast_universe u lw ->
  junk_ok junk -> Forall (fast_ok u) (kept_lists min_size max_size lists) ->
  let n := N.of_nat (length (kept_lists min_size max_size lists)) in
  exists file body,
    build_fast_tries fm junk min_size max_size 1 runs levelwise lw (collection_file one u lists) = Ok file /\
    read_fast_header file = Ok (1%N, byte_bool (n mod 256), byte_bool (n / 256 mod 256), (n / 65536)%N,
      le_bytes 4 one ++ le_bytes 4 u ++ body).
Proof. exact fast_header_il_misread. Qed.
Print Assumptions C35_fast_header_refuted.

Definition no_junk (i : nat) : fast_junk := mkJunk None (Some false) 77 0.

Example C35_example :
  let lists := [[0; 1; 2; 3; 9]; [5]; [3; 40]]%N in
  (formats_ok plain_formats /\ collection_ok 1 50 lists /\ fast_universe 50 4 /\ junk_ok no_junk /\
   Forall (fast_ok 50) (kept_lists 0 100 lists)) /\
  (let* file := build_fast_tries plain_formats no_junk 0 100 2 true false 4 (collection_file 1 50 lists) in
   let* (r, a, b, w, rest) := read_fast_header file in Ok (r, a, b, w, firstn 12 rest))
    = Ok (2, Some true, Some false, 16, [3; 0; 0; 0; 1; 0; 0; 0; 50; 0; 0; 0])%N /\
  (let* file := build_fast_tries plain_formats no_junk 0 100 1 true false 4 (collection_file 1 50 lists) in
   let* (r, a, b, w, rest) := read_fast_header file in Ok (r, a, b, w, firstn 8 rest))
    = Ok (1, None, Some false, 0, [1; 0; 0; 0; 50; 0; 0; 0])%N.
Proof.
  cbv zeta. split; [|vm_compute; split; reflexivity]. split; [apply plain_formats_ok|].
  split; [split; [reflexivity|split; [reflexivity|split; [reflexivity|split; repeat constructor]]]|].
  split; [split; [cbn; auto|split; [reflexivity|discriminate]]|].
  split; [intros i; split; [intros h E; discriminate|split; reflexivity]|].
  change (kept_lists 0 100 [[0; 1; 2; 3; 9]; [5]; [3; 40]]%N) with [[0; 1; 2; 3; 9]; [5]; [3; 40]]%N.
  constructor; [|constructor; [|constructor; [|constructor]]]; sets_ok.
Qed.

(** C36.  Full claim: "plain tries in parallel mode or run-encoded in sequential
    mode", and any tries sequentially; also run-encoded tries in parallel mode when no list has
    a whole block as large as a thread's share ([exact_mode]).  Missing: what is excluded in C34, tries of
    height 1 on four or more threads (C12), queries without ids. *)
Theorem C36_end_to_end_partial :
  forall fm min_size max_size rank_type block runs levelwise one u lists hc parallel sched queries,
  formats_ok fm -> collection_ok one u lists -> (2 <= u)%N ->
  loadable_options rank_type block levelwise ->
  Forall (stored_ok u (built_variant rank_type levelwise) runs) (kept_lists min_size max_size lists) ->
  exact_mode u runs parallel hc sched (kept_lists min_size max_size lists) ->
  Forall (query_ok (kept_lists min_size max_size lists)) queries ->
  exists file rs,
    build_tries fm min_size max_size rank_type block runs levelwise (collection_file one u lists) = Ok file /\
    query_log fm sched hc parallel file queries = Ok rs /\
    Forall2 (answers (kept_lists min_size max_size lists)) queries rs.
Proof. exact end_to_end. Qed.
Print Assumptions C36_end_to_end_partial.

Theorem C36_fast_end_to_end_partial :
  forall fm junk min_size max_size rank_type runs levelwise lw one u lists blank hc parallel sched queries,
  formats_ok fm -> collection_ok one u lists -> fast_universe u lw ->
  (rank_type < 2 ^ 32)%N -> rank_type <> 1%N ->
  junk_ok junk -> blank_ok blank -> Forall (fast_ok u) (kept_lists min_size max_size lists) ->
  fast_exact_mode u lw runs parallel hc sched (kept_lists min_size max_size lists) ->
  queries <> [] -> Forall (query_ok (kept_lists min_size max_size lists)) queries ->
  exists file rs,
    build_fast_tries fm junk min_size max_size rank_type runs levelwise lw (collection_file one u lists)
      = Ok file /\
    fast_query_log fm blank sched hc parallel file queries = Ok rs /\
    Forall2 (answers (kept_lists min_size max_size lists)) queries rs.
Proof. exact fast_end_to_end. Qed.
Print Assumptions C36_fast_end_to_end_partial.

(** The mode the query tool starts in unless told otherwise is parallel; over a
    run-encoded collection its answers hold no wrong value but may lack some. *)
Theorem C36_parallel_runs_sound_partial :
  forall fm min_size max_size rank_type block levelwise one u lists hc sched queries,
  formats_ok fm -> collection_ok one u lists -> (3 <= u)%N ->
  loadable_options rank_type block levelwise ->
  Forall (stored_ok u (built_variant rank_type levelwise) true) (kept_lists min_size max_size lists) ->
  (1 <= hc < 2 ^ 16)%N ->
  (forall nq rep, valid_scheduler (fst (sched nq rep)) /\ valid_scheduler (snd (sched nq rep))) ->
  Forall (query_ok (kept_lists min_size max_size lists)) queries ->
  exists file rs,
    build_tries fm min_size max_size rank_type block true levelwise (collection_file one u lists) = Ok file /\
    query_log fm sched hc true file queries = Ok rs /\
    Forall2 (fun q a => match a with
                        | None => 16 < length q
                        | Some r => length q <= 16 /\ NoDup r /\ forall x, In x r ->
                            Forall (fun s => In x s) (lists_at (kept_lists min_size max_size lists) q)
                        end) queries rs.
Proof. exact end_to_end_sound. Qed.
Print Assumptions C36_parallel_runs_sound_partial.

(** Exactly what they are: [runs_answer]; C13_outcome_determined shows that it leaves no
    choice, and C13_outcome_members_partial which values are missing. *)
Theorem C36_parallel_runs_exact_partial :
  forall fm min_size max_size rank_type block levelwise one u lists hc sched queries,
  formats_ok fm -> collection_ok one u lists -> (3 <= u)%N ->
  loadable_options rank_type block levelwise ->
  Forall (stored_ok u (built_variant rank_type levelwise) true) (kept_lists min_size max_size lists) ->
  (1 <= hc < 2 ^ 16)%N ->
  (forall nq rep, valid_scheduler (fst (sched nq rep)) /\ valid_scheduler (snd (sched nq rep))) ->
  Forall (query_ok (kept_lists min_size max_size lists)) queries ->
  exists file rs,
    build_tries fm min_size max_size rank_type block true levelwise (collection_file one u lists) = Ok file /\
    query_log fm sched hc true file queries = Ok rs /\
    Forall2 (runs_answer 4 u hc (kept_lists min_size max_size lists)) queries rs.
Proof. exact end_to_end_exact. Qed.
Print Assumptions C36_parallel_runs_exact_partial.

Theorem C36_fast_parallel_runs_exact_partial :
  forall fm junk min_size max_size rank_type levelwise lw one u lists blank hc sched queries,
  formats_ok fm -> collection_ok one u lists -> fast_universe u lw -> (2 ^ N.of_nat lw < u)%N ->
  (rank_type < 2 ^ 32)%N -> rank_type <> 1%N ->
  junk_ok junk -> blank_ok blank -> Forall (fast_ok u) (kept_lists min_size max_size lists) ->
  (1 <= hc < 2 ^ 16)%N ->
  (forall nq rep, valid_scheduler (fst (sched nq rep)) /\ valid_scheduler (snd (sched nq rep))) ->
  queries <> [] -> Forall (query_ok (kept_lists min_size max_size lists)) queries ->
  exists file rs,
    build_fast_tries fm junk min_size max_size rank_type true levelwise lw (collection_file one u lists)
      = Ok file /\
    fast_query_log fm blank sched hc true file queries = Ok rs /\
    Forall2 (runs_answer (2 * 2 ^ N.of_nat lw) u hc (kept_lists min_size max_size lists)) queries rs.
Proof. exact fast_end_to_end_exact. Qed.
Print Assumptions C36_fast_parallel_runs_exact_partial.

(** Ids that are no lists.  The tool for fast tries does not look at the ids of a query of
    more than 16, ... *)
Theorem C36_fast_skipped_partial :
  forall fm junk min_size max_size rank_type runs levelwise lw one u lists blank hc parallel sched queries,
  formats_ok fm -> collection_ok one u lists -> fast_universe u lw ->
  (rank_type < 2 ^ 32)%N -> rank_type <> 1%N ->
  junk_ok junk -> blank_ok blank -> Forall (fast_ok u) (kept_lists min_size max_size lists) ->
  fast_exact_mode u lw runs parallel hc sched (kept_lists min_size max_size lists) ->
  queries <> [] ->
  Forall (fun q => query_ok (kept_lists min_size max_size lists) q \/ 16 < length q) queries ->
  exists file rs,
    build_fast_tries fm junk min_size max_size rank_type runs levelwise lw (collection_file one u lists)
      = Ok file /\
    fast_query_log fm blank sched hc parallel file queries = Ok rs /\
    Forall2 (answers (kept_lists min_size max_size lists)) queries rs.
Proof. exact fast_end_to_end_skipped. Qed.
Print Assumptions C36_fast_skipped_partial.

(** ... and uses a null pointer in a shorter one; the other tool reads past its vector of
    tries in both. *)
Theorem C36_fast_missing_id_refuted :
  forall fm junk min_size max_size rank_type runs levelwise lw one u lists blank hc parallel sched q i,
  formats_ok fm -> collection_ok one u lists -> fast_universe u lw ->
  (rank_type < 2 ^ 32)%N -> rank_type <> 1%N ->
  junk_ok junk -> blank_ok blank -> Forall (fast_ok u) (kept_lists min_size max_size lists) ->
  length q <= 16 -> In i q -> (N.of_nat (length (kept_lists min_size max_size lists)) <= i)%N ->
  exists file,
    build_fast_tries fm junk min_size max_size rank_type runs levelwise lw (collection_file one u lists)
      = Ok file /\
    fast_query_log fm blank sched hc parallel file [q] = UB NullDeref.
Proof. exact fast_missing_id. Qed.
Print Assumptions C36_fast_missing_id_refuted.

Theorem C36_missing_id_refuted :
  forall fm min_size max_size rank_type block runs levelwise one u lists hc parallel sched q i,
  formats_ok fm -> collection_ok one u lists -> (2 <= u)%N ->
  loadable_options rank_type block levelwise ->
  Forall (stored_ok u (built_variant rank_type levelwise) runs) (kept_lists min_size max_size lists) ->
  In i q -> (N.of_nat (length (kept_lists min_size max_size lists)) <= i)%N ->
  exists file,
    build_tries fm min_size max_size rank_type block runs levelwise (collection_file one u lists) = Ok file /\
    query_log fm sched hc parallel file [q] = UB OutOfBounds.
Proof. exact missing_id. Qed.
Print Assumptions C36_missing_id_refuted.

(** Two lists; ids 0 and 2, and seventeen ids among which are wrong ones. *)
Example C36_missing_example :
  let lists := [[3; 5; 9]; [5; 40]]%N in
  let sched := (fun _ _ => (in_order, in_order)) : nat -> nat -> scheduler * scheduler in
  let blank lw := fast_default lw 0 0 None false None in
  let long := repeat 7%N 17 in
  let bin queries :=
    let* file := build_tries plain_formats 0 100 0 512 false false (collection_file 1 50 lists) in
    query_log plain_formats sched 4 false file queries in
  let fast queries :=
    let* file := build_fast_tries plain_formats no_junk 0 100 0 false false 4 (collection_file 1 50 lists) in
    fast_query_log plain_formats blank sched 4 false file queries in
  (query_ok lists [0; 1]%N /\ blank_ok blank) /\
  bin [[0; 1]]%N = Ok [Some [5%N]] /\ bin [[0; 2]]%N = UB OutOfBounds /\ bin [[0; 1]%N; long] = UB OutOfBounds /\
  fast [[0; 1]%N; long] = Ok [Some [5%N]; None] /\ fast [[0; 2]]%N = UB NullDeref.
Proof.
  cbv zeta. split; [split|vm_compute; repeat split; reflexivity].
  - split; [discriminate|]. repeat constructor.
  - intros lw. split; reflexivity.
Qed.

(** The values up to 31 are lost: they lie in a run of the first list and not of the
    second, twice as long as the share of one of four threads. *)
Example C36_runs_example :
  let lists := [map N.of_nat (seq 0 32) ++ [40; 50]; [3; 5; 30; 40; 51]]%N in
  let sched := (fun _ _ => (in_order, in_order)) : nat -> nat -> scheduler * scheduler in
  (collection_ok 1 64 lists /\ thread_block 64 4 = 16%N /\ loadable_options 0 512 true /\
   Forall (stored_ok 64 (built_variant 0 true) true) (kept_lists 0 100 lists) /\
   fast_universe 64 3 /\ Forall (fast_ok 64) (kept_lists 0 100 lists) /\ (2 * 2 ^ 3 * 2 ^ N.log2 4 <= rounded 64)%N /\
   Forall (query_ok (kept_lists 0 100 lists)) [[0; 1]; [1; 1]]%N) /\
  (let* file := build_tries plain_formats 0 100 0 512 true true (collection_file 1 64 lists) in
   query_log plain_formats sched 4 true file [[0; 1]; [1; 1]]%N)
    = Ok [Some [40]; Some [3; 5; 30; 40; 51]]%N /\
  (let* file := build_fast_tries plain_formats no_junk 0 100 0 true false 3 (collection_file 1 64 lists) in
   fast_query_log plain_formats (fun lw => fast_default lw 0 0 None false None) sched 4 true file [[0; 1]; [1; 1]]%N)
    = Ok [Some [40]; Some [3; 5; 30; 40; 51]]%N.
Proof.
  cbv zeta. split; [|split; vm_compute; reflexivity].
  split; [split; [reflexivity|split; [reflexivity|split; [reflexivity|split; repeat constructor]]]|].
  split; [reflexivity|]. split; [split; [reflexivity|split; [reflexivity|discriminate]]|].
  assert (K : forall f : list N -> Prop, (forall s, In s [map N.of_nat (seq 0 32) ++ [40; 50]; [3; 5; 30; 40; 51]]%N -> f s) ->
    Forall f (kept_lists 0 100 [map N.of_nat (seq 0 32) ++ [40; 50]; [3; 5; 30; 40; 51]]%N)).
  { intros f H. change (kept_lists 0 100 [map N.of_nat (seq 0 32) ++ [40; 50]; [3; 5; 30; 40; 51]]%N)
      with [map N.of_nat (seq 0 32) ++ [40; 50]; [3; 5; 30; 40; 51]]%N.
    constructor; [apply H; left; auto|]. constructor; [apply H; right; left; auto|constructor]. }
  split; [|split; [|split; [|split; [discriminate|]]]].
  - apply K. intros s [<-|[<-|[]]]; sets_ok.
  - split; [cbn; auto|split; [reflexivity|discriminate]].
  - apply K. intros s [<-|[<-|[]]]; sets_ok.
  - constructor; [|constructor; [|constructor]]; (split; [discriminate|]); repeat constructor.
Qed.

Theorem C36_parallel_runs_refuted :
  ~ (forall fm min_size max_size rank_type block runs levelwise one u lists hc parallel sched queries,
       formats_ok fm -> collection_ok one u lists -> (3 <= u)%N -> loadable_options rank_type block levelwise ->
       Forall (stored_ok u (built_variant rank_type levelwise) runs) (kept_lists min_size max_size lists) ->
       (1 <= hc < 2 ^ 16)%N ->
       (forall nq rep, valid_scheduler (fst (sched nq rep)) /\ valid_scheduler (snd (sched nq rep))) ->
       Forall (query_ok (kept_lists min_size max_size lists)) queries ->
       exists file rs,
         build_tries fm min_size max_size rank_type block runs levelwise (collection_file one u lists) = Ok file /\
         query_log fm sched hc parallel file queries = Ok rs /\
         Forall2 (answers (kept_lists min_size max_size lists)) queries rs).
Proof. exact end_to_end_runs_refuted. Qed.
Print Assumptions C36_parallel_runs_refuted.

(** A line without ids in the query log: the first of no tries is read. *)
Theorem C36_empty_query_refuted : forall fm sched hc parallel file runs ts queries,
  load_collection fm file = Ok (runs, ts) ->
  query_log fm sched hc parallel file ([] :: queries) = UB OutOfBounds.
Proof. exact empty_query. Qed.
Print Assumptions C36_empty_query_refuted.

(** Kept: lists 0, 2 and 4; a query of two ids, one of one id, one of 17. *)
Example C36_example :
  let lists := [[0; 1; 2; 3; 9]; [5]; [3; 4; 5; 6; 7; 9]; []; [1; 2; 3; 40]]%N in
  let queries := [[0; 1]; [2]; repeat 0 17]%N in
  (kept_lists 1 100 lists = [[0; 1; 2; 3; 9]; [3; 4; 5; 6; 7; 9]; [1; 2; 3; 40]]%N /\
   exact_mode 50 true true 8 (fun _ _ => (in_order, backwards)) (kept_lists 1 100 lists) /\
   fast_exact_mode 50 4 true true 8 (fun _ _ => (in_order, backwards)) (kept_lists 1 100 lists) /\
   Forall (query_ok (kept_lists 1 100 lists)) queries /\
   blank_ok (fun lw => fast_default lw 0 0 None false None)) /\
  (let* file := build_tries plain_formats 1 100 2 512 true true (collection_file 1 50 lists) in
   query_log plain_formats (fun _ _ => (in_order, backwards)) 8 true file queries)
    = Ok [Some [3; 9]; Some [1; 2; 3; 40]; None]%N /\
  (let* file := build_fast_tries plain_formats no_junk 1 100 0 true false 4 (collection_file 1 50 lists) in
   fast_query_log plain_formats (fun lw => fast_default lw 0 0 None false None)
                  (fun _ _ => (in_order, backwards)) 8 true file queries)
    = Ok [Some [3; 9]; Some [1; 2; 3; 40]; None]%N.
Proof.
  cbv zeta. split; [|vm_compute; split; reflexivity].
  split; [reflexivity|].
  split.
  { split; [discriminate|]. intros _. split; [reflexivity|]. split; [left; discriminate|]. split; [intros _; left|].
    - change (thread_block 50 8) with 8%N.
      assert (H : Forall (fun s : list N => ~ In 15%N s /\ (forall x, In x s -> x < 16 \/ x = 40)%N /\ exists x, (x < 8)%N /\ ~ In x s)
                    (kept_lists 1 100 [[0; 1; 2; 3; 9]; [5]; [3; 4; 5; 6; 7; 9]; []; [1; 2; 3; 40]]%N)).
      { constructor; [|constructor; [|constructor; [|constructor]]].
        - split; [cbn; intuition discriminate|]. split; [cbn; intros; lia|]. exists 4%N. split; [reflexivity|cbn; intuition discriminate].
        - split; [cbn; intuition discriminate|]. split; [cbn; intros; lia|]. exists 0%N. split; [reflexivity|cbn; intuition discriminate].
        - split; [cbn; intuition discriminate|]. split; [cbn; intros; lia|]. exists 0%N. split; [reflexivity|cbn; intuition discriminate]. }
      eapply Forall_impl; [|exact H]. intros s (H1 & H2 & x & H3 & H4) q. destruct (N.eq_dec q 0) as [->|Hq].
      + exists x. split; [apply N.div_small; auto|auto].
      + exists (8 * q + 7)%N. split; [rewrite N.mul_comm, N.div_add_l by discriminate; apply N.add_0_r|].
        intros I. apply H2 in I as J. assert (8 * q + 7 = 15)%N as Z by lia. rewrite Z in I. auto.
    - intros. split; [apply in_order_valid|apply backwards_valid]. }
  split.
  { split; [discriminate|]. intros _. split; [reflexivity|]. split; [left; reflexivity|]. split; [right; reflexivity|].
    intros. split; [apply in_order_valid|apply backwards_valid]. }
  split.
  { constructor; [|constructor; [|constructor; [|constructor]]]; (split; [discriminate|repeat constructor]). }
  intros lw. split; reflexivity.
Qed.

(** C37.  Full claim: every query log.  Proved for the logs with at least one id; the
    loaded tries are those of the collection. *)
Theorem C37_selective_loading_partial :
  forall fm junk min_size max_size rank_type runs levelwise lw one u lists blank queries,
  formats_ok fm -> collection_ok one u lists -> fast_universe u lw ->
  (rank_type < 2 ^ 32)%N -> rank_type <> 1%N ->
  junk_ok junk -> blank_ok blank -> Forall (fast_ok u) (kept_lists min_size max_size lists) ->
  concat queries <> [] ->
  exists file rest tries,
    build_fast_tries fm junk min_size max_size rank_type runs levelwise lw (collection_file one u lists)
      = Ok file /\
    read_fast_header file = Ok (rank_type, Some runs, Some levelwise, wbits lw, rest) /\
    load_tries (fast_codecs fm rank_type) (blank lw) queries rest = Ok tries /\
    increasing (map fst tries) /\
    (forall i, In i (map fst tries) <->
       In i (concat queries) /\ (i < N.of_nat (length (kept_lists min_size max_size lists)))%N) /\
    (forall i t, In (i, t) tries ->
       (exists t0, fast_make u lw (j_hwr (junk (N.to_nat i))) (j_empty (junk (N.to_nat i))) runs
                     (nth (N.to_nat i) (kept_lists min_size max_size lists) []) = Ok t0 /\ refines t0 t) /\
       ((runs = true -> j_empty (junk (N.to_nat i)) = Some false) ->
        fast_decode t [] = Ok (nth (N.to_nat i) (kept_lists min_size max_size lists) []))).
Proof. exact selective_loading. Qed.
Print Assumptions C37_selective_loading_partial.

(** Without any id the list of ids is read out of bounds. *)
Theorem C37_no_ids_refuted :
  forall fm junk min_size max_size rank_type runs levelwise lw one u lists blank queries,
  formats_ok fm -> collection_ok one u lists -> fast_universe u lw ->
  (rank_type < 2 ^ 32)%N -> rank_type <> 1%N ->
  junk_ok junk -> blank_ok blank -> Forall (fast_ok u) (kept_lists min_size max_size lists) ->
  kept_lists min_size max_size lists <> [] -> concat queries = [] ->
  exists file rest,
    build_fast_tries fm junk min_size max_size rank_type runs levelwise lw (collection_file one u lists)
      = Ok file /\
    read_fast_header file = Ok (rank_type, Some runs, Some levelwise, wbits lw, rest) /\
    load_tries (fast_codecs fm rank_type) (blank lw) queries rest = UB OutOfBounds.
Proof. exact no_ids_out_of_bounds. Qed.
Print Assumptions C37_no_ids_refuted.

(** Five lists; ids 1, 3 and 7 occur in the log. *)
Example C37_example :
  let lists := [[0; 1; 2; 3; 9]; [5; 6]; [3; 40]; [7; 8]; [1]]%N in
  let load queries :=
    let* file := build_fast_tries plain_formats no_junk 0 100 0 true false 4 (collection_file 1 50 lists) in
    let* (r, a, b, w, rest) := read_fast_header file in
    load_tries plain_codecs (fast_default 4 0 0 None false None) queries rest in
  (collection_ok 1 50 lists /\ Forall (fast_ok 50) (kept_lists 0 100 lists) /\ concat [[3; 1]; []; [7; 3]]%N <> []) /\
  (let* tries := load [[3; 1]; []; [7; 3]]%N in
   each_ok (fun p => let* l := fast_decode (snd p) [] in Ok (fst p, l)) tries)
    = Ok [(1, [5; 6]); (3, [7; 8])]%N /\
  load [[]; []] = UB OutOfBounds.
Proof.
  cbv zeta. split; [|vm_compute; split; reflexivity].
  split; [split; [reflexivity|split; [reflexivity|split; [reflexivity|split; repeat constructor]]]|].
  split; [|discriminate].
  change (kept_lists 0 100 [[0; 1; 2; 3; 9]; [5; 6]; [3; 40]; [7; 8]; [1]]%N)
    with [[0; 1; 2; 3; 9]; [5; 6]; [3; 40]; [7; 8]; [1]]%N.
  repeat (constructor; [sets_ok|]). constructor.
Qed.
