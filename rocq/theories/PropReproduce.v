(** C96: one input, two runs of the build tool for fast tries. *)

From Verif Require Import Base FlatTrie LevelTrie FastTrie ParallelFor Intersection Tries Serialize
  Tools Report Spec SpecTries SpecFiles SpecTools SerializeThms ToolsThms ParForThms InterRefute
  SpecReproduce ReproduceThms.

(** C96.  Full claim: two runs over the same input give the same file.  What is true for any
    input, options and contents of the memory: the runs end alike, and the files have the same
    length and the same bytes but for at most three in each stored trie. *)
Theorem C96_fast_build_partial : forall fm junk junk' min_size max_size rank_type runs levelwise lw input,
  same_way (same_files runs)
    (build_fast_tries fm junk min_size max_size rank_type runs levelwise lw input)
    (build_fast_tries fm junk' min_size max_size rank_type runs levelwise lw input).
Proof. exact fast_builds_alike. Qed.
Print Assumptions C96_fast_build_partial.

(** The files that a collection can give, exactly: any values in these bytes. *)
Theorem C96_fast_files_partial : forall fm min_size max_size rank_type runs levelwise lw one u lists file,
  collection_ok one u lists ->
  let kept := kept_lists min_size max_size lists in
  (exists junk, junk_ok junk /\
     build_fast_tries fm junk min_size max_size rank_type runs levelwise lw (collection_file one u lists)
       = Ok file)
  <-> (exists held records, length held = length kept /\ Forall held_ok held /\
         records_of (fast_codecs fm rank_type) u lw runs kept held = Ok records /\
         file = fast_head rank_type runs levelwise lw (length kept) one u ++ concat records).
Proof. exact fast_files. Qed.
Print Assumptions C96_fast_files_partial.

(** No collection with a list to store gives one file only. *)
Theorem C96_fast_files_refuted : forall fm min_size max_size rank_type runs levelwise lw one u lists,
  collection_ok one u lists -> fast_universe u lw ->
  Forall (fast_ok u) (kept_lists min_size max_size lists) -> kept_lists min_size max_size lists <> [] ->
  exists junk junk' file file', junk_ok junk /\ junk_ok junk' /\
    build_fast_tries fm junk min_size max_size rank_type runs levelwise lw (collection_file one u lists)
      = Ok file /\
    build_fast_tries fm junk' min_size max_size rank_type runs levelwise lw (collection_file one u lists)
      = Ok file' /\
    file <> file'.
Proof. exact fast_files_differ. Qed.
Print Assumptions C96_fast_files_refuted.

(** What the tool prints does not depend on the memory. *)
Theorem C96_fast_report : forall fm junk junk' min_size max_size rank_type runs levelwise lw given input,
  same_way (fun r r' => snd r = snd r')
    (report_fast_tries fm junk min_size max_size rank_type runs levelwise lw given input)
    (report_fast_tries fm junk' min_size max_size rank_type runs levelwise lw given input).
Proof. exact fast_reports_alike. Qed.
Print Assumptions C96_fast_report.

(** Nor do the answers of the query tool: any queries, number of threads, mode and schedule,
    also where they are not the intersections (C13, C36) and where the tool fails. *)
Theorem C96_fast_answers : forall fm junk junk' min_size max_size rank_type runs levelwise lw one u lists
    file file' blank blank' hc parallel sched queries,
  formats_ok fm -> collection_ok one u lists -> fast_universe u lw ->
  (rank_type < 2 ^ 32)%N -> rank_type <> 1%N ->
  junk_ok junk -> junk_ok junk' -> blank_ok blank -> blank_ok blank' ->
  Forall (fast_ok u) (kept_lists min_size max_size lists) ->
  build_fast_tries fm junk min_size max_size rank_type runs levelwise lw (collection_file one u lists)
    = Ok file ->
  build_fast_tries fm junk' min_size max_size rank_type runs levelwise lw (collection_file one u lists)
    = Ok file' ->
  fast_query_log fm blank sched hc parallel file queries
  = fast_query_log fm blank' sched hc parallel file' queries.
Proof. exact fast_answers_alike. Qed.
Print Assumptions C96_fast_answers.

Definition clean_memory (i : nat) : fast_junk := mkJunk None None 0 0.
Definition dirty_memory (i : nat) : fast_junk :=
  mkJunk (if i =? 0 then Some 700 else None) (if i =? 1 then Some true else None) 513 200.

(** The places where two lists of bytes differ. *)
Definition differences (f f' : list N) : list nat :=
  map fst (filter (fun p => negb (N.eqb (fst (snd p)) (snd (snd p))))
                  (combine (seq 0 (length f)) (combine f f'))).

Example C96_example :
  let lists := [[0; 1; 2; 3; 9]; [5]; [3; 40]]%N in
  let build runs junk := build_fast_tries plain_formats junk 0 100 2 runs false 4 (collection_file 1 50 lists) in
  let answer file := fast_query_log plain_formats (fun lw => fast_default lw 0 0 None false None)
                       (fun _ _ => (in_order, in_order)) 4 true file [[0; 2]; [1]; [0]]%N in
  (formats_ok plain_formats /\ collection_ok 1 50 lists /\ fast_universe 50 4 /\
   junk_ok clean_memory /\ junk_ok dirty_memory /\
   kept_lists 0 100 lists = lists /\ Forall (fast_ok 50) lists /\
   blank_ok (fun lw => fast_default lw 0 0 None false None)) /\
  (let* f := build false clean_memory in let* f' := build false dirty_memory in
   Ok (length f, length f', differences f f'))
    = Ok (142, 142, [22; 23; 24; 62; 63; 64; 102; 103; 104]) /\
  (let* f := build true clean_memory in let* f' := build true dirty_memory in
   Ok (length f, length f', differences f f'))
    = Ok (142, 142, [24; 64; 104]) /\
  (let* f := build true clean_memory in answer f) = Ok [Some [3]; Some [5]; Some [0; 1; 2; 3; 9]]%N /\
  (let* f := build true dirty_memory in answer f) = Ok [Some [3]; Some [5]; Some [0; 1; 2; 3; 9]]%N.
Proof.
  cbv zeta. split; [|vm_compute; repeat split]. split; [apply plain_formats_ok|].
  split; [split; [reflexivity|split; [reflexivity|split; [reflexivity|split; repeat constructor]]]|].
  split; [split; [cbn; auto|split; [reflexivity|discriminate]]|].
  split; [intros i; split; [intros h E; discriminate|split; reflexivity]|].
  split.
  { intros i. split; [|split; reflexivity]. intros h E. unfold dirty_memory in E. cbn [j_hwr] in E.
    destruct (i =? 0); [|discriminate]. injection E as <-. reflexivity. }
  split; [reflexivity|]. split; [|intros lw; split; reflexivity].
  constructor; [|constructor; [|constructor; [|constructor]]]; sets_ok.
Qed.
