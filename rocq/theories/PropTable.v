(** C69: the table that the query tool writes with --out.  Full claim: one line for each
    query of the log, in order, with the number of its ids and the number of values that
    its lists have in common. *)

From Coq Require Import String.
From Verif Require Import Base FlatTrie LevelTrie FastTrie ParallelFor Intersection Tries Serialize Tools Text
  Spec SpecTries SpecFiles SpecTools SpecText Report Table SpecTable TableThms Cli SpecCli CliTools SerializeThms
  InterRefute ParForThms ToolsThms TableCli.
Local Open Scope list_scope.

(** Proved under the conditions of C55, with a line for each query of at most 16 ids;
    whatever the texts of the times are.  The line of the n-th answered
    query has the n-th time. *)
Theorem C69_table_partial :
  forall fm prog input ss prog' log qs (fs : files) one u lists text queries hc sched time,
  formats_ok fm -> collection_ok one u lists -> (2 <= u)%N -> (forall n, field (time n)) ->
  fs input = Some (collection_file one u lists) -> fs log = Some text -> log_of text queries ->
  Forall build_setting ss -> Forall the_query_setting qs ->
  let out := last_of out_of [] ss in
  let runs := last_of runs_of false ss in
  let levelwise := last_of levelwise_of false ss in
  let rank_type := last_of rank_of 0%N ss in
  let block := last_of block_of 512%N ss in
  let kept := kept_lists (last_of min_of 0%N ss) (last_of max_of (2 ^ 64 - 1)%N ss) lists in
  let table := last_of q_out_of [] qs in
  ~ In out ([] :: input :: log :: table :: query_names) ->
  ~ In log (table :: query_names) -> table <> [] ->
  loadable_options rank_type block levelwise ->
  Forall (stored_ok u (built_variant rank_type levelwise) runs) kept ->
  exact_mode u runs (last_of parallel_of true qs) hc sched kept ->
  Forall (query_ok kept) queries -> Forall (Forall (fun i => i < 2 ^ 31)%N) queries ->
  exists fs' r fs'' rs,
    build_tries_main fm (prog :: input :: written_all ss) fs = Ok (Some (fs', Some r)) /\
    query_main fm sched hc time (prog' :: out :: log :: q_written_all qs) fs' = Ok (fs'', Some rs) /\
    (forall n, n <> table -> fs'' n = fs' n) /\
    exists lines rows, fs'' table = Some lines /\ table_of lines rows /\
      Forall2 (row_of kept) (small_queries queries) rows /\ times_are time rows.
Proof. exact table_written. Qed.
Print Assumptions C69_table_partial.

(** Larger queries have no line: the table of a log with one is too short. *)
Theorem C69_table_refuted :
  forall fm prog input ss prog' log qs (fs : files) one u lists text queries hc sched time,
  formats_ok fm -> collection_ok one u lists -> (2 <= u)%N -> (forall n, field (time n)) ->
  fs input = Some (collection_file one u lists) -> fs log = Some text -> log_of text queries ->
  Forall build_setting ss -> Forall the_query_setting qs ->
  let out := last_of out_of [] ss in
  let runs := last_of runs_of false ss in
  let levelwise := last_of levelwise_of false ss in
  let rank_type := last_of rank_of 0%N ss in
  let block := last_of block_of 512%N ss in
  let kept := kept_lists (last_of min_of 0%N ss) (last_of max_of (2 ^ 64 - 1)%N ss) lists in
  let table := last_of q_out_of [] qs in
  ~ In out ([] :: input :: log :: table :: query_names) ->
  ~ In log (table :: query_names) -> table <> [] ->
  loadable_options rank_type block levelwise ->
  Forall (stored_ok u (built_variant rank_type levelwise) runs) kept ->
  exact_mode u runs (last_of parallel_of true qs) hc sched kept ->
  Forall (query_ok kept) queries -> Forall (Forall (fun i => i < 2 ^ 31)%N) queries ->
  Exists (fun q => 16 < length q) queries ->
  exists fs' r fs'' rs,
    build_tries_main fm (prog :: input :: written_all ss) fs = Ok (Some (fs', Some r)) /\
    query_main fm sched hc time (prog' :: out :: log :: q_written_all qs) fs' = Ok (fs'', Some rs) /\
    exists lines rows, fs'' table = Some lines /\ table_of lines rows /\ length rows < length queries.
Proof. exact table_too_short. Qed.
Print Assumptions C69_table_refuted.

(** The lines of a table can be read in one way only. *)
Theorem C69_table_unique : forall text rows rows', table_of text rows -> table_of text rows' -> rows = rows'.
Proof. exact table_unique. Qed.
Print Assumptions C69_table_unique.

(** With --out naming the log, the tool replaces it by the header of the table, reads that
    as a query and stops by an exception. *)
Theorem C69_over_log_refuted : forall fm sched hc time prog sequences log qs fs file ts,
  Forall the_query_setting qs -> last_of q_out_of [] qs = log -> log <> [] -> log <> sequences ->
  ~ In sequences query_names -> ~ In log query_names ->
  fs sequences = Some file -> load_collection fm file = Ok ts ->
  exists fs', query_main fm sched hc time (prog :: sequences :: log :: q_written_all qs) fs = Ok (fs', None) /\
    (forall n, n <> log -> fs' n = fs n) /\ fs' log = Some table_header.
Proof. exact table_over_log. Qed.
Print Assumptions C69_over_log_refuted.

(** Two queries over three lists, in parallel. *)
Definition table_lists : list (list N) := [[0; 1; 2; 3; 9]; [3; 4; 5; 6; 7; 9]; [1; 2; 3; 40]]%N.

Definition table_files : files :=
  fun n => if text_eqb n (txt "data") then Some (collection_file 1 50 table_lists)
           else if text_eqb n (txt "log") then Some (txt " 0 1" ++ [10]%N ++ txt " 2" ++ [10]%N)
           else None.

Example C69_example :
  Forall the_query_setting [QOut (txt "t.csv"); QVerbose (txt "t")] /\
  last_of q_out_of [] [QOut (txt "t.csv"); QVerbose (txt "t")] = txt "t.csv" /\
  (forall n : nat, field (txt "1.5")) /\
  exact_mode 50 false true 8 (fun _ _ => (in_order, backwards)) table_lists /\
  (let? (fs', _) := build_tries_main plain_formats (map txt ["build"; "data"; "--out"; "tries"]%string) table_files in
   let* (fs'', _) := query_main plain_formats (fun _ _ => (in_order, backwards)) 8 (fun n => txt (if n =? 0 then "1.5" else "1.7"))
     (txt "query" :: txt "tries" :: txt "log" :: q_written_all [QOut (txt "t.csv"); QVerbose (txt "t")]) fs' in
   Ok (Some (fs'' (txt "t.csv"))))
  = Ok (Some (Some (txt "elements_per_query,time execution,size_intersection" ++ [10]%N
                    ++ txt "2,1.5,2" ++ [10]%N ++ txt "1,1.7,4" ++ [10]%N))) /\
  (let? (fs', _) := build_tries_main plain_formats (map txt ["build"; "data"; "--out"; "tries"]%string) table_files in
   let* (fs'', _) := query_main plain_formats (fun _ _ => (in_order, backwards)) 8 (fun _ => txt "1.5")
     (map txt ["query"; "tries"; "log"; "--out"; "log"]%string) fs' in
   Ok (Some (fs'' (txt "log")))) = Ok (Some (Some table_header)).
Proof.
  split. { repeat (constructor; [intros Q; vm_compute in Q; repeat destruct Q as [Q|Q]; try discriminate Q; destruct Q|]).
           constructor. }
  split; [reflexivity|]. split; [intros _; repeat (constructor; [split; discriminate|]); constructor|].
  split.
  { split; [discriminate|]. intros _. split; [reflexivity|]. split; [left; discriminate|]. split; [discriminate|].
    intros. split; [apply in_order_valid|apply backwards_valid]. }
  split; vm_compute; reflexivity.
Qed.
