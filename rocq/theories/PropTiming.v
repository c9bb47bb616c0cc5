(** Property C91. *)

From Coq Require Import String.
From Verif Require Import Base FlatTrie LevelTrie FastTrie ParallelFor Intersection Tries Serialize Tools Text
  Spec SpecTries SpecFiles SpecTools SpecText Report Table SpecTable TextThms Cli SpecCli SerializeThms
  ToolsThms ParForThms SpecAverage Timing SpecTiming TimingThms TimingCli.
Local Open Scope list_scope.

(** C91.  "The times that the query tools report are averages of what the clock measured, to six
    parts in a million: in the table over the ten repetitions of each answered query, in
    microseconds, and at the end over all repetitions of all answered queries, in milliseconds."
    For every run of the tool that ends, whatever its files hold; the sums of the times are below
    2^64 microseconds. *)
Theorem C91_query :
  forall fm sched hc elapsed prog sequences log qs fs fs' rs text queries,
  Forall the_query_setting qs -> ~ In sequences query_names -> ~ In log query_names ->
  let table := last_of q_out_of [] qs in
  log <> table -> fs log = Some text -> log_of text queries -> Forall (Forall (fun i => i < 2 ^ 31)%N) queries ->
  (forall n, query_time elapsed n < 2 ^ 64)%N ->
  (log_time elapsed (length (small_queries queries)) < 2 ^ 64)%N ->
  (10 * N.of_nat (length (small_queries queries)) < 2 ^ 64)%N ->
  query_main fm sched hc (time_text elapsed) (prog :: sequences :: log :: q_written_all qs) fs = Ok (fs', Some rs) ->
  (exists count avg, query_summary elapsed rs = Ok (count, avg) /\ summary_of elapsed queries count avg) /\
  (table <> [] -> exists lines rows, fs' table = Some lines /\ table_of lines rows /\
     length rows = length (small_queries queries) /\ times_average elapsed rows).
Proof. exact query_main_times. Qed.
Print Assumptions C91_query.

(** The tool for fast tries, which writes no table: *)
Theorem C91_fast_query :
  forall fm blank sched hc elapsed prog sequences log qs fs rs text queries,
  Forall fast_query_setting qs -> ~ In sequences fast_query_names -> ~ In log fast_query_names ->
  fs log = Some text -> log_of text queries -> Forall (Forall (fun i => i < 2 ^ 64)%N) queries ->
  (log_time elapsed (length (small_queries queries)) < 2 ^ 64)%N ->
  (10 * N.of_nat (length (small_queries queries)) < 2 ^ 64)%N ->
  fast_query_main fm blank sched hc (prog :: sequences :: log :: q_written_all qs) fs = Ok (Some rs) ->
  exists count avg, query_summary elapsed rs = Ok (count, avg) /\ summary_of elapsed queries count avg.
Proof. exact fast_query_main_times. Qed.
Print Assumptions C91_fast_query.

(** Two queries; the first takes 3 microseconds at first and then 1, the second 700. *)
Definition clock (nq rep : nat) : N := match nq, rep with 0, 0 => 3%N | 0, _ => 1%N | _, _ => 700%N end.

Definition timing_files : files :=
  fun n => if text_eqb n (txt "data") then Some (collection_file 1 50 [[0; 1; 2; 3; 9]; [3; 4; 5; 6; 7; 9]; [1; 2; 3; 40]]%N)
           else if text_eqb n (txt "log") then Some (txt " 0 1" ++ [10]%N ++ txt " 2" ++ [10]%N)
           else None.

Example C91_example :
  log_of (txt " 0 1" ++ [10]%N ++ txt " 2" ++ [10]%N) [[0; 1]; [2]]%N /\
  (forall n, query_time clock n < 2 ^ 64)%N /\ log_time clock 2 = 7012%N /\
  exists fs' fs'' rs,
    build_tries_main plain_formats (map txt ["build"; "data"; "--out"; "tries"]%string) timing_files = Ok (Some fs') /\
    query_main plain_formats (fun _ _ => (in_order, backwards)) 8 (time_text clock)
      (txt "query" :: txt "tries" :: txt "log" :: q_written_all [QOut (txt "t.csv")]) (fst fs') = Ok (fs'', Some rs) /\
    fs'' (txt "t.csv") = Some (txt "elements_per_query,time execution,size_intersection" ++ [10]%N
                               ++ txt "2,1.2,2" ++ [10]%N ++ txt "1,700,4" ++ [10]%N) /\
    query_summary clock rs = Ok (txt "2", Some (txt "0.3506")) /\
    query_summary clock [None] = Ok (txt "0", None).
Proof.
  split; [|split; [intros [|n]; reflexivity|split; [vm_compute; reflexivity|]]].
  - exact (log_text_ok [[0; 1]; [2]]%N).
  - do 3 eexists. split; [vm_compute; reflexivity|]. split; [vm_compute; reflexivity|].
    split; [vm_compute; reflexivity|]. split; vm_compute; reflexivity.
Qed.
