(** Command lines that query with several threads over files with runs. *)

From Verif Require Import Base FastTrie ParallelFor Serialize Tools Cli Spec SpecTries SpecFiles SpecTools SpecText
  Text Table SpecCli SpecAnswers SpecScript Report Facts ToolsThms FastToolsThms ToolsExact ReportThms CliThms CliTools
  ScriptThms.

Theorem cli_runs_end_to_end :
  forall fm prog input ss prog' log qs (fs : files) one u lists text queries hc sched time,
  formats_ok fm -> collection_ok one u lists -> (3 <= u)%N ->
  fs input = Some (collection_file one u lists) -> fs log = Some text -> log_of text queries ->
  Forall build_setting ss -> Forall the_query_setting qs ->
  let out := last_of out_of [] ss in
  let levelwise := last_of levelwise_of false ss in
  let rank_type := last_of rank_of 0%N ss in
  let block := last_of block_of 512%N ss in
  let kept := kept_lists (last_of min_of 0%N ss) (last_of max_of (2 ^ 64 - 1)%N ss) lists in
  ~ In out ([] :: input :: log :: last_of q_out_of [] qs :: query_names) ->
  ~ In log (last_of q_out_of [] qs :: query_names) ->
  loadable_options rank_type block levelwise ->
  Forall (stored_ok u (built_variant rank_type levelwise) true) kept ->
  runs_mode (last_of runs_of false ss) (last_of parallel_of true qs) hc sched ->
  Forall (query_ok kept) queries -> Forall (Forall (fun i => i < 2 ^ 31)%N) queries ->
  exists fs' r fs'' rs,
    build_tries_main fm (prog :: input :: written_all ss) fs = Ok (Some (fs', Some r)) /\
    (forall n, n <> out -> fs' n = fs n) /\
    query_main fm sched hc time (prog' :: out :: log :: q_written_all qs) fs' = Ok (fs'', Some rs) /\
    (forall n, n <> last_of q_out_of [] qs \/ n = [] -> fs'' n = fs' n) /\
    Forall2 (runs_answer 4 u hc kept) queries rs /\
    (last_of q_out_of [] qs <> [] ->
     fs'' (last_of q_out_of [] qs) = Some (table_header ++ table_rows time 0 (combine queries rs))).
Proof.
  intros fm prog input ss prog' log qs fs one u lists text queries hc sched time FM C U I G T FS FQ
    out levelwise rank_type block kept NO NL LO ST RM QO QB.
  assert (NO1 : out <> []) by (intros E; apply NO; rewrite E; left; reflexivity).
  assert (NO2 : out <> input) by (intros E; apply NO; rewrite E; right; left; reflexivity).
  assert (NO3 : out <> log) by (intros E; apply NO; rewrite E; right; right; left; reflexivity).
  cbn [In] in NO, NL.
  destruct (build_line fm FM prog input ss one u lists fs C I) as (bytes & r & H & B); auto.
  { split; [lia|]. split; [exact FS|]. split; [exact LO|]. destruct RM as (-> & _). exact ST. }
  destruct (query_runs_found fm FM sched hc qs u lists ss bytes queries H RM U QO) as (rs & Q & A).
  exists (set_file out bytes fs), r,
    (write_out (last_of q_out_of [] qs) (table_header ++ table_rows time 0 (combine queries rs))
       (write_out (last_of q_out_of [] qs) table_header (set_file out bytes fs))), rs.
  split; [exact B|]. split; [|split; [|split; [|split; [exact A|]]]].
  - intros n D. apply set_file_other, D.
  - apply query_any with (bytes := bytes) (text := text); auto.
    + apply set_file_same.
    + rewrite set_file_other by auto. exact G.
    + intros E. apply NO. do 4 right. exact E.
    + intros E. apply NO. do 3 right. left. exact E.
  - intros n D. destruct (list_eq_dec N.eq_dec n (last_of q_out_of [] qs)) as [->|X].
    + destruct D as [D| ->]; [congruence|]. reflexivity.
    + rewrite !write_out_other by auto. reflexivity.
  - intros D. unfold write_out at 1. destruct (last_of q_out_of [] qs); [congruence|]. apply set_file_same.
Qed.

Theorem cli_fast_runs_end_to_end :
  forall fm junk blank prog input ss prog' log qs (fs : files) one u lists text queries hc sched,
  formats_ok fm -> collection_ok one u lists -> junk_ok junk -> blank_ok blank ->
  fs input = Some (collection_file one u lists) -> fs log = Some text -> log_of text queries ->
  Forall fast_build_setting ss -> Forall fast_query_setting qs -> ss <> [] ->
  let out := last_of out_of [] ss in
  let wsize := last_of wsize_of 64%N ss in
  let kept := kept_lists (last_of min_of 0%N ss) (last_of max_of (2 ^ 64 - 1)%N ss) lists in
  ~ In out ([] :: input :: log :: fast_query_names) -> ~ In log fast_query_names ->
  In wsize [8; 16; 32; 64]%N -> fast_universe u (word_log wsize) -> (wsize < u)%N ->
  last_of rank_of 0%N ss <> 1%N ->
  Forall (fast_ok u) kept ->
  runs_mode (last_of runs_of false ss) (last_of parallel_of false qs) hc sched ->
  queries <> [] -> Forall (query_ok kept) queries ->
  exists fs' r rs,
    build_fast_main fm junk (prog :: input :: written_all ss) fs = Ok (Some (fs', Some r)) /\
    (forall n, n <> out -> fs' n = fs n) /\
    fast_query_main fm blank sched hc (prog' :: out :: log :: q_written_all qs) fs' = Ok (Some rs) /\
    Forall2 (runs_answer (2 * wsize) u hc kept) queries rs.
Proof.
  intros fm junk blank prog input ss prog' log qs fs one u lists text queries hc sched FM C J BL I G T FS FQ SS
    out wsize kept NO NL W U UW R1 ST RM Q0 QO.
  assert (NO1 : out <> []) by (intros E; apply NO; rewrite E; left; reflexivity).
  assert (NO2 : out <> input) by (intros E; apply NO; rewrite E; right; left; reflexivity).
  assert (NO3 : out <> log) by (intros E; apply NO; rewrite E; right; right; left; reflexivity).
  cbn [In] in NO.
  destruct (fast_build_line fm FM junk prog input ss one u lists fs C I) as (bytes & r & H & B); auto.
  { repeat (split; [assumption|]). assumption. }
  destruct (fast_query_runs_found fm FM blank sched hc qs u lists ss bytes queries H BL RM UW Q0 QO) as (rs & Q & A).
  exists (set_file out bytes fs), r, rs. split; [exact B|]. split; [|split; [|exact A]].
  - intros n D. apply set_file_other, D.
  - apply fast_query_any with (bytes := bytes) (text := text) (queries := queries); auto.
    + apply set_file_same.
    + rewrite set_file_other by auto. exact G.
    + intros E. apply NO. do 3 right. exact E.
    + eapply fast_ids_small; eauto.
Qed.
