(** Properties C53, C54, C55: query logs as text, command lines, and the whole way from
    the command lines to the answers. *)

From Coq Require Import String.
From Verif Require Import Base FlatTrie LevelTrie FastTrie ParallelFor Intersection Tries Serialize
  Tools Spec SpecTries SpecFiles SpecTools SerializeThms InterRefute ParForThms ToolsThms
  Report Text SpecText TextThms Table Cli SpecCli SpecAnswers SpecScript CliThms CliTools CliExact.

(** C53.  Full claim: every log loads as the queries it lists.  Proved for ids below
    2^31; above, the tool stops with an exception. *)
Theorem C53_query_log_partial : forall text queries, log_of text queries ->
  Forall (Forall (fun i => i < 2 ^ 31)%N) queries -> load_query_log (Some text) = Some queries.
Proof. exact query_log_loaded. Qed.
Print Assumptions C53_query_log_partial.

Theorem C53_large_id_refuted : forall text queries q i, log_of text queries -> In q queries -> In i q ->
  (2 ^ 31 <= i)%N -> load_query_log (Some text) = None.
Proof. exact query_log_fails. Qed.
Print Assumptions C53_large_id_refuted.

(** The tool for fast tries: up to 64 bits. *)
Theorem C53_fast_query_log : forall text queries, log_of text queries ->
  Forall (Forall (fun i => i < 2 ^ 64)%N) queries -> fast_load_query_log (Some text) = Some queries.
Proof. exact fast_query_log_loaded. Qed.
Print Assumptions C53_fast_query_log.

(** Every list of queries is the content of some log. *)
Theorem C53_every_query_written : forall queries, log_of (log_text queries) queries.
Proof. exact log_text_ok. Qed.
Print Assumptions C53_every_query_written.

Definition a_log : list N := txt " 3 12" ++ [13; 10]%N ++ [10]%N ++ txt "007	5 " ++ [10]%N ++ txt "0".

Example C53_example :
  log_of a_log [[3; 12]; []; [7; 5]; [0]]%N /\
  load_query_log (Some a_log) = Some [[3; 12]; []; [7; 5]; [0]]%N /\
  fast_load_query_log (Some a_log) = Some [[3; 12]; []; [7; 5]; [0]]%N /\
  load_query_log (Some (txt "1 2147483648")) = None /\
  fast_load_query_log (Some (txt "1 2147483648")) = Some [[1; 2147483648]]%N /\
  load_query_log None = Some [].
Proof.
  split; [|vm_compute; repeat split].
  assert (S1 : forall c rest, space c -> forall c' rest', c :: rest = c' :: rest' -> space c')
    by (intros c rest H c' rest' Q; injection Q as <- _; exact H).
  apply (log_line (txt " 3 12" ++ [13%N]) [3; 12]%N ([10]%N ++ txt "007	5 " ++ [10]%N ++ txt "0")).
  { apply (line_number [32]%N (txt "3") (txt " 12" ++ [13]%N) [12]%N).
    - repeat constructor.
    - split; [discriminate|]. repeat (constructor; [split; discriminate|]). constructor.
    - apply (S1 32%N (txt "12" ++ [13]%N)). cbn. auto.
    - apply (line_number [32]%N (txt "12") [13]%N []).
      + repeat constructor.
      + split; [discriminate|]. repeat (constructor; [split; discriminate|]). constructor.
      + apply (S1 13%N []). cbn. auto 10.
      + apply line_end. constructor; [cbn; auto 10|constructor]. }
  apply (log_line [] [] (txt "007	5 " ++ [10]%N ++ txt "0")); [repeat constructor|].
  apply (log_line (txt "007	5 ") [7; 5]%N (txt "0")).
  { apply (line_number [] (txt "007") (txt "	5 ") [5]%N).
    - constructor.
    - split; [discriminate|]. repeat (constructor; [split; discriminate|]). constructor.
    - apply (S1 9%N (txt "5 ")). cbn. auto.
    - apply (line_number [9]%N (txt "5") (txt " ") []).
      + constructor; [cbn; auto|constructor].
      + split; [discriminate|]. repeat (constructor; [split; discriminate|]). constructor.
      + apply (S1 32%N []). cbn. auto.
      + constructor. repeat constructor. }
  apply log_last; [discriminate|].
  apply (line_number [] (txt "0") [] []).
  - constructor.
  - split; [discriminate|]. repeat (constructor; [split; discriminate|]). constructor.
  - discriminate.
  - repeat constructor.
Qed.

(** C54.  Full claim: every option has the value last given to it.  Proved for values that
    are not names of options (in any order, any number of times, with other arguments in
    between). *)
Theorem C54_build_options_partial : forall prog input ss, Forall build_setting ss ->
  build_options (prog :: input :: written_all ss)
  = Ok (Some (mkBuildOpts (last_of min_of 0 ss) (last_of max_of (2 ^ 64 - 1) ss) (last_of rank_of 0 ss)
                (last_of block_of 512 ss) 64 (last_of runs_of false ss)
                (last_of levelwise_of false ss) (last_of verbose_of false ss) (last_of out_of [] ss)))%N.
Proof. exact build_options_last. Qed.
Print Assumptions C54_build_options_partial.

Theorem C54_fast_build_options_partial : forall prog input ss, Forall fast_build_setting ss ->
  fast_build_options (prog :: input :: written_all ss)
  = Ok (Some (mkBuildOpts (last_of min_of 0 ss) (last_of max_of (2 ^ 64 - 1) ss) (last_of rank_of 0 ss)
                (last_of block_of 512 ss) (last_of wsize_of 64 ss) (last_of runs_of false ss)
                (last_of levelwise_of false ss) (last_of verbose_of false ss) (last_of out_of [] ss)))%N.
Proof. exact fast_build_options_last. Qed.
Print Assumptions C54_fast_build_options_partial.

Theorem C54_query_options_partial : forall prog sequences log ss,
  ~ In sequences query_names -> ~ In log query_names -> Forall the_query_setting ss ->
  query_options (prog :: sequences :: log :: q_written_all ss)
  = Ok (Some (mkQueryOpts (last_of q_out_of [] ss) (last_of q_verbose_of false ss)
                (last_of parallel_of true ss))).
Proof. exact query_options_last. Qed.
Print Assumptions C54_query_options_partial.

Theorem C54_fast_query_options_partial : forall prog sequences log ss,
  ~ In sequences fast_query_names -> ~ In log fast_query_names -> Forall fast_query_setting ss ->
  fast_query_options (prog :: sequences :: log :: q_written_all ss)
  = Ok (Some (mkQueryOpts [] (last_of q_verbose_of false ss) (last_of parallel_of false ss))).
Proof. exact fast_query_options_last. Qed.
Print Assumptions C54_fast_query_options_partial.

(** A value that is the name of an option is also taken as that option. *)
Theorem C54_option_as_value_refuted :
  ~ (forall prog input ss,
       Forall (fun s => match s with OutFile _ => True | _ => build_setting s end) ss ->
       build_options (prog :: input :: written_all ss)
       = Ok (Some (mkBuildOpts (last_of min_of 0 ss) (last_of max_of (2 ^ 64 - 1) ss) (last_of rank_of 0 ss)
                     (last_of block_of 512 ss) 64 (last_of runs_of false ss)
                     (last_of levelwise_of false ss) (last_of verbose_of false ss) (last_of out_of [] ss)))%N).
Proof. exact option_name_as_value. Qed.
Print Assumptions C54_option_as_value_refuted.

(** An option at the end without its value: a null pointer is read. *)
Theorem C54_missing_value_refuted : forall prog input ss name, Forall build_setting ss ->
  In name build_names -> build_options (prog :: input :: written_all ss ++ [name]) = UB NullDeref.
Proof. exact build_missing_value. Qed.
Print Assumptions C54_missing_value_refuted.

Theorem C54_fast_missing_value_refuted : forall prog input ss name, Forall fast_build_setting ss ->
  In name fast_build_valued ->
  fast_build_options (prog :: input :: written_all ss ++ [name]) = UB NullDeref.
Proof. exact fast_build_missing_value. Qed.
Print Assumptions C54_fast_missing_value_refuted.

Theorem C54_query_missing_value_refuted : forall prog sequences log ss name,
  ~ In sequences query_names -> ~ In log query_names -> Forall the_query_setting ss ->
  In name query_names ->
  query_options (prog :: sequences :: log :: q_written_all ss ++ [name]) = UB NullDeref.
Proof. exact query_missing_value. Qed.
Print Assumptions C54_query_missing_value_refuted.

Theorem C54_fast_query_missing_value_refuted : forall prog sequences log ss,
  ~ In sequences fast_query_names -> ~ In log fast_query_names -> Forall fast_query_setting ss ->
  fast_query_options (prog :: sequences :: log :: q_written_all ss ++ [txt "--parallel"]) = UB NullDeref.
Proof. exact fast_query_missing_value. Qed.
Print Assumptions C54_fast_query_missing_value_refuted.

(** Without arguments the build tool prints the usage and then reads a null pointer. *)
Theorem C54_no_arguments_refuted : forall fm prog fs, build_tries_main fm [prog] fs = UB NullDeref.
Proof. exact no_arguments. Qed.
Print Assumptions C54_no_arguments_refuted.

(** Sizes: a text without a number stops the tool by an exception; what follows the digits
    is ignored; a negative number counts down from 2^64. *)
Theorem C54_wrong_size : forall prog input ss name w rest, Forall build_setting ss ->
  In name [txt "--min_size"; txt "--max_size"] -> no_number w ->
  build_options (prog :: input :: written_all ss ++ name :: w :: rest) = Ok None.
Proof. exact build_wrong_size. Qed.
Print Assumptions C54_wrong_size.

Theorem C54_trailing_text : forall w c rest, decimal w -> (decimal_value w < 2 ^ 64)%N ->
  ~ (48 <= c <= 57)%N -> stoull (w ++ c :: rest) = Some (decimal_value w).
Proof. exact stoull_trailing. Qed.
Print Assumptions C54_trailing_text.

Theorem C54_negative_size : forall w, decimal w -> (0 < decimal_value w < 2 ^ 64)%N ->
  stoull (45%N :: w) = Some (2 ^ 64 - decimal_value w)%N.
Proof. exact stoull_negative. Qed.
Print Assumptions C54_negative_size.

(** The fast build tool builds nothing, and says nothing, for other word sizes. *)
Theorem C54_word_size : forall fm junk prog input ss fs, Forall fast_build_setting ss -> ss <> [] ->
  ~ In (last_of wsize_of 64%N ss) [8; 16; 32; 64]%N ->
  build_fast_main fm junk (prog :: input :: written_all ss) fs = Ok (Some (fs, None)).
Proof. exact unknown_word_size. Qed.
Print Assumptions C54_word_size.

(** A word size without a number is 0, so nothing is built; a block size without a number
    is 0 too, and C36's query tool does not load such files; a word size of 2^31 or more
    leaves the range of the conversion. *)
Theorem C54_word_size_text : forall fm junk prog input ss w fs, Forall fast_build_setting ss ->
  starts_no_number w ->
  build_fast_main fm junk (prog :: input :: written_all ss ++ [txt "--wsize"; w]) fs = Ok (Some (fs, None)).
Proof. exact word_size_no_number. Qed.
Print Assumptions C54_word_size_text.

Theorem C54_block_size_text : forall prog input ss w, Forall build_setting ss -> starts_no_number w ->
  exists o, build_options (prog :: input :: written_all ss ++ [txt "--rank"; txt "il"; w]) = Ok (Some o) /\
    b_rank o = 1%N /\ b_block o = 0%N.
Proof. exact block_size_no_number. Qed.
Print Assumptions C54_block_size_text.

Theorem C54_large_word_size_refuted : forall fm junk prog input ss w rest fs, Forall fast_build_setting ss ->
  decimal w -> (2 ^ 31 <= decimal_value w)%N ->
  build_fast_main fm junk (prog :: input :: written_all ss ++ txt "--wsize" :: w :: rest) fs = UB BadCast.
Proof. exact word_size_too_large. Qed.
Print Assumptions C54_large_word_size_refuted.

Theorem C54_missing_collection : forall fm prog input ss fs, Forall build_setting ss -> fs input = None ->
  build_tries_main fm (prog :: input :: written_all ss) fs = Ok (Some (fs, None)).
Proof. exact missing_collection. Qed.
Print Assumptions C54_missing_collection.

Ltac no_name := let Q := fresh in intros Q; vm_compute in Q; repeat destruct Q as [Q|Q];
  try discriminate Q; try destruct Q.

Lemma short_decimal : forall w, w <> [] -> forallb is_digit w = true -> decimal w.
Proof.
  intros w N0 F. split; auto. apply Forall_forall. intros c I. rewrite forallb_forall in F.
  apply F in I. unfold is_digit in I. apply andb_prop in I. destruct I as (A & B).
  apply N.leb_le in A. apply N.leb_le in B. lia.
Qed.

Definition some_settings : list setting :=
  [MinSize (txt "3"); RankIl (txt "128"); Runs (txt "t"); MinSize (txt "1"); Ignored (txt "x"); RankOther (txt "v5");
   OutFile (txt "tries.bin"); Levelwise (txt "t"); Runs (txt "f"); MaxSize (txt "100")].

Lemma some_settings_ok : Forall build_setting some_settings.
Proof.
  unfold some_settings.
  repeat (constructor; [first [ split; [apply short_decimal; [discriminate|reflexivity]|reflexivity]
                              | split; [discriminate|split; [discriminate|no_name]]
                              | no_name ]|]). constructor.
Qed.

Example C54_example :
  Forall build_setting some_settings /\
  written_all some_settings
  = map txt ["--min_size"; "3"; "--rank"; "il"; "128"; "--runs"; "t"; "--min_size"; "1"; "x"; "--rank"; "v5";
             "--out"; "tries.bin"; "--levelwise"; "t"; "--runs"; "f"; "--max_size"; "100"]%string /\
  build_options (txt "build" :: txt "data" :: written_all some_settings)
  = Ok (Some (mkBuildOpts 1 100 2 128 64 false true false (txt "tries.bin"))) /\
  build_options (map txt ["build"; "data"; "--min_size"; "many"]%string) = Ok None /\
  no_number (txt "many") /\
  build_options (map txt ["build"; "data"; "--max_size"; "-1"]%string) = Ok (Some build_defaults) /\
  fast_build_options (map txt ["build"; "data"; "--verbose"; "--wsize"; "16"]%string)
  = Ok (Some (mkBuildOpts 0 (2 ^ 64 - 1) 0 512 16 false false true [])) /\
  query_options (map txt ["query"; "tries.bin"; "log"; "--parallel"; "f"; "--out"; "times"]%string)
  = Ok (Some (mkQueryOpts (txt "times") false false)).
Proof.
  split; [exact some_settings_ok|].
  split; [reflexivity|]. split; [vm_compute; reflexivity|]. split; [vm_compute; reflexivity|].
  split.
  { right. intros c l Q. injection Q as <- _. unfold newline.
    split; [|split; [discriminate|split; [discriminate|split; [discriminate|]]]].
    - unfold space. cbn [In]. intros Q. repeat destruct Q as [Q|Q]; try discriminate Q. destruct Q.
    - intros (_ & Q). apply Q. reflexivity. }
  split; [vm_compute; reflexivity|]. split; vm_compute; reflexivity.
Qed.

Example C54_text_example :
  starts_no_number (txt "wide") /\ starts_no_number [] /\
  fast_build_options (map txt ["build"; "data"; "--wsize"; "wide"]%string)
  = Ok (Some (mkBuildOpts 0 (2 ^ 64 - 1) 0 512 0 false false false [])) /\
  build_options (map txt ["build"; "data"; "--rank"; "il"; "wide"]%string)
  = Ok (Some (mkBuildOpts 0 (2 ^ 64 - 1) 1 0 64 false false false [])) /\
  fast_build_options (map txt ["build"; "data"; "--wsize"; "4294967360"]%string) = UB BadCast.
Proof.
  split.
  { intros c l Q. injection Q as <- _. unfold newline.
    split; [|split; [discriminate|split; [discriminate|split; [discriminate|]]]].
    - unfold space. cbn [In]. intros Q. repeat destruct Q as [Q|Q]; try discriminate Q. destruct Q.
    - intros (_ & Q). apply Q. reflexivity. }
  split; [discriminate|]. vm_compute. repeat split.
Qed.

(** C55.  Full claim: for every collection, log and command line.  Proved under the
    conditions of C36 and C53, for paths that are different files. *)
Theorem C55_command_lines_partial :
  forall fm prog input ss prog' log qs (fs : files) one u lists text queries hc sched time,
  formats_ok fm -> collection_ok one u lists -> (2 <= u)%N ->
  fs input = Some (collection_file one u lists) -> fs log = Some text -> log_of text queries ->
  Forall build_setting ss -> Forall the_query_setting qs ->
  let out := last_of out_of [] ss in
  let runs := last_of runs_of false ss in
  let levelwise := last_of levelwise_of false ss in
  let rank_type := last_of rank_of 0%N ss in
  let block := last_of block_of 512%N ss in
  let kept := kept_lists (last_of min_of 0%N ss) (last_of max_of (2 ^ 64 - 1)%N ss) lists in
  ~ In out ([] :: input :: log :: last_of q_out_of [] qs :: query_names) ->
  ~ In log (last_of q_out_of [] qs :: query_names) ->
  loadable_options rank_type block levelwise ->
  Forall (stored_ok u (built_variant rank_type levelwise) runs) kept ->
  exact_mode u runs (last_of parallel_of true qs) hc sched kept ->
  Forall (query_ok kept) queries -> Forall (Forall (fun i => i < 2 ^ 31)%N) queries ->
  exists fs' r fs'' rs,
    build_tries_main fm (prog :: input :: written_all ss) fs = Ok (Some (fs', Some r)) /\
    (forall n, n <> out -> fs' n = fs n) /\
    query_main fm sched hc time (prog' :: out :: log :: q_written_all qs) fs' = Ok (fs'', Some rs) /\
    (forall n, n <> last_of q_out_of [] qs \/ n = [] -> fs'' n = fs' n) /\
    Forall2 (answers kept) queries rs.
Proof. exact cli_end_to_end. Qed.
Print Assumptions C55_command_lines_partial.

Theorem C55_fast_command_lines_partial :
  forall fm junk blank prog input ss prog' log qs (fs : files) one u lists text queries hc sched,
  formats_ok fm -> collection_ok one u lists -> junk_ok junk -> blank_ok blank ->
  fs input = Some (collection_file one u lists) -> fs log = Some text -> log_of text queries ->
  Forall fast_build_setting ss -> Forall fast_query_setting qs -> ss <> [] ->
  let out := last_of out_of [] ss in
  let runs := last_of runs_of false ss in
  let wsize := last_of wsize_of 64%N ss in
  let kept := kept_lists (last_of min_of 0%N ss) (last_of max_of (2 ^ 64 - 1)%N ss) lists in
  ~ In out ([] :: input :: log :: fast_query_names) -> ~ In log fast_query_names ->
  In wsize [8; 16; 32; 64]%N -> fast_universe u (word_log wsize) ->
  last_of rank_of 0%N ss <> 1%N ->
  Forall (fast_ok u) kept ->
  fast_exact_mode u (word_log wsize) runs (last_of parallel_of false qs) hc sched kept ->
  queries <> [] -> Forall (query_ok kept) queries ->
  exists fs' r rs,
    build_fast_main fm junk (prog :: input :: written_all ss) fs = Ok (Some (fs', Some r)) /\
    (forall n, n <> out -> fs' n = fs n) /\
    fast_query_main fm blank sched hc (prog' :: out :: log :: q_written_all qs) fs' = Ok (Some rs) /\
    Forall2 (answers kept) queries rs.
Proof. exact cli_fast_end_to_end. Qed.
Print Assumptions C55_fast_command_lines_partial.

(** With several threads, the default of the query tool, over files built with --runs t: the
    answers of C36, and so too the rows of the table. *)
Theorem C55_runs_partial :
  forall fm prog input ss prog' log qs (fs : files) one u lists text queries hc sched time,
  formats_ok fm -> collection_ok one u lists -> (3 <= u)%N ->
  fs input = Some (collection_file one u lists) -> fs log = Some text -> log_of text queries ->
  Forall build_setting ss -> Forall the_query_setting qs ->
  let out := last_of out_of [] ss in
  let levelwise := last_of levelwise_of false ss in
  let rank_type := last_of rank_of 0%N ss in
  let block := last_of block_of 512%N ss in
  let kept := kept_lists (last_of min_of 0%N ss) (last_of max_of (2 ^ 64 - 1)%N ss) lists in
  ~ In out ([] :: input :: log :: last_of q_out_of [] qs :: query_names) ->
  ~ In log (last_of q_out_of [] qs :: query_names) ->
  loadable_options rank_type block levelwise ->
  Forall (stored_ok u (built_variant rank_type levelwise) true) kept ->
  runs_mode (last_of runs_of false ss) (last_of parallel_of true qs) hc sched ->
  Forall (query_ok kept) queries -> Forall (Forall (fun i => i < 2 ^ 31)%N) queries ->
  exists fs' r fs'' rs,
    build_tries_main fm (prog :: input :: written_all ss) fs = Ok (Some (fs', Some r)) /\
    (forall n, n <> out -> fs' n = fs n) /\
    query_main fm sched hc time (prog' :: out :: log :: q_written_all qs) fs' = Ok (fs'', Some rs) /\
    (forall n, n <> last_of q_out_of [] qs \/ n = [] -> fs'' n = fs' n) /\
    Forall2 (runs_answer 4 u hc kept) queries rs /\
    (last_of q_out_of [] qs <> [] ->
     fs'' (last_of q_out_of [] qs) = Some (table_header ++ table_rows time 0 (combine queries rs))).
Proof. exact cli_runs_end_to_end. Qed.
Print Assumptions C55_runs_partial.

Theorem C55_fast_runs_partial :
  forall fm junk blank prog input ss prog' log qs (fs : files) one u lists text queries hc sched,
  formats_ok fm -> collection_ok one u lists -> junk_ok junk -> blank_ok blank ->
  fs input = Some (collection_file one u lists) -> fs log = Some text -> log_of text queries ->
  Forall fast_build_setting ss -> Forall fast_query_setting qs -> ss <> [] ->
  let out := last_of out_of [] ss in
  let wsize := last_of wsize_of 64%N ss in
  let kept := kept_lists (last_of min_of 0%N ss) (last_of max_of (2 ^ 64 - 1)%N ss) lists in
  ~ In out ([] :: input :: log :: fast_query_names) -> ~ In log fast_query_names ->
  In wsize [8; 16; 32; 64]%N -> fast_universe u (word_log wsize) -> (wsize < u)%N ->
  last_of rank_of 0%N ss <> 1%N ->
  Forall (fast_ok u) kept ->
  runs_mode (last_of runs_of false ss) (last_of parallel_of false qs) hc sched ->
  queries <> [] -> Forall (query_ok kept) queries ->
  exists fs' r rs,
    build_fast_main fm junk (prog :: input :: written_all ss) fs = Ok (Some (fs', Some r)) /\
    (forall n, n <> out -> fs' n = fs n) /\
    fast_query_main fm blank sched hc (prog' :: out :: log :: q_written_all qs) fs' = Ok (Some rs) /\
    Forall2 (runs_answer (2 * wsize) u hc kept) queries rs.
Proof. exact cli_fast_runs_end_to_end. Qed.
Print Assumptions C55_fast_runs_partial.

(** Five lists of which three are kept; the default of the query tool is parallel. *)
Definition five_lists : list (list N) := [[0; 1; 2; 3; 9]; [5]; [3; 4; 5; 6; 7; 9]; []; [1; 2; 3; 40]]%N.

Definition some_files : files :=
  fun n => if text_eqb n (txt "data") then Some (collection_file 1 50 five_lists)
           else if text_eqb n (txt "log") then Some (txt " 0 1" ++ [10]%N ++ txt " 2" ++ [10]%N)
           else None.

Example C55_example :
  log_of (txt " 0 1" ++ [10]%N ++ txt " 2" ++ [10]%N) [[0; 1]; [2]]%N /\
  kept_lists (last_of min_of 0%N some_settings) (last_of max_of (2 ^ 64 - 1)%N some_settings) five_lists
  = [[0; 1; 2; 3; 9]; [3; 4; 5; 6; 7; 9]; [1; 2; 3; 40]]%N /\
  loadable_options (last_of rank_of 0%N some_settings) (last_of block_of 512%N some_settings)
    (last_of levelwise_of false some_settings) /\
  exact_mode 50 (last_of runs_of false some_settings) true 8 (fun _ _ => (in_order, backwards))
    (kept_lists (last_of min_of 0%N some_settings) (last_of max_of (2 ^ 64 - 1)%N some_settings) five_lists) /\
  (let? (fs', _) := build_tries_main plain_formats (txt "build" :: txt "data" :: written_all some_settings) some_files in
   let* (_, rs) := query_main plain_formats (fun _ _ => (in_order, backwards)) 8 (fun _ => txt "1.5")
     (map txt ["query"; "tries.bin"; "log"; "--verbose"; "t"]%string) fs' in
   Ok rs)
  = Ok (Some [Some [3; 9]; Some [1; 2; 3; 40]]%N).
Proof.
  split. { exact (log_text_ok [[0; 1]; [2]]%N). }
  split; [vm_compute; reflexivity|].
  split. { split; [reflexivity|]. split; [reflexivity|]. discriminate. }
  split.
  { split; [discriminate|]. intros _. split; [reflexivity|]. split; [left; discriminate|]. split; [discriminate|].
    intros. split; [apply in_order_valid|apply backwards_valid]. }
  vm_compute. reflexivity.
Qed.

(** The same with runs and 16 threads: the value 3 is lost from the first answer. *)
Definition runs_settings : list setting := (some_settings ++ [Runs (txt "t")])%list.

Example C55_runs_example :
  kept_lists (last_of min_of 0%N runs_settings) (last_of max_of (2 ^ 64 - 1)%N runs_settings) five_lists
  = [[0; 1; 2; 3; 9]; [3; 4; 5; 6; 7; 9]; [1; 2; 3; 40]]%N /\
  loadable_options (last_of rank_of 0%N runs_settings) (last_of block_of 512%N runs_settings)
    (last_of levelwise_of false runs_settings) /\
  runs_mode (last_of runs_of false runs_settings) true 16 (fun _ _ => (in_order, backwards)) /\
  (let? (fs', _) := build_tries_main plain_formats (txt "build" :: txt "data" :: written_all runs_settings) some_files in
   let* (_, rs) := query_main plain_formats (fun _ _ => (in_order, backwards)) 16 (fun _ => txt "1.5")
     (map txt ["query"; "tries.bin"; "log"; "--verbose"; "t"]%string) fs' in
   Ok rs)
  = Ok (Some [Some [9]; Some [1; 2; 3; 40]]%N).
Proof.
  split; [vm_compute; reflexivity|].
  split. { split; [reflexivity|]. split; [reflexivity|]. discriminate. }
  split.
  { split; [reflexivity|]. split; [reflexivity|]. split; [split; [discriminate|reflexivity]|].
    intros. split; [apply in_order_valid|apply backwards_valid]. }
  vm_compute. reflexivity.
Qed.
