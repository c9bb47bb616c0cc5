(** Model of the main functions of the build tools and the query tools: command line,
    files, and the calls of buildCollection and performIntersections.

    An execution ends normally (Ok (Some _)), by an uncaught exception (Ok None), or is
    undefined.  The build tools can only throw while they read the command line, before
    they open a file.  Not modelled: other messages than the report of the build tools. *)

From Coq Require Import String.
From Verif Require Import Base FlatTrie LevelTrie FastTrie ParallelFor Intersection Tries Serialize Tools Text
  Report Table.

(** No code of its own: the sequence of two statements of which the first may throw, e.g.
    tools/build_tries.cpp:217-221. *)
Definition bindo {A B} (m : result (option A)) (f : A -> result (option B)) : result (option B) :=
  match m with
  | Ok (Some a) => f a
  | Ok None => Ok None
  | UB e => UB e
  | OutOfFuel => OutOfFuel
  end.

Notation "'let?' x := m 'in' k" := (bindo m (fun x => k))
  (at level 200, x pattern, m at level 100, k at level 200, right associativity).

(** [std::string(argv[i])].  argv[argc] is a null pointer.  E.g. tools/build_tries.cpp:213, 217,
    tools/intersection_query_log.cpp:184. *)
Definition arg (argv : list (list N)) (i : nat) : result (list N) :=
  match nth_error argv i with
  | Some a => Ok a
  | None => if i =? length argv then UB NullDeref else UB OutOfBounds
  end.

(** operator== of std::string, e.g. tools/build_tries.cpp:217. *)
Fixpoint text_eqb (a b : list N) : bool :=
  match a, b with
  | [], [] => true
  | x :: a', y :: b' => (N.eqb x y && text_eqb a' b')%bool
  | _, _ => false
  end.

(** [if (std::string(argv[i]) == name) { ++i; body }] on the index and the options.
    tools/build_tries.cpp:217-263, tools/build_fastTries.cpp:166-209,
    tools/intersection_query_log.cpp:192-209,
    tools/intersection_querylog_fastTrie.cpp:140-146. *)
Definition when_arg {O : Type} (argv : list (list N)) (name : string)
           (body : nat -> O -> result (option (nat * O))) (st : nat * O) : result (option (nat * O)) :=
  let* a := arg argv (fst st) in
  if text_eqb a (txt name) then body (S (fst st)) (snd st) else Ok (Some st).

(** [for (int i = ...; i < argc; ++i)].  tools/build_tries.cpp:216,
    tools/build_fastTries.cpp:165, tools/intersection_query_log.cpp:191,
    tools/intersection_querylog_fastTrie.cpp:136. *)
Fixpoint arg_loop {O : Type} (fuel : nat) (argc : nat)
         (step : nat * O -> result (option (nat * O))) (i : nat) (o : O) : result (option O) :=
  if i <? argc then
    match fuel with
    | O => OutOfFuel
    | S fuel' => let? (i, o) := step (i, o) in arg_loop fuel' argc step (S i) o
    end
  else Ok (Some o).

(** An option whose value is a number read by stoull, a text, or "t" for true.
    tools/build_tries.cpp:217-224, tools/build_fastTries.cpp:166-173. *)
Definition number_arg {O : Type} (argv : list (list N)) (set : N -> O -> O) (i : nat) (o : O)
  : result (option (nat * O)) :=
  let* a := arg argv i in
  match stoull a with
  | Some v => Ok (Some (i, set v o))
  | None => Ok None
  end.

(** tools/build_tries.cpp:246-249, tools/build_fastTries.cpp:195-198,
    tools/intersection_query_log.cpp:192-195. *)
Definition text_arg {O : Type} (argv : list (list N)) (set : list N -> O -> O) (i : nat) (o : O)
  : result (option (nat * O)) :=
  let* a := arg argv i in Ok (Some (i, set a o)).

(** tools/build_tries.cpp:239-245, 250-263, tools/build_fastTries.cpp:188-194, 199-205,
    tools/intersection_query_log.cpp:196-209,
    tools/intersection_querylog_fastTrie.cpp:140-146. *)
Definition bool_arg {O : Type} (argv : list (list N)) (set : bool -> O -> O) (i : nat) (o : O)
  : result (option (nat * O)) :=
  let* a := arg argv i in Ok (Some (i, set (text_eqb a (txt "t")) o)).

(** An option whose value is read by atoi into [bits] bits.  tools/build_tries.cpp:233,
    tools/build_fastTries.cpp:182, 206-209. *)
Definition atoi_arg {O : Type} (argv : list (list N)) (bits : N) (set : N -> O -> O) (i : nat) (o : O)
  : result (option (nat * O)) :=
  let* a := arg argv i in
  let* v := atoi bits a in
  Ok (Some (i, set v o)).

(** The options of the two build tools.  tools/build_tries.cpp:13-14, 207-212,
    tools/build_fastTries.cpp:9, 154-161. *)
Record build_opts := mkBuildOpts {
  b_min : N; b_max : N; b_rank : N; b_block : N; b_wsize : N;
  b_runs : bool; b_levelwise : bool; b_verbose : bool; b_out : list N
}.

(** min_size = ...: tools/build_tries.cpp:219, tools/build_fastTries.cpp:168. *)
Definition set_min v o := mkBuildOpts v (b_max o) (b_rank o) (b_block o) (b_wsize o) (b_runs o) (b_levelwise o) (b_verbose o) (b_out o).
(** max_size = ...: tools/build_tries.cpp:223, tools/build_fastTries.cpp:172. *)
Definition set_max v o := mkBuildOpts (b_min o) v (b_rank o) (b_block o) (b_wsize o) (b_runs o) (b_levelwise o) (b_verbose o) (b_out o).
(** rank = ...: tools/build_tries.cpp:228-236, tools/build_fastTries.cpp:177-185. *)
Definition set_rank v o := mkBuildOpts (b_min o) (b_max o) v (b_block o) (b_wsize o) (b_runs o) (b_levelwise o) (b_verbose o) (b_out o).
(** block = ...: tools/build_tries.cpp:233, tools/build_fastTries.cpp:182. *)
Definition set_block v o := mkBuildOpts (b_min o) (b_max o) (b_rank o) v (b_wsize o) (b_runs o) (b_levelwise o) (b_verbose o) (b_out o).
(** wsize = ...: tools/build_fastTries.cpp:208. *)
Definition set_wsize v o := mkBuildOpts (b_min o) (b_max o) (b_rank o) (b_block o) v (b_runs o) (b_levelwise o) (b_verbose o) (b_out o).
(** runs = ...: tools/build_tries.cpp:242-244, tools/build_fastTries.cpp:191-193. *)
Definition set_runs v o := mkBuildOpts (b_min o) (b_max o) (b_rank o) (b_block o) (b_wsize o) v (b_levelwise o) (b_verbose o) (b_out o).
(** levelwise = ...: tools/build_tries.cpp:253-255, tools/build_fastTries.cpp:202-204. *)
Definition set_levelwise v o := mkBuildOpts (b_min o) (b_max o) (b_rank o) (b_block o) (b_wsize o) (b_runs o) v (b_verbose o) (b_out o).
(** verbose = ...: tools/build_tries.cpp:260-262, tools/build_fastTries.cpp:211. *)
Definition set_verbose v o := mkBuildOpts (b_min o) (b_max o) (b_rank o) (b_block o) (b_wsize o) (b_runs o) (b_levelwise o) v (b_out o).
(** output_filename = ...: tools/build_tries.cpp:248, tools/build_fastTries.cpp:197. *)
Definition set_out v o := mkBuildOpts (b_min o) (b_max o) (b_rank o) (b_block o) (b_wsize o) (b_runs o) (b_levelwise o) (b_verbose o) v.

(** tools/build_tries.cpp:14, 207-212, tools/build_fastTries.cpp:154-161. *)
Definition build_defaults : build_opts := mkBuildOpts 0 (2 ^ 64 - 1) 0 512 64 false false false [].

(** --rank: tools/build_tries.cpp:225-238, tools/build_fastTries.cpp:174-187. *)
Definition rank_arg (argv : list (list N)) (i : nat) (o : build_opts)
  : result (option (nat * build_opts)) :=
  let* a := arg argv i in
  if text_eqb a (txt "v") then Ok (Some (i, set_rank 0 o))
  else if text_eqb a (txt "il") then atoi_arg argv 32 set_block (S i) (set_rank 1 o)
  else Ok (Some (i, set_rank 2 o)).

(** The body of the loop of main: tools/build_tries.cpp:217-263. *)
Definition build_step (argv : list (list N)) (st : nat * build_opts) : result (option (nat * build_opts)) :=
  let? st := when_arg argv "--min_size" (number_arg argv set_min) st in
  let? st := when_arg argv "--max_size" (number_arg argv set_max) st in
  let? st := when_arg argv "--rank" (rank_arg argv) st in
  let? st := when_arg argv "--runs" (bool_arg argv set_runs) st in
  let? st := when_arg argv "--out" (text_arg argv set_out) st in
  let? st := when_arg argv "--levelwise" (bool_arg argv set_levelwise) st in
  when_arg argv "--verbose" (bool_arg argv set_verbose) st.

(** tools/build_tries.cpp:216-264. *)
Definition build_options (argv : list (list N)) : result (option build_opts) :=
  arg_loop (length argv) (length argv) (build_step argv) 2 build_defaults.

(** The body of the loop of main: tools/build_fastTries.cpp:166-211; --verbose takes no
    value here. *)
Definition fast_build_step (argv : list (list N)) (st : nat * build_opts) : result (option (nat * build_opts)) :=
  let? st := when_arg argv "--min_size" (number_arg argv set_min) st in
  let? st := when_arg argv "--max_size" (number_arg argv set_max) st in
  let? st := when_arg argv "--rank" (rank_arg argv) st in
  let? st := when_arg argv "--runs" (bool_arg argv set_runs) st in
  let? st := when_arg argv "--out" (text_arg argv set_out) st in
  let? st := when_arg argv "--levelwise" (bool_arg argv set_levelwise) st in
  let? st := when_arg argv "--wsize" (atoi_arg argv 16 set_wsize) st in
  when_arg argv "--verbose" (fun i o => Ok (Some (pred i, set_verbose true o))) st.

(** tools/build_fastTries.cpp:165-212. *)
Definition fast_build_options (argv : list (list N)) : result (option build_opts) :=
  arg_loop (length argv) (length argv) (fast_build_step argv) 2 build_defaults.

(** The files by name; different names are different files.  They are opened at
    tools/build_tries.cpp:36, 43, tools/build_fastTries.cpp:31, 38,
    tools/intersection_query_log.cpp:88, 114, 189, tools/intersection_querylog_fastTrie.cpp:25,
    155. *)
Definition files := list N -> option (list N).

(** A file opened for writing, with what is written until it is closed:
    tools/build_tries.cpp:43-183, tools/build_fastTries.cpp:38-130,
    tools/intersection_query_log.cpp:114-160. *)
Definition set_file (name bytes : list N) (fs : files) : files :=
  fun n => if text_eqb n name then Some bytes else fs n.

(** buildCollection opens the input, then the output, which it truncates:
    tools/build_tries.cpp:35-48, tools/build_fastTries.cpp:30-43.  Every path can be
    opened for writing.  If the output is the input, that is empty by the time it is read,
    and u, which is printed, stays unset (tools/build_tries.cpp:50-53, 81).  The result: the
    files, and the report printed unless the input is missing. *)
Definition build_to (fs : files) (input out : list N) (build : bool -> list N -> result (list N * report))
  : result (option (files * option report)) :=
  match fs input with
  | None => Ok (Some (fs, None))
  | Some bytes =>
    if text_eqb input out then UB Indeterminate
    else
      match out with
      | [] => let* (_, r) := build false bytes in Ok (Some (fs, Some r))
      | _ => let* (result, r) := build true bytes in Ok (Some (set_file out result fs, Some r))
      end
  end.

(** main: tools/build_tries.cpp:193-294.  With fewer than two arguments it prints the
    usage and goes on. *)
Definition build_tries_main (fm : formats) (argv : list (list N)) (fs : files)
  : result (option (files * option report)) :=
  let* input := arg argv 1 in
  let? o := build_options argv in
  build_to fs input (b_out o)
    (report_tries fm (b_min o) (b_max o) (b_rank o) (b_block o) (b_runs o) (b_levelwise o)).

(** main: tools/build_fastTries.cpp:139-245.  Nothing is built for other word sizes. *)
Definition build_fast_main (fm : formats) (junk : nat -> fast_junk) (argv : list (list N)) (fs : files)
  : result (option (files * option report)) :=
  if length argv <? 3 then Ok (Some (fs, None))
  else
    let* input := arg argv 1 in
    let? o := fast_build_options argv in
    if existsb (N.eqb (b_wsize o)) [64; 32; 16; 8]%N then
      build_to fs input (b_out o)
        (report_fast_tries fm junk (b_min o) (b_max o) (b_rank o) (b_runs o) (b_levelwise o)
           (word_log (b_wsize o)))
    else Ok (Some (fs, None)).

(** The options of the query tools.  tools/intersection_query_log.cpp:18-23, 186,
    tools/intersection_querylog_fastTrie.cpp:15-20. *)
Record query_opts := mkQueryOpts { q_out : list N; q_verbose : bool; q_parallel : bool }.

(** tools/intersection_query_log.cpp:192-209. *)
Definition query_step (argv : list (list N)) (st : nat * query_opts) : result (option (nat * query_opts)) :=
  let? st := when_arg argv "--out"
    (text_arg argv (fun v o => mkQueryOpts v (q_verbose o) (q_parallel o))) st in
  let? st := when_arg argv "--verbose"
    (bool_arg argv (fun v o => mkQueryOpts (q_out o) v (q_parallel o))) st in
  when_arg argv "--parallel"
    (bool_arg argv (fun v o => mkQueryOpts (q_out o) (q_verbose o) v)) st.

(** tools/intersection_query_log.cpp:22-23, 186, 191-210. *)
Definition query_options (argv : list (list N)) : result (option query_opts) :=
  arg_loop (length argv) (length argv) (query_step argv) 1 (mkQueryOpts [] false true).

(** Writing [text] to the file of --out, if there is one.
    tools/intersection_query_log.cpp:113-116, 148-152, 160. *)
Definition write_out (out text : list N) (fs : files) : files :=
  match out with [] => fs | _ => set_file out text fs end.

(** main: tools/intersection_query_log.cpp:171-231.  The files after it, with the table of
    --out, and the answers to the queries, [None] if an exception ended it.  If the
    sequences cannot be opened there are none (lines 28-31).  The file of --out is opened,
    and its first line written and flushed, before the log is read.  Not modelled: --out
    over the sequences, which are partly read then. *)
Definition query_main (fm : formats) (sched : nat -> nat -> scheduler * scheduler) (hc : N)
           (time : nat -> list N) (argv : list (list N)) (fs : files)
  : result (files * option (list (option (list N)))) :=
  if length argv <? 3 then Ok (fs, Some [])
  else
    let* sequences := arg argv 1 in
    let* log := arg argv 2 in
    let* o := query_options argv in
    match o with
    | None => Ok (fs, None)
    | Some o =>
      if (negb (text_eqb (q_out o) []) && text_eqb (q_out o) sequences)%bool then UB Unmodelled else
      let fs1 := write_out (q_out o) table_header fs in
      let answered queries rs :=
        Ok (write_out (q_out o) (table_header ++ table_rows time 0 (combine queries rs)) fs1, Some rs) in
      match fs1 sequences with
      | None =>
        match load_query_log (fs1 log) with
        | None => Ok (fs1, None)
        | Some queries =>
          let* rs := run_queries (fun i => vgetN (@nil bin_trie) i)
            (fun nq rep ts => Intersect Bin (fst (sched nq rep)) (snd (sched nq rep)) hc (map bin_ops ts)
                                false (q_parallel o))
            0 queries in
          answered queries rs
        end
      | Some file =>
        let* _ := load_collection fm file in
        match load_query_log (fs1 log) with
        | None => Ok (fs1, None)
        | Some queries =>
          let* rs := query_log fm sched hc (q_parallel o) file queries in answered queries rs
        end
      end
    end.

(** tools/intersection_querylog_fastTrie.cpp:137-146; --verbose takes no value. *)
Definition fast_query_step (argv : list (list N)) (st : nat * query_opts) : result (option (nat * query_opts)) :=
  let? st := when_arg argv "--verbose"
    (fun i o => Ok (Some (pred i, mkQueryOpts (q_out o) true (q_parallel o)))) st in
  when_arg argv "--parallel"
    (bool_arg argv (fun v o => mkQueryOpts (q_out o) (q_verbose o) v)) st.

(** tools/intersection_querylog_fastTrie.cpp:17-18, 136-147. *)
Definition fast_query_options (argv : list (list N)) : result (option query_opts) :=
  arg_loop (length argv) (length argv) (fast_query_step argv) 1 (mkQueryOpts [] false false).

(** main: tools/intersection_querylog_fastTrie.cpp:125-198.  The log is read before the
    tries (lines 84-86).  Without the file of the sequences [n] stays uninitialised (line 58). *)
Definition fast_query_main (fm : formats) (blank : nat -> fast)
           (sched : nat -> nat -> scheduler * scheduler) (hc : N)
           (argv : list (list N)) (fs : files) : result (option (list (option (list N)))) :=
  if length argv <? 3 then Ok (Some [])
  else
    let? o := fast_query_options argv in
    let* sequences := arg argv 1 in
    let* log := arg argv 2 in
    match fast_load_query_log (fs log) with
    | None => Ok None
    | Some queries =>
      let* file := oget (fs sequences) in
      let* rs := fast_query_log fm blank sched hc (q_parallel o) file queries in Ok (Some rs)
    end.
