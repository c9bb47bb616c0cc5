(** Scripts that run the tools one after the other, like scripts/build_tries.sh,
    scripts/build_fastTries.sh and scripts/run_*.sh. *)

From Verif Require Import Base FastTrie ParallelFor Serialize Tools Cli.

(** One line of a script with its arguments, quoting removed: ../build/tools/build
    (scripts/build_tries.sh:41-46), ../build/tools/build_fastTries
    (scripts/build_fastTries.sh:61-118), ../build/tools/queries
    (scripts/run_singlethread_queries_flatTries.sh:4,
    scripts/run_multithread_queries_flatTries.sh:4) and
    ../build/tools/intersection_querylog_fastTrie
    (scripts/run_singlethread_fastTries_queries.sh:30,
    scripts/run_multithread_fastTries_queries.sh:35).  A loop over the files of a directory
    is the list of its lines.  What ">>" appends is console output, which is not modelled. *)
Inductive command :=
| Build (argv : list (list N))
| BuildFast (argv : list (list N))
| Query (argv : list (list N))
| QueryFast (argv : list (list N)).

(** What may differ from one run of a tool to the next, by the number of the line: the contents
    of unset memory, the schedules of the threads, and the times measured.  No code of its own:
    the tools are started by scripts/build_tries.sh:41-46,
    scripts/run_singlethread_queries_flatTries.sh:4. *)
Record chance := mkChance {
  c_junk : nat -> nat -> fast_junk;
  c_blank : nat -> nat -> fast;
  c_sched : nat -> nat -> nat -> scheduler * scheduler;
  c_time : nat -> nat -> list N }.

(** One line.  The files after it and, for a query tool that ran to its end, its answers.
    scripts/build_tries.sh:41-46, scripts/run_singlethread_queries_flatTries.sh:4,
    scripts/build_fastTries.sh:61-118, scripts/run_singlethread_fastTries_queries.sh:30. *)
Definition run_command (fm : formats) (hc : N) (ch : chance) (i : nat) (c : command) (fs : files)
  : result (files * option (list (option (list N)))) :=
  match c with
  | Build argv =>
    let* r := build_tries_main fm argv fs in
    match r with Some (fs', _) => Ok (fs', None) | None => Ok (fs, None) end
  | BuildFast argv =>
    let* r := build_fast_main fm (c_junk ch i) argv fs in
    match r with Some (fs', _) => Ok (fs', None) | None => Ok (fs, None) end
  | Query argv => query_main fm (c_sched ch i) hc (c_time ch i) argv fs
  | QueryFast argv =>
    let* rs := fast_query_main fm (c_blank ch i) (c_sched ch i) hc argv fs in Ok (fs, rs)
  end.

(** The lines in order, from number [i]; the answers of each.  scripts/build_tries.sh:41-46,
    scripts/run_singlethread_queries_flatTries.sh:4, scripts/build_fastTries.sh:61-118,
    scripts/run_singlethread_fastTries_queries.sh:30. *)
Fixpoint run_script (fm : formats) (hc : N) (ch : chance) (i : nat) (cs : list command) (fs : files)
  : result (files * list (option (list (option (list N))))) :=
  match cs with
  | [] => Ok (fs, [])
  | c :: cs' =>
    let* (fs1, a) := run_command fm hc ch i c fs in
    let* (fs2, rest) := run_script fm hc ch (S i) cs' fs1 in
    Ok (fs2, a :: rest)
  end.
