(** Property C81: scripts that build collections and query them. *)

From Coq Require Import String.
From Verif Require Import Base FastTrie ParallelFor Serialize Tools Cli Text Script Spec SpecTries SpecFiles SpecTools SpecText
  SpecCli SpecScript ParForThms ToolsThms CliThms ScriptThms ScriptSample.
Local Open Scope string_scope.

(** C81.  "A script that builds collections in any number of ways and runs query logs over them,
    in any order, gets for every query the values common to its lists; so all the ways give the
    same answers.  No collection and no log changes."  Proved for builds and queries as in C36 and
    C55 ([script_ok]), for all schedules and contents of unset memory; a query with several
    threads over a file with runs gets what C36 says it does ([RunAnswers]). *)
Theorem C81_script_partial : forall fm sh hc ch cs es fs, formats_ok fm -> on_shelf sh fs ->
  script_ok sh hc ch 0 (fun _ => None) cs es ->
  exists fs' outs, run_script fm hc ch 0 cs fs = Ok (fs', outs) /\ Forall2 meets es outs /\ on_shelf sh fs'.
Proof. exact script_all. Qed.
Print Assumptions C81_script_partial.

(** Two lines that should answer the same do, in one script or in two scripts run on different
    computers. *)
Theorem C81_alike_partial : forall fm sh hc ch hc' ch' cs cs' es es' fs fs1 fs2 outs outs' i j e,
  formats_ok fm -> on_shelf sh fs ->
  script_ok sh hc ch 0 (fun _ => None) cs es -> script_ok sh hc' ch' 0 (fun _ => None) cs' es' ->
  run_script fm hc ch 0 cs fs = Ok (fs1, outs) -> run_script fm hc' ch' 0 cs' fs = Ok (fs2, outs') ->
  nth_error es i = Some e -> nth_error es' j = Some e ->
  nth_error outs i = nth_error outs' j.
Proof. exact script_alike. Qed.
Print Assumptions C81_alike_partial.

(** What the scripts/run_multithread_*.sh do: with --parallel t, files with runs answer otherwise. *)
Theorem C81_multithread_refuted : exists fs' a b,
  run_script plain_formats 4 sample_chance 0
    [Build (txt "build" :: txt "data" :: written_all (sample_settings (txt "f") (txt "a")));
     Build (txt "build" :: txt "data" :: written_all (sample_settings (txt "t") (txt "b")));
     Query (txt "queries" :: txt "a" :: txt "log" :: q_written_all [QParallel (txt "t")]);
     Query (txt "queries" :: txt "b" :: txt "log" :: q_written_all [QParallel (txt "t")])] sample_files
  = Ok (fs', [None; None; Some a; Some b]) /\ a <> b.
Proof. do 3 eexists. split; [vm_compute; reflexivity|]. discriminate. Qed.
Print Assumptions C81_multithread_refuted.

Example C81_example :
  on_shelf sample_shelf sample_files /\
  script_ok sample_shelf 4 sample_chance 0 (fun _ => None) sample_script
    [Nothing; Nothing; Nothing; Answers sample_lists [[0; 1]; [2; 0]]%N; Answers sample_lists [[0; 1]; [2; 0]]%N;
     Answers sample_lists [[0; 1]; [2; 0]]%N; Nothing; Answers sample_lists [[0; 1]; [2; 0]]%N] /\
  (let* (fs', outs) := run_script plain_formats 4 sample_chance 0 sample_script sample_files in Ok (skipn 3 outs))
  = Ok [Some [Some [3; 5; 6; 7; 12]; Some [1; 3; 12]]; Some [Some [3; 5; 6; 7; 12]; Some [1; 3; 12]];
        Some [Some [3; 5; 6; 7; 12]; Some [1; 3; 12]]; None; Some [Some [3; 5; 6; 7; 12]; Some [1; 3; 12]]]%N.
Proof. split; [exact sample_on_shelf|]. split; [exact sample_ok|]. vm_compute. reflexivity. Qed.

(** The scripts of [C81_multithread_refuted]: what the second query answers is what is expected. *)
Example C81_multithread_example :
  script_ok sample_shelf 4 sample_chance 0 (fun _ => None) multithread_script
    [Nothing; Nothing; Answers sample_lists [[0; 1]; [2; 0]]%N;
     RunAnswers 4 16 4 sample_lists [[0; 1]; [2; 0]]%N; Nothing;
     RunAnswers 16 16 4 sample_lists [[0; 1]; [2; 0]]%N] /\
  (let* (fs', outs) := run_script plain_formats 4 sample_chance 0 multithread_script sample_files in Ok (skipn 2 outs))
  = Ok [Some [Some [3; 5; 6; 7; 12]; Some [1; 3; 12]]; Some [Some [12]; Some [12]]; None;
        Some [Some [3; 5; 6; 7; 12]; Some [1; 3; 12]]]%N.
Proof. split; [exact multithread_ok|]. vm_compute. reflexivity. Qed.
