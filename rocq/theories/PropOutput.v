(** Property C77: the files that the tools change.  Full claim: a tool changes no file other
    than the one named with --out, and never one of its inputs. *)

From Coq Require Import String.
From Verif Require Import Base FlatTrie LevelTrie FastTrie ParallelFor Intersection Tries Serialize Tools
  Text Report Table Cli SpecTools SpecCli SpecOutput ParForThms ToolsThms CliThms OutputThms.

(** Every command line, every content of the files: also when an option is misspelled, given
    several times, or used as the value of another one. *)
Theorem C77_build : forall fm argv fs fs' report, build_tries_main fm argv fs = Ok (Some (fs', report)) ->
  (forall n, fs' n <> fs n -> named_output argv n) /\
  (forall input, nth_error argv 1 = Some input -> fs' input = fs input).
Proof. exact build_changes. Qed.
Print Assumptions C77_build.

Theorem C77_build_fast : forall fm junk argv fs fs' report,
  build_fast_main fm junk argv fs = Ok (Some (fs', report)) ->
  (forall n, fs' n <> fs n -> named_output argv n) /\
  (forall input, nth_error argv 1 = Some input -> fs' input = fs input).
Proof. exact fast_build_changes. Qed.
Print Assumptions C77_build_fast.

(** The query tool: also when it ends with an exception. *)
Theorem C77_query_partial : forall fm sched hc time argv fs fs' answers,
  query_main fm sched hc time argv fs = Ok (fs', answers) ->
  (forall n, fs' n <> fs n -> named_output argv n) /\
  (forall sequences, nth_error argv 1 = Some sequences -> fs' sequences = fs sequences).
Proof. exact query_changes. Qed.
Print Assumptions C77_query_partial.

(** Naming the input with --out is not refused: the tool empties the input before it
    reads it, and goes on with a universe that was never set. *)
Theorem C77_build_over_input_refuted : forall fm prog input ss fs bytes, Forall build_setting ss ->
  input <> [] -> last_of out_of [] ss = input -> fs input = Some bytes ->
  build_tries_main fm (prog :: input :: written_all ss) fs = UB Indeterminate.
Proof. exact build_over_input. Qed.
Print Assumptions C77_build_over_input_refuted.

Theorem C77_build_fast_over_input_refuted : forall fm junk prog input ss fs bytes, Forall fast_build_setting ss ->
  input <> [] -> last_of out_of [] ss = input -> In (last_of wsize_of 64%N ss) [8; 16; 32; 64]%N ->
  fs input = Some bytes ->
  build_fast_main fm junk (prog :: input :: written_all ss) fs = UB Indeterminate.
Proof. exact fast_build_over_input. Qed.
Print Assumptions C77_build_fast_over_input_refuted.

Definition the_lists : list (list N) := [[1; 7]; [7; 8; 49]]%N.
Definition the_files : files :=
  fun n => if text_eqb n (txt "data") then Some (collection_file 1 50 the_lists) else None.

(** Two outputs are given: only the last is written, although the first is named too.  The
    value of --runs is the name --out: it counts as both. *)
Example C77_example :
  (let? (fs', _) := build_tries_main plain_formats
     (map txt ["build"; "data"; "--out"; "a"; "--out"; "b"]%string) the_files in
   Ok (Some (fs' (txt "a"), match fs' (txt "b") with Some _ => true | None => false end,
             match fs' (txt "data") with Some l => length l | None => 0 end)))
  = Ok (Some (None, true, length (collection_file 1 50 the_lists))) /\
  (let? (fs', _) := build_tries_main plain_formats
     (map txt ["build"; "data"; "--runs"; "--out"; "c"]%string) the_files in
   Ok (Some (match fs' (txt "c") with Some _ => true | None => false end)))
  = Ok (Some true) /\
  build_tries_main plain_formats (map txt ["build"; "data"; "--out"; "data"]%string) the_files = UB Indeterminate.
Proof. split; [|split]; vm_compute; reflexivity. Qed.

Example C77_named_example :
  named_output (map txt ["build"; "data"; "--runs"; "--out"; "c"]%string) (txt "c") /\
  ~ named_output (map txt ["build"; "data"; "--runs"; "--out"; "c"]%string) (txt "data").
Proof.
  split; [split; [discriminate|]; exists 3; split; reflexivity|].
  intros (_ & i & A & B). do 5 (destruct i as [|i]; [vm_compute in A, B; discriminate|]).
  destruct i; discriminate.
Qed.
