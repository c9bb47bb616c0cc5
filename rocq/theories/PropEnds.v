(** Property C76: calls and programs that end.  Full claim: every call of the library and
    every run of a tool ends, by an answer, an error or undefined behaviour; nothing runs for
    ever.  It is false: see [C76_decode_refuted]. *)

From Coq Require Import String.
From Verif Require Import Base FlatTrie LevelTrie FastTrie ParallelFor Intersection Tries Serialize Tools
  Text Report Table Cli SpecTries SpecTools SpecCli SpecEnds SerializeThms ParForThms ToolsThms CliThms Measures Stats StatsCli EndsFacts EndsLevel EndsCalls EndsTools EndsProgs EndsStats.

(** Construction ends for every list, sorted or not, with or without repetitions, and every
    universe (those above 2^48 are not modelled). *)
Theorem C76_construct_flat : forall values u, ends (flat_build values u).
Proof. exact ends_flat_build. Qed.
Print Assumptions C76_construct_flat.

Theorem C76_construct_level : forall il values u, ends (level_build il values u).
Proof. exact ends_level_build. Qed.
Print Assumptions C76_construct_level.

Theorem C76_construct_fast : forall lw junk_hwr junk_empty values u, ends (fast_build lw junk_hwr junk_empty values u).
Proof. exact ends_fast_build. Qed.
Print Assumptions C76_construct_fast.

(** So does run encoding, of any object: made, loaded, damaged. *)
Theorem C76_encode : forall t, ends (bin_encodeRuns t).
Proof. exact ends_bin_encode. Qed.
Print Assumptions C76_encode.

Theorem C76_encode_fast : forall t, ends (fast_encodeRuns t).
Proof. exact ends_fast_encode. Qed.
Print Assumptions C76_encode_fast.

(** Decoding any object of a height below 64 ends; for fast tries the height is positive. *)
Theorem C76_decode_partial : forall t values, t_height (bin_ops t) <= 63 -> ends (bin_decode t values).
Proof. exact bin_decode_ends. Qed.
Print Assumptions C76_decode_partial.

Theorem C76_decode_fast_partial : forall t values, words_fit t -> 1 <= x_height t -> x_height_u t <= 63 ->
  ends (fast_decode t values).
Proof. exact fast_decode_ends. Qed.
Print Assumptions C76_decode_fast_partial.

(** A fast trie stored with one byte of its height changed is loaded, and its decoding
    calls itself for ever: no number of calls is enough. *)
Theorem C76_decode_refuted : exists t file t',
  fast_build 3 None None [1; 2]%N 50 = Ok t /\ file = fst (fast_serialize plain_codecs 0 0 t) /\
  fast_load plain_codecs t (damage file) = Ok (t', []) /\
  words_fit t' /\ x_runs_encoded t' = false /\
  forall fuel values, fast_recursiveDecode fuel t' values 0 0 0 = OutOfFuel.
Proof. exact decode_endless. Qed.
Print Assumptions C76_decode_refuted.

(** Intersections of any objects end, in every mode and under every scheduler. *)
Theorem C76_intersect_partial : forall s1 s2 hc ts runs parallel,
  Forall (fun t => t_height (bin_ops t) <= 63) ts ->
  (parallel = true -> Forall (fun t => 2 <= t_height (bin_ops t)) ts) ->
  ends (Intersect Bin s1 s2 hc (map bin_ops ts) runs parallel).
Proof. exact bin_intersect_ends. Qed.
Print Assumptions C76_intersect_partial.

Theorem C76_intersect_fast_partial : forall lw s1 s2 hc ts runs parallel, lw <= 6 ->
  Forall (fun t => 1 <= x_height t /\ x_height t + lw <= 64) ts ->
  (parallel = true -> Forall (fun t => 2 <= x_height t) ts) ->
  ends (Intersect (Fast lw) s1 s2 hc (map fast_ops ts) runs parallel).
Proof. exact fast_intersect_ends. Qed.
Print Assumptions C76_intersect_fast_partial.

(** The build tools end for every command line and every content of the files. *)
Theorem C76_build_tool : forall fm argv fs, ends (build_tries_main fm argv fs).
Proof. exact ends_build_tries_main. Qed.
Print Assumptions C76_build_tool.

Theorem C76_fast_build_tool : forall fm junk argv fs, ends (build_fast_main fm junk argv fs).
Proof. exact ends_build_fast_main. Qed.
Print Assumptions C76_fast_build_tool.

(** The query tools end for every command line and every content of the files, as long as
    no file holds tries of absurd heights; the formats must not loop themselves. *)
Theorem C76_query_tool_partial : forall fm sched hc time argv fs, formats_end fm ->
  (forall name file runs ts, fs name = Some file -> load_collection fm file = Ok (runs, ts) ->
     Forall (fun t => 2 <= t_height (bin_ops t) <= 63) ts) ->
  ends (query_main fm sched hc time argv fs).
Proof. exact query_ends. Qed.
Print Assumptions C76_query_tool_partial.

Theorem C76_query_one_thread_partial : forall fm sched hc time prog sequences log ss fs, formats_end fm ->
  (forall name file runs ts, fs name = Some file -> load_collection fm file = Ok (runs, ts) ->
     Forall (fun t => t_height (bin_ops t) <= 63) ts) ->
  ~ In sequences query_names -> ~ In log query_names ->
  Forall the_query_setting ss -> last_of parallel_of true ss = false ->
  ends (query_main fm sched hc time (prog :: sequences :: log :: q_written_all ss) fs).
Proof. exact query_one_thread_ends. Qed.
Print Assumptions C76_query_one_thread_partial.

Theorem C76_fast_query_tool_partial : forall fm blank sched hc argv fs, formats_end fm ->
  (forall name file, fs name = Some file -> fast_heights fm blank true file) ->
  ends (fast_query_main fm blank sched hc argv fs).
Proof. exact fast_query_ends. Qed.
Print Assumptions C76_fast_query_tool_partial.

(** measures and cbv_coding end for every command line and every content of the file, in at
    most one round per byte; [hyb] is the size of a compressed bit vector. *)
Theorem C76_measures_tool : forall fuel argv fs,
  (forall name file, fs name = Some file -> length file < fuel) -> ends (measures_main fuel argv fs).
Proof. exact measures_main_ends. Qed.
Print Assumptions C76_measures_tool.

Theorem C76_cbv_tool : forall fuel hyb argv fs,
  (forall name file, fs name = Some file -> S (length file) < fuel) -> ends (cbv_coding_main fuel hyb argv fs).
Proof. exact cbv_main_ends. Qed.
Print Assumptions C76_cbv_tool.

(** classic_coders and pom do not: see C51.  A run that has not ended after two rounds more
    than the file has bytes never ends. *)
Theorem C76_classic_partial : forall fuel delta gamma fib argv fs,
  0 < fuel -> (forall name file, fs name = Some file -> S (length file) < fuel) ->
  classic_coders_main fuel delta gamma fib argv fs = OutOfFuel ->
  forall more, classic_coders_main more delta gamma fib argv fs = OutOfFuel.
Proof. exact classic_rounds. Qed.
Print Assumptions C76_classic_partial.

Theorem C76_pom_partial : forall fuel delta gamma fib argv fs,
  0 < fuel -> (forall name file, fs name = Some file -> S (length file) < fuel) ->
  pom_main fuel delta gamma fib argv fs = OutOfFuel ->
  forall more, pom_main more delta gamma fib argv fs = OutOfFuel.
Proof. exact pom_rounds. Qed.
Print Assumptions C76_pom_partial.

(** Lists in any order, an object put together at random, and the formats of the examples. *)
Example C76_example :
  flat_build [9; 1; 1; 4]%N 16 <> OutOfFuel /\
  (let* t := flat_build [1; 4; 9]%N 16 in flat_decode t [])%N = Ok [1; 4; 9]%N /\
  (let t := BFlat (mkFlat 5 9 false true [true; false; true; true] [true] [false; true]) in
   t_height (bin_ops t) <= 63 /\ bin_decode t [] = UB OutOfBounds /\ bin_encodeRuns t <> OutOfFuel) /\
  (exists t, fast_build 3 None None [1; 2; 40]%N 50 = Ok t /\ words_fit t /\ 1 <= x_height t /\ x_height_u t <= 63 /\
     fast_decode t [] = Ok [1; 2; 40]%N).
Proof.
  split; [vm_compute; discriminate|]. split; [vm_compute; reflexivity|]. split.
  - cbv zeta. split; [cbn; lia|]. split; [vm_compute; reflexivity|vm_compute; discriminate].
  - eexists. split; [vm_compute; reflexivity|]. split; [split; [cbn; lia|]|].
    + repeat (constructor; [vm_compute; discriminate|]). constructor.
    + split; [cbn; lia|]. split; [cbn; lia|vm_compute; reflexivity].
Qed.

Example C76_formats_example : formats_end plain_formats.
Proof. split; [exact plain_codecs_end|split; [exact plain_codecs_end|intros b; exact plain_codecs_end]]. Qed.

(** Built collections meet the conditions of the query tools. *)
Example C76_query_example : exists tries : list N,
  build_tries plain_formats 0 100 0 512 false false (collection_file 1 50 [[1; 7]; [7; 8; 49]]%N) = Ok tries /\
  let fs : files := fun n => if text_eqb n (txt "tries") then Some tries else None in
  (forall name file runs ts, fs name = Some file -> load_collection plain_formats file = Ok (runs, ts) ->
     Forall (fun t => 2 <= t_height (bin_ops t) <= 63) ts) /\
  query_main plain_formats (fun _ _ => (in_order, in_order)) 4 (fun _ => txt "1")
    (map txt ["query"; "tries"; "log"]%string) fs = Ok (fs, Some []).
Proof.
  eexists. split; [vm_compute; reflexivity|]. cbv zeta. split.
  - intros name file runs ts F L. destruct (text_eqb name (txt "tries")); [|discriminate].
    injection F as <-. vm_compute in L. injection L as <- <-.
    repeat (constructor; [cbn; lia|]). constructor.
  - vm_compute. reflexivity.
Qed.

(** A file of 26 bytes, cut inside its last value.  measures and cbv_coding read an unset
    variable or end.  With a larger minimum classic_coders and pom do not end. *)
Example C76_stats_example :
  let file := firstn 26 (collection_file 1 50 [[1; 7]; [9]]%N) in
  let fs : files := fun n => if text_eqb n (txt "seq") then Some file else None in
  let argv := map txt ["tool"; "seq"]%string in
  let argv3 := map txt ["tool"; "seq"; "--min_length"; "3"]%string in
  let len := fun l : list N => N.of_nat (List.length l) in
  (forall name l, fs name = Some l -> S (List.length l) < 28) /\
  measures_main 28 argv fs = UB Indeterminate /\
  (exists t, cbv_coding_main 28 (fun b => N.of_nat (List.length b)) argv fs = Ok (Totals t)) /\
  (exists t, classic_coders_main 28 len len len argv fs = Ok (Totals t)) /\
  measures_main 28 argv3 fs <> OutOfFuel /\
  classic_coders_main 28 len len len argv3 fs = OutOfFuel /\
  pom_main 28 len len len argv3 fs = OutOfFuel.
Proof.
  cbv zeta. split.
  - intros name l F. destruct (text_eqb name (txt "seq")); [|discriminate]. injection F as <-.
    vm_compute. repeat constructor.
  - repeat split; try (vm_compute; reflexivity); try (vm_compute; discriminate); eexists; vm_compute; reflexivity.
Qed.
