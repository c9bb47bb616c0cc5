(** C68: what the build tools report about a collection.  Full claim: the universe, the
    number of lists and of values stored, and as size the bytes of the tries stored. *)

From Coq Require Import String.
From Verif Require Import Base FlatTrie LevelTrie FastTrie Tries Serialize Tools Spec SpecTries SpecFiles SpecTools
  SerializeThms ToolsThms Text Report SpecReport ReportThms Cli SpecCli CliThms CliTools ReportCli.

(** Whenever a collection can be built: the file is written as without the totals, the
    report is the same with and without --out, and it is right once two bytes are added to
    the size for each list. *)
Theorem C68_report_partial : forall fm min_size max_size rank_type block runs levelwise one u lists file,
  collection_ok one u lists ->
  build_tries fm min_size max_size rank_type block runs levelwise (collection_file one u lists) = Ok file ->
  (N.of_nat (length file) < 2 ^ 64)%N ->
  exists r,
    report_tries fm min_size max_size rank_type block runs levelwise true (collection_file one u lists) = Ok (file, r) /\
    report_tries fm min_size max_size rank_type block runs levelwise false (collection_file one u lists) = Ok ([], r) /\
    reports (header_bytes rank_type) u (kept_lists min_size max_size lists) file
      (mkReport (r_universe r) (r_lists r) (r_size r + 2 * r_lists r) (r_ints r)).
Proof. exact tries_report. Qed.
Print Assumptions C68_report_partial.

(** For fast tries: once 14 bytes are taken away for each list. *)
Theorem C68_fast_report_partial : forall fm junk min_size max_size rank_type runs levelwise lw one u lists file,
  collection_ok one u lists ->
  build_fast_tries fm junk min_size max_size rank_type runs levelwise lw (collection_file one u lists) = Ok file ->
  (N.of_nat (length file) + 14 * N.of_nat (length (kept_lists min_size max_size lists)) < 2 ^ 64)%N ->
  exists r,
    report_fast_tries fm junk min_size max_size rank_type runs levelwise lw true (collection_file one u lists) = Ok (file, r) /\
    report_fast_tries fm junk min_size max_size rank_type runs levelwise lw false (collection_file one u lists) = Ok ([], r) /\
    (14 * r_lists r <= r_size r)%N /\
    reports fast_header_bytes u (kept_lists min_size max_size lists) file
      (mkReport (r_universe r) (r_lists r) (r_size r - 14 * r_lists r) (r_ints r)).
Proof. exact fast_tries_report. Qed.
Print Assumptions C68_fast_report_partial.

(** So the size reported is wrong for every collection of which something is kept. *)
Theorem C68_report_refuted : forall fm min_size max_size rank_type block runs levelwise one u lists file,
  collection_ok one u lists -> kept_lists min_size max_size lists <> [] ->
  build_tries fm min_size max_size rank_type block runs levelwise (collection_file one u lists) = Ok file ->
  (N.of_nat (length file) < 2 ^ 64)%N ->
  exists r,
    report_tries fm min_size max_size rank_type block runs levelwise true (collection_file one u lists) = Ok (file, r) /\
    ~ reports (header_bytes rank_type) u (kept_lists min_size max_size lists) file r.
Proof. exact tries_size_wrong. Qed.
Print Assumptions C68_report_refuted.

Theorem C68_fast_report_refuted : forall fm junk min_size max_size rank_type runs levelwise lw one u lists file,
  collection_ok one u lists -> kept_lists min_size max_size lists <> [] ->
  build_fast_tries fm junk min_size max_size rank_type runs levelwise lw (collection_file one u lists) = Ok file ->
  (N.of_nat (length file) + 14 * N.of_nat (length (kept_lists min_size max_size lists)) < 2 ^ 64)%N ->
  exists r,
    report_fast_tries fm junk min_size max_size rank_type runs levelwise lw true (collection_file one u lists) = Ok (file, r) /\
    ~ reports fast_header_bytes u (kept_lists min_size max_size lists) file r.
Proof. exact fast_tries_size_wrong. Qed.
Print Assumptions C68_fast_report_refuted.

(** A command line without --out changes no file and reports on the lists it keeps,
    whenever their tries can be built; also for the class that cannot be written. *)
Theorem C68_no_output : forall fm prog input ss (fs : files) one u lists,
  collection_ok one u lists -> input <> [] -> fs input = Some (collection_file one u lists) ->
  Forall build_setting ss -> last_of out_of [] ss = [] ->
  let runs := last_of runs_of false ss in
  let rank_type := last_of rank_of 0%N ss in
  let v := built_variant rank_type (last_of levelwise_of false ss) in
  let c := built_codecs fm rank_type (last_of block_of 512%N ss) in
  let kept := kept_lists (last_of min_of 0%N ss) (last_of max_of (2 ^ 64 - 1)%N ss) lists in
  Forall (fun l => exists t, bin_make u v runs l = Ok t) kept ->
  exists sizes, Forall2 (fun l n => exists t, bin_make u v runs l = Ok t /\ n = bin_size_in_bytes c t) kept sizes /\
    build_tries_main fm (prog :: input :: written_all ss) fs
    = Ok (Some (fs, Some (mkReport u (N.of_nat (length kept)) (fold_right N.add 0 sizes mod 2 ^ 64)%N
                            (all_values kept)))).
Proof. exact report_only. Qed.
Print Assumptions C68_no_output.

Ltac no_name := let Q := fresh in intros Q; vm_compute in Q; repeat destruct Q as [Q|Q];
  try discriminate Q; try destruct Q.

(** Three lists, of which two are kept. *)
Definition example_lists : list (list N) := [[1; 4; 9; 12]; [5; 6]; [3; 4; 5; 9; 10]]%N.

Example C68_example :
  collection_ok 1 13 example_lists /\
  exists file r,
    build_tries plain_formats 2 100 0 512 false false (collection_file 1 13 example_lists) = Ok file /\
    report_tries plain_formats 2 100 0 512 false false true (collection_file 1 13 example_lists) = Ok (file, r) /\
    r_universe r = 13%N /\ r_lists r = 2%N /\ r_ints r = 9%N /\
    (18 + r_size r + 4 = N.of_nat (length file))%N.
Proof.
  split; [split; [reflexivity|split; [reflexivity|split; [reflexivity|split; repeat constructor]]]|].
  do 2 eexists. split; [vm_compute; reflexivity|]. split; [vm_compute; reflexivity|]. repeat split.
Qed.

Example C68_fast_example :
  exists file r,
    build_fast_tries plain_formats (fun _ => mkJunk None None 1 1) 2 100 0 false false 3
      (collection_file 1 13 example_lists) = Ok file /\
    report_fast_tries plain_formats (fun _ => mkJunk None None 1 1) 2 100 0 false false 3 true
      (collection_file 1 13 example_lists) = Ok (file, r) /\
    r_universe r = 13%N /\ r_lists r = 2%N /\ r_ints r = 9%N /\
    (20 + r_size r = N.of_nat (length file) + 28)%N.
Proof.
  do 2 eexists. split; [vm_compute; reflexivity|]. split; [vm_compute; reflexivity|]. repeat split.
Qed.

(** binTrie_il, which cannot be written, without --out. *)
Definition il_settings : list setting := [RankIl (txt "128"); Levelwise (txt "t"); Runs (txt "t")].

Definition example_files : files :=
  fun n => if text_eqb n (txt "data") then Some (collection_file 1 13 example_lists) else None.

Example C68_no_output_example :
  Forall build_setting il_settings /\ last_of out_of [] il_settings = [] /\
  Forall (fun l => exists t, bin_make 13 (VLevel true) true l = Ok t) (kept_lists 0 (2 ^ 64 - 1) example_lists) /\
  exists size, build_tries_main plain_formats (txt "build" :: txt "data" :: written_all il_settings) example_files
    = Ok (Some (example_files, Some (mkReport 13 3 size 11))) /\ (0 < size)%N.
Proof.
  split; [|split; [reflexivity|split]].
  - unfold il_settings. constructor; [|constructor; [no_name|constructor; [no_name|constructor]]].
    split; [split; [discriminate|do 3 (constructor; [split; vm_compute; congruence|]); constructor]|reflexivity].
  - repeat (constructor; [eexists; vm_compute; reflexivity|]). constructor.
  - eexists. split; [vm_compute; reflexivity|reflexivity].
Qed.
