(** Property C93: the checking programs from the command line. *)

From Coq Require Import String.
From Verif Require Import Base Facts FlatTrie LevelTrie FastTrie ParallelFor Intersection Tries Serialize
  Tools Spec SpecTries SpecOrder SpecFiles SpecTools SerializeThms InterRefute ParForThms ToolsThms FastToolsThms
  Reference ReferenceFacts Text SpecText TextThms Report Table Cli SpecCli
  Checker SpecChecker KeepThms CheckerFast CheckerCli SpecCheckerCli CheckerCliThms.

(** C93.  "A checking program checks what its command line asks for, tells what it found, and fails if
    it cannot check or finds an error."

    Options of the encoding checkers: the last setting counts, for values that are not the name of an
    option. *)
Theorem C93_options_partial : forall prog input ss, Forall check_setting ss ->
  check_options (prog :: input :: written_all ss)
  = Ok (Some (mkBuildOpts (last_of min_of 0 ss) (2 ^ 64 - 1) (last_of rank_of 0 ss)
                (last_of block_of 512 ss) 64 (last_of runs_of false ss)
                (last_of levelwise_of false ss) false (last_of out_of [] ss)))%N.
Proof. exact check_options_last. Qed.
Print Assumptions C93_options_partial.

Theorem C93_fast_options_partial : forall prog input ss, Forall fast_check_setting ss ->
  fast_check_options (prog :: input :: written_all ss)
  = Ok (Some (mkBuildOpts (last_of min_of 0 ss) (2 ^ 64 - 1) (last_of rank_of 0 ss)
                (last_of block_of 512 ss) (last_of wsize_of 64 ss) (last_of runs_of false ss)
                false false (last_of out_of [] ss)))%N.
Proof. exact fast_check_options_last. Qed.
Print Assumptions C93_fast_options_partial.

(** The encoding checker on a collection, from the command line to the verdict: it reports exactly the
    lists that are not sets within the rounded universe.  It needs at least one argument after the
    collection, and with run encoding of flat tries, lists that keep a set with a mixed block (C64). *)
Theorem C93_encoding_partial : forall prog input ss fs one u lists,
  ss <> [] -> Forall check_setting ss -> fs input = Some (collection_file one u lists) ->
  collection_ok one u lists -> (if last_of levelwise_of false ss then 2 <= u else 3 <= u)%N ->
  let judged := longer_than (last_of min_of 0 ss mod 2 ^ 32)%N lists in
  (last_of runs_of false ss = true -> last_of levelwise_of false ss = false -> forall l, In l judged ->
     exists r, kept_set 1 (rounded u) l r /\ mixed_block r) ->
  exists bad,
    encode_main (prog :: input :: written_all ss) fs
      = Ok (Some (mkEnd 0 (Some (bad, length judged, total_values judged)))) /\
    reports (fun l => increasing l /\ below (rounded u) l) judged bad.
Proof. exact encode_main_reports. Qed.
Print Assumptions C93_encoding_partial.

(** Without a mixed block the checker reads out of bounds. *)
Theorem C93_flat_runs_refuted : forall prog input ss fs one u lists l r,
  ss <> [] -> Forall check_setting ss -> fs input = Some (collection_file one u lists) ->
  collection_ok one u lists -> (3 <= u)%N ->
  last_of runs_of false ss = true -> last_of levelwise_of false ss = false ->
  In l (longer_than (last_of min_of 0 ss mod 2 ^ 32)%N lists) -> kept_set 1 (rounded u) l r -> ~ mixed_block r ->
  encode_main (prog :: input :: written_all ss) fs = UB OutOfBounds.
Proof. exact encode_main_stops. Qed.
Print Assumptions C93_flat_runs_refuted.

(** The same for fast tries, where any size other than 64, 32 and 16 checks words of 8 bits. *)
Theorem C93_fast_encoding_partial : forall junk prog input ss fs one u lists,
  Forall fast_check_setting ss -> fs input = Some (collection_file one u lists) ->
  let lw := word_checked (last_of wsize_of 64%N ss) in
  collection_ok one u lists -> fast_universe u lw ->
  (forall i, u16_member (j_hwr (junk i))) ->
  (last_of runs_of false ss = true -> forall i, j_empty (junk i) = Some false) ->
  let judged := longer_than (last_of min_of 0 ss mod 2 ^ 32)%N lists in
  (last_of rank_of 0%N ss = 0%N -> forall l, In l judged ->
     (increasing l /\ below (rounded u) l) \/
     exists r, kept_set (2 ^ N.of_nat lw) (rounded u) l r /\ 10 <= length r) ->
  exists bad,
    fast_encode_main junk (prog :: input :: written_all ss) fs
      = Ok (Some (mkEnd 0 (Some (bad, length judged, total_values judged)))) /\
    reports (fun l => increasing l /\ below (rounded u) l) judged bad.
Proof. exact fast_encode_main_reports. Qed.
Print Assumptions C93_fast_encoding_partial.

(** The collection alone, with all options at their defaults: nothing is checked. *)
Theorem C93_collection_alone_refuted : forall prog input fs, encode_main [prog; input] fs = Ok (Some (mkEnd 1 None)).
Proof. exact encode_alone. Qed.
Print Assumptions C93_collection_alone_refuted.

(** "Each setting is checked."  False: block sizes and the file named by --out do not matter, and of
    the rank only whether it is v. *)
Theorem C93_same_check_refuted : forall prog input ss ss' fs,
  ss <> [] -> ss' <> [] -> Forall check_setting ss -> Forall check_setting ss' ->
  last_of min_of 0%N ss = last_of min_of 0%N ss' -> last_of runs_of false ss = last_of runs_of false ss' ->
  last_of levelwise_of false ss = last_of levelwise_of false ss' ->
  (last_of rank_of 0 ss =? 0)%N = (last_of rank_of 0 ss' =? 0)%N ->
  encode_main (prog :: input :: written_all ss) fs = encode_main (prog :: input :: written_all ss') fs.
Proof. exact encode_same. Qed.
Print Assumptions C93_same_check_refuted.

(** "The exit status tells whether the check passed."  False of all four: it is 0 after any check,
    whatever was found. *)
Theorem C93_status_refuted : forall argv fs e, 3 <= length argv -> encode_main argv fs = Ok (Some e) -> e_status e = 0%N.
Proof. exact encode_status. Qed.
Print Assumptions C93_status_refuted.

Theorem C93_fast_status_refuted : forall junk argv fs e, 2 <= length argv ->
  fast_encode_main junk argv fs = Ok (Some e) -> e_status e = 0%N.
Proof. exact fast_encode_status. Qed.
Print Assumptions C93_fast_status_refuted.

Theorem C93_intersection_status_refuted : forall fm sched hc sort argv fs e, 3 <= length argv ->
  intersection_main fm sched hc sort argv fs = Ok (Some e) -> e_status e = 0%N.
Proof. exact intersection_main_status. Qed.
Print Assumptions C93_intersection_status_refuted.

Theorem C93_fast_intersection_status_refuted : forall fm blank sched hc sort argv fs e, 3 <= length argv ->
  fast_intersection_main fm blank sched hc sort argv fs = Ok (Some e) -> e_status e = 0%N.
Proof. exact fast_intersection_main_status. Qed.
Print Assumptions C93_fast_intersection_status_refuted.

(** Even without a collection. *)
Theorem C93_missing_collection_refuted : forall prog input ss fs, ss <> [] -> Forall check_setting ss -> fs input = None ->
  encode_main (prog :: input :: written_all ss) fs = Ok (Some (mkEnd 0 None)).
Proof. exact encode_missing. Qed.
Print Assumptions C93_missing_collection_refuted.

(** An option at the end without its value: a null pointer is read. *)
Theorem C93_missing_value_refuted : forall prog input ss name fs, Forall check_setting ss -> In name check_names ->
  encode_main (prog :: input :: written_all ss ++ [name]) fs = UB NullDeref.
Proof. exact check_missing_value. Qed.
Print Assumptions C93_missing_value_refuted.

Theorem C93_fast_missing_value_refuted : forall junk prog input ss name fs, Forall fast_check_setting ss ->
  In name fast_check_names ->
  fast_encode_main junk (prog :: input :: written_all ss ++ [name]) fs = UB NullDeref.
Proof. exact fast_check_missing_value. Qed.
Print Assumptions C93_fast_missing_value_refuted.

(** A size without a number, or too large, ends the program by an exception. *)
Theorem C93_wrong_size : forall prog input ss w rest fs, Forall check_setting ss -> no_number w ->
  encode_main (prog :: input :: written_all ss ++ txt "--min_size" :: w :: rest) fs = Ok None.
Proof. exact check_wrong_size. Qed.
Print Assumptions C93_wrong_size.

Theorem C93_fast_wrong_word : forall junk prog input ss w rest fs, Forall fast_check_setting ss ->
  (decimal w /\ (2 ^ 31 <= decimal_value w)%N) \/ starts_no_number w ->
  fast_encode_main junk (prog :: input :: written_all ss ++ txt "--wsize" :: w :: rest) fs = Ok None.
Proof. exact fast_check_wrong_word. Qed.
Print Assumptions C93_fast_wrong_word.

(** The intersection checker on a file of the build tool and a query log, from the command line to the
    verdict of C63, for ids below 2^31.  Further arguments are ignored. *)
Theorem C93_intersection_partial :
  forall fm min_size max_size rank_type block runs levelwise one u lists hc sched sort prog sequences log rest text queries,
  formats_ok fm -> collection_ok one u lists -> (2 <= u)%N ->
  loadable_options rank_type block levelwise ->
  Forall (stored_ok u (built_variant rank_type levelwise) runs) (kept_lists min_size max_size lists) ->
  (1 <= hc < 2 ^ 16)%N -> (3 <= u \/ hc <= 3)%N ->
  (forall nq, valid_scheduler (fst (sched nq)) /\ valid_scheduler (snd (sched nq))) -> valid_sort sort ->
  log_of text queries -> Forall (Forall (fun i => i < 2 ^ 31)%N) queries ->
  queries <> [] -> Forall (query_ok (kept_lists min_size max_size lists)) queries ->
  exists file v,
    build_tries fm min_size max_size rank_type block runs levelwise (collection_file one u lists) = Ok file /\
    (forall fs, fs sequences = Some file -> fs log = Some text ->
       intersection_main fm sched hc sort (prog :: sequences :: log :: rest) fs = Ok (Some (mkEnd 0 (Some v)))) /\
    verdict (fun k q => exists r,
      (let* ts := each_ok (bin_make u (built_variant rank_type levelwise) runs)
                          (lists_at (kept_lists min_size max_size lists) q) in
       Intersect Bin (fst (sched k)) (snd (sched k)) hc (map bin_ops ts) runs true) = Ok r /\
      is_intersection (lists_at (kept_lists min_size max_size lists) q) r) queries v /\
    (runs = false -> v = (false, length (short_queries queries))).
Proof. exact intersection_main_verdict. Qed.
Print Assumptions C93_intersection_partial.

(** The same for fast tries of 64 bits, for a file without the word size (C63). *)
Theorem C93_fast_intersection_partial :
  forall fm junk min_size max_size rank_type runs levelwise one u lists blank hc sched sort prog sequences log rest text queries,
  formats_ok fm -> collection_ok one u lists -> fast_universe u 6 ->
  (rank_type < 2 ^ 32)%N -> rank_type <> 1%N ->
  junk_ok junk -> blank_ok blank -> Forall (fast_ok u) (kept_lists min_size max_size lists) ->
  (runs = true -> forall i, j_empty (junk i) = Some false) ->
  (1 <= hc < 2 ^ 16)%N -> (64 < u \/ hc = 1)%N ->
  (forall nq, valid_scheduler (fst (sched nq)) /\ valid_scheduler (snd (sched nq))) -> valid_sort sort ->
  log_of text queries -> Forall (Forall (fun i => i < 2 ^ 31)%N) queries ->
  queries <> [] -> Forall (query_ok (kept_lists min_size max_size lists)) queries ->
  exists file v,
    build_fast_tries fm junk min_size max_size rank_type runs levelwise 6 (collection_file one u lists)
      = Ok file /\
    (forall fs, fs sequences = Some (without_word_size file) -> fs log = Some text ->
       fast_intersection_main fm (blank 6) sched hc sort (prog :: sequences :: log :: rest) fs
       = Ok (Some (mkEnd 0 (Some v)))) /\
    verdict (fun k q => exists r,
      (let* ts := each_ok (fun i => fast_make u 6 (j_hwr (junk (N.to_nat i))) (j_empty (junk (N.to_nat i))) runs
                                      (nth (N.to_nat i) (kept_lists min_size max_size lists) [])) q in
       Intersect (Fast 6) (fst (sched k)) (snd (sched k)) hc (map fast_ops ts) runs true) = Ok r /\
      is_intersection (lists_at (kept_lists min_size max_size lists) q) r) queries v /\
    (runs = false -> v = (false, length (short_queries queries))).
Proof. exact fast_intersection_main_verdict. Qed.
Print Assumptions C93_fast_intersection_partial.

(** A larger id ends the program by an exception. *)
Theorem C93_large_id_refuted : forall fm sched hc sort prog sequences log rest fs text queries q i,
  fs log = Some text -> log_of text queries -> In q queries -> In i q -> (2 ^ 31 <= i)%N ->
  intersection_main fm sched hc sort (prog :: sequences :: log :: rest) fs = Ok None.
Proof. exact intersection_large_id. Qed.
Print Assumptions C93_large_id_refuted.

(** Without both files an unset number is printed. *)
Theorem C93_no_sequences_refuted : forall fm sched hc sort prog sequences log rest fs,
  fs sequences = None -> fs log = None ->
  intersection_main fm sched hc sort (prog :: sequences :: log :: rest) fs = UB Indeterminate.
Proof. exact intersection_no_file. Qed.
Print Assumptions C93_no_sequences_refuted.

(** scripts/test_encoding.sh: all twenty lines give the same verdict, which is right. *)
Theorem C93_script_partial : forall prog collection fs one u lists,
  fs collection = Some (collection_file one u lists) -> collection_ok one u lists -> (3 <= u)%N ->
  let judged := longer_than 4096 lists in
  (forall l, In l judged -> exists r, kept_set 1 (rounded u) l r /\ mixed_block r) ->
  exists bad,
    reports (fun l => increasing l /\ below (rounded u) l) judged bad /\
    Forall (fun argv => encode_main argv fs
                        = Ok (Some (mkEnd 0 (Some (bad, length judged, total_values judged)))))
           (encoding_script prog collection).
Proof. exact script_reports. Qed.
Print Assumptions C93_script_partial.

(** In particular every collection of sets is accepted. *)
Theorem C93_script_accepts_partial : forall prog collection fs one u lists,
  fs collection = Some (collection_file one u lists) -> collection_ok one u lists -> (3 <= u)%N ->
  let judged := longer_than 4096 lists in
  (forall l, In l judged -> increasing l /\ below u l /\ mixed_block l) ->
  Forall (fun argv => encode_main argv fs
                      = Ok (Some (mkEnd 0 (Some ([], length judged, total_values judged)))))
         (encoding_script prog collection).
Proof. exact script_accepts. Qed.
Print Assumptions C93_script_accepts_partial.

(** The script leaves out no kind of trie that the checker can be asked for. *)
Theorem C93_script_covers : forall prog collection rank runs levelwise,
  In rank [["v"]; ["v5"]; ["il"; "128"]; ["il"; "256"]; ["il"; "512"]]%string ->
  In runs ["t"; "f"]%string -> In levelwise ["t"; "f"]%string ->
  In (script_line prog collection rank runs levelwise) (encoding_script prog collection).
Proof. exact script_covers. Qed.
Print Assumptions C93_script_covers.

(** "The script checks twenty configurations."  False: the lines with the ranks v5, il 128, il 256 and
    il 512 make the same check, so there are at most eight. *)
Theorem C93_script_repeats_refuted : forall prog collection fs rank rank' runs levelwise,
  In rank [["v5"]; ["il"; "128"]; ["il"; "256"]; ["il"; "512"]]%string ->
  In rank' [["v5"]; ["il"; "128"]; ["il"; "256"]; ["il"; "512"]]%string ->
  In runs ["t"; "f"]%string -> In levelwise ["t"; "f"]%string ->
  encode_main (script_line prog collection rank runs levelwise) fs
  = encode_main (script_line prog collection rank' runs levelwise) fs.
Proof. exact script_repeats. Qed.
Print Assumptions C93_script_repeats_refuted.

Ltac no_name := let Q := fresh in intros Q; vm_compute in Q; repeat destruct Q as [Q|Q];
  try discriminate Q; destruct Q.

Lemma short_decimal : forall w, w <> [] -> forallb is_digit w = true -> decimal w.
Proof.
  intros w N0 F. split; auto. apply Forall_forall. intros c I. rewrite forallb_forall in F.
  apply F in I. unfold is_digit in I. apply andb_prop in I. destruct I as (A & B).
  apply N.leb_le in A. apply N.leb_le in B. lia.
Qed.

Definition no_files : files := fun _ => None.
Definition no_junk (i : nat) : fast_junk := mkJunk None (Some false) 77 0.
Definition blank (lw : nat) : fast := fast_default lw 0 0 None false None.

Definition some_settings : list setting :=
  [MinSize (txt "3"); RankIl (txt "128"); Runs (txt "t"); MinSize (txt "1"); Ignored (txt "x"); RankOther (txt "v5");
   OutFile (txt "result"); Runs (txt "f")].

Definition some_lists : list (list N) := [[0; 1; 2; 3; 9]; [5]; [5; 2; 7]; [1; 2; 16]; [1; 14]]%N.

(** A collection with a list that is not sorted and one beyond the rounded universe, at four settings;
    words of "24" bits are words of 8. *)
Example C93_example :
  let fs := set_file (txt "data") (collection_file 1 13 some_lists) no_files in
  Forall check_setting some_settings /\ Forall fast_check_setting (WordSize (txt "24") :: some_settings) /\
  collection_ok 1 13 some_lists /\
  written_all some_settings
  = map txt ["--min_size"; "3"; "--rank"; "il"; "128"; "--runs"; "t"; "--min_size"; "1"; "x"; "--rank"; "v5";
             "--out"; "result"; "--runs"; "f"]%string /\
  encode_main (txt "check" :: txt "data" :: written_all some_settings) fs
  = Ok (Some (mkEnd 0 (Some ([1; 2], 4, 13%N)))) /\
  encode_main (map txt ["check"; "data"; "--min_size"; "1"; "--levelwise"; "t"; "--runs"; "t"]%string) fs
  = Ok (Some (mkEnd 0 (Some ([1; 2], 4, 13%N)))) /\
  encode_main (map txt ["check"; "data"; "--runs"; "t"]%string)
    (set_file (txt "data") (collection_file 1 16 [[1; 2; 3]; [4; 5; 6; 7]]%N) no_files) = UB OutOfBounds /\
  encode_main (map txt ["check"; "data"; "x"]%string) fs = Ok (Some (mkEnd 0 (Some ([2; 3], 5, 14%N)))) /\
  encode_main (map txt ["check"; "data"]%string) fs = Ok (Some (mkEnd 1 None)) /\
  encode_main (map txt ["check"; "nothing"; "x"]%string) fs = Ok (Some (mkEnd 0 None)) /\
  encode_main (map txt ["check"; "data"; "--rank"]%string) fs = UB NullDeref /\
  encode_main (map txt ["check"; "data"; "--min_size"; "few"]%string) fs = Ok None /\
  fast_encode_main no_junk (txt "check" :: txt "data" :: written_all (WordSize (txt "24") :: some_settings)) fs
  = Ok (Some (mkEnd 0 (Some ([1; 2], 4, 13%N)))) /\
  fast_encode_main no_junk (map txt ["check"; "data"; "--wsize"; "2147483648"]%string) fs = Ok None /\
  fast_encode_main no_junk (map txt ["check"; "data"; "--wsize"; "wide"]%string) fs = Ok None.
Proof.
  cbv zeta. split; [|split; [|split; [|repeat split; vm_compute; reflexivity]]].
  - unfold some_settings.
    repeat (constructor; [first [ split; [apply short_decimal; [discriminate|reflexivity]|reflexivity]
                                | split; [discriminate|split; [discriminate|no_name]]
                                | no_name ]|]). constructor.
  - unfold some_settings.
    repeat (constructor; [first [ split; [apply short_decimal; [discriminate|reflexivity]|reflexivity]
                                | split; [discriminate|split; [discriminate|no_name]]
                                | no_name ]|]). constructor.
  - split; [reflexivity|split; [reflexivity|split; [reflexivity|split; repeat constructor]]].
Qed.

(** Logs for the intersection checkers: three queries, one with an id that is no number of a list, one
    with an id that is no int. *)
Example C93_intersection_example :
  let lists := [[0; 1; 2; 3; 4; 5; 6; 7; 9; 12]; [3; 5; 6; 7; 12]]%N in
  let s := fun _ : nat => (in_order, backwards) in
  let run runs log :=
    let* file := build_tries plain_formats 0 100 0 512 runs true (collection_file 1 16 lists) in
    intersection_main plain_formats s 4 size_sort (map txt ["check"; "tries"; "log"]%string)
      (set_file (txt "tries") file (set_file (txt "log") log no_files)) in
  let ffile := build_fast_tries plain_formats no_junk 0 100 0 false false 6 (collection_file 1 100 lists) in
  log_of (log_text [[1]; [0; 1]; [0]]%N) [[1]; [0; 1]; [0]]%N /\
  run false (log_text [[1]; [0; 1]; [0]]%N) = Ok (Some (mkEnd 0 (Some (false, 3)))) /\
  run true (log_text [[1]; [0; 1]; [0]]%N) = Ok (Some (mkEnd 0 (Some (true, 1)))) /\
  run false (log_text [[1]; [0; 2]]%N) = UB NullDeref /\
  run false (log_text [[1]; [2147483648]]%N) = Ok None /\
  intersection_main plain_formats s 4 size_sort (map txt ["check"; "tries"; "log"]%string) no_files
  = UB Indeterminate /\
  intersection_main plain_formats s 4 size_sort (map txt ["check"; "tries"]%string) no_files
  = Ok (Some (mkEnd 1 None)) /\
  (let* file := ffile in
   fast_intersection_main plain_formats (blank 6) s 4 size_sort (map txt ["check"; "tries"; "log"; "x"]%string)
     (set_file (txt "tries") (without_word_size file) (set_file (txt "log") (log_text [[1]; [0; 1]]%N) no_files)))
  = Ok (Some (mkEnd 0 (Some (false, 2)))).
Proof.
  cbv zeta. split; [exact (log_text_ok [[1]; [0; 1]; [0]]%N)|]. repeat split; vm_compute; reflexivity.
Qed.

(** A list of 5000 values that the script judges, and one too short for it. *)
Example C93_script_example :
  let lists := [nrange 1 5000; [3; 1]]%N in
  let fs := set_file (txt "data") (collection_file 1 5001 lists) no_files in
  collection_ok 1 5001 lists /\ longer_than 4096 lists = [nrange 1 5000] /\
  (increasing (nrange 1 5000) /\ below 5001 (nrange 1 5000) /\ mixed_block (nrange 1 5000)) /\
  length (encoding_script (txt "check") (txt "data")) = 20 /\
  Forall (fun argv => encode_main argv fs = Ok (Some (mkEnd 0 (Some ([], 1, 5000%N)))))
         (encoding_script (txt "check") (txt "data")).
Proof.
  cbv zeta.
  assert (C : collection_ok 1 5001 [nrange 1 5000; [3; 1]]%N).
  { split; [reflexivity|split; [reflexivity|split; [reflexivity|split]]].
    - repeat constructor.
    - constructor; [|repeat constructor]. apply Forall_forall. intros x I. apply In_nrange in I.
      apply N.lt_trans with 5001%N; [apply I|reflexivity]. }
  assert (J : longer_than 4096 [nrange 1 5000; [3; 1]]%N = [nrange 1 5000]) by (vm_compute; reflexivity).
  assert (S : increasing (nrange 1 5000) /\ below 5001 (nrange 1 5000) /\ mixed_block (nrange 1 5000)).
  { split; [apply nrange_sorted|]. split.
    - apply Forall_forall. intros x I. apply In_nrange in I. apply I.
    - exists 1%N, 0%N. split; [left; reflexivity|]. split; [|reflexivity].
      intros I. apply In_nrange in I. destruct I as (I & _). apply I. reflexivity. }
  split; [exact C|]. split; [exact J|]. split; [exact S|]. split; [reflexivity|].
  assert (R := script_accepts (txt "check") (txt "data")
                 (set_file (txt "data") (collection_file 1 5001 [nrange 1 5000; [3; 1]]%N) no_files)
                 1 5001 [nrange 1 5000; [3; 1]]%N eq_refl C).
  cbv zeta in R. rewrite J in R. apply R; [discriminate|]. intros l [<-|[]]. exact S.
Qed.
