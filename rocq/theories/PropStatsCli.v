(** Property C60: the command lines of the statistics tools. *)

From Coq Require Import String.
From Verif Require Import Base Serialize Tools Text SpecText Cli SpecCli Measures Stats StatsCli SpecStatsCli
  Spec SpecTools SpecMeasures SpecStats StatsCliThms.

(** C60.  Full claim: a command line with a collection and any further arguments reports the
    totals of that collection for the minimal length given last, and any other is rejected.
    Proved of command lines in which each --min_length is followed by a number below 2^64 and
    is not the collection; the rejections that fail are below.  [tool] is what the tool does
    with the minimal length and the contents of the collection. *)
Theorem C60_command_line_partial : forall A (tool : N -> option (list N) -> result A) prog file ss fs,
  prog <> txt "--min_length" -> file <> txt "--min_length" -> Forall stats_setting_ok ss ->
  stats_main tool (prog :: file :: s_written_all ss) fs
  = (let* a := tool (last_of min_length_of 0%N ss) (fs file) in Ok (Totals a)).
Proof. exact stats_main_ok. Qed.
Print Assumptions C60_command_line_partial.

(** From the command line to the totals, for each of the four tools. *)
Theorem C60_measures : forall prog file ss fs one u lists fuel,
  prog <> txt "--min_length" -> file <> txt "--min_length" -> Forall stats_setting_ok ss ->
  fs file = Some (collection_file one u lists) -> collection_ok one u lists -> (3 <= u)%N ->
  let m := last_of min_length_of 0%N ss in
  let K := long_lists m lists in
  Forall (fun l => increasing l /\ below u l) K -> length lists < fuel ->
  exists rs ts trs, Forall2 (fun l r => Rle l = Ok r) K rs /\
    Forall2 (prefix_total prefix_of_member u) K ts /\
    Forall2 (prefix_total prefix_outside_runs u) K trs /\
    measures_main fuel (prog :: file :: s_written_all ss) fs
    = Ok (Totals (mkMeasured (total_length K) (N.of_nat (length K))
            (gap_bits K + (if length K =? 0 then 0 else 32 + joint_charges u K)) (sumN rs)
            (N.of_nat (list_sum ts)) (N.of_nat (list_sum trs)))).
Proof. exact measures_main_spec. Qed.
Print Assumptions C60_measures.

Theorem C60_classic : forall prog file ss fs delta gamma fib one u lists l fuel,
  prog <> txt "--min_length" -> file <> txt "--min_length" -> Forall stats_setting_ok ss ->
  fs file = Some (collection_file one u (lists ++ [l])) ->
  let m := last_of min_length_of 0%N ss in
  collection_ok one u (lists ++ [l]) -> (m < N.of_nat (length l))%N -> 3 + length lists <= fuel ->
  let counted := long_lists m (lists ++ [l]) ++ [last_repeated l] in
  classic_coders_main fuel delta gamma fib (prog :: file :: s_written_all ss) fs
  = Ok (Totals (mkTotals (total_length counted) (N.of_nat (length counted))
          [sumN (map delta counted); sumN (map gamma counted); sumN (map fib counted)])).
Proof. exact classic_main_spec. Qed.
Print Assumptions C60_classic.

Theorem C60_pom : forall prog file ss fs delta gamma fib one u lists l fuel,
  prog <> txt "--min_length" -> file <> txt "--min_length" -> Forall stats_setting_ok ss ->
  fs file = Some (collection_file one u (lists ++ [l])) ->
  let m := last_of min_length_of 0%N ss in
  collection_ok one u (lists ++ [l]) ->
  Forall (fun l => increasing l /\ Forall (fun x => 0 < x)%N l) (long_lists m (lists ++ [l])) ->
  (m < N.of_nat (length l))%N -> 3 + length lists <= fuel ->
  let counted := long_lists m (lists ++ [l]) ++ [last_repeated l] in
  exists suffixes, Forall2 (fun l r => pom_list l = Ok r) counted suffixes /\
  pom_main fuel delta gamma fib (prog :: file :: s_written_all ss) fs
  = Ok (Totals (mkTotals (total_length counted) (N.of_nat (length counted))
          [sumN (map (fun r => delta (sort_values (fst r))) suffixes);
           sumN (map (fun r => gamma (sort_values (fst r))) suffixes);
           sumN (map (fun r => fib (sort_values (fst r))) suffixes);
           sumN (map snd suffixes)])).
Proof. exact pom_main_spec. Qed.
Print Assumptions C60_pom.

Theorem C60_cbv : forall prog file ss fs hyb one u lists l more fuel,
  prog <> txt "--min_length" -> file <> txt "--min_length" -> Forall stats_setting_ok ss ->
  fs file = Some (collection_file one u (lists ++ l :: more)) ->
  let m := last_of min_length_of 0%N ss in
  collection_ok one u (lists ++ l :: more) -> Forall increasing lists ->
  Forall (fun l => m < N.of_nat (length l))%N lists -> (N.of_nat (length l) <= m)%N ->
  1 + length lists <= fuel ->
  cbv_coding_main fuel hyb (prog :: file :: s_written_all ss) fs
  = Ok (Totals (mkTotals (total_length lists) (N.of_nat (length lists))
          [0%N; 0%N; sumN (map (fun l => hyb (member_bits l)) lists)])).
Proof. exact cbv_main_spec. Qed.
Print Assumptions C60_cbv.

(** Rejected: no collection; a value that is no number. *)
Theorem C60_usage : forall A (tool : N -> option (list N) -> result A) prog fs,
  stats_main tool [prog] fs = Ok Usage.
Proof. exact stats_usage. Qed.
Print Assumptions C60_usage.

Theorem C60_wrong_number : forall A (tool : N -> option (list N) -> result A) ss w rest fs,
  Forall stats_setting_ok ss -> no_number w ->
  stats_main tool (s_written_all ss ++ txt "--min_length" :: w :: rest) fs = Ok Thrown.
Proof. exact stats_wrong_number. Qed.
Print Assumptions C60_wrong_number.

(** Not rejected: the option without a value is undefined behaviour. *)
Theorem C60_missing_value_refuted : forall A (tool : N -> option (list N) -> result A) ss fs,
  Forall stats_setting_ok ss -> ss <> [] ->
  stats_main tool (s_written_all ss ++ [txt "--min_length"]) fs = UB NullDeref.
Proof. exact stats_missing_value. Qed.
Print Assumptions C60_missing_value_refuted.

(** Not rejected: without a collection the name of the option is taken for one. *)
Theorem C60_no_collection_refuted : forall A (tool : N -> option (list N) -> result A) prog w fs,
  prog <> txt "--min_length" -> decimal w -> (decimal_value w < 2 ^ 64)%N ->
  stats_main tool [prog; txt "--min_length"; w] fs
  = (let* a := tool (decimal_value w) (fs (txt "--min_length")) in Ok (Totals a)).
Proof. exact stats_no_collection. Qed.
Print Assumptions C60_no_collection_refuted.

Example C60_example :
  let lists := [[1; 2; 9]; [4]; [3; 12]]%N in
  let fs := fun f => if text_eqb f (txt "coll") then Some (collection_file 1 16 lists) else None in
  let line := [Other (txt "-v"); MinLength (txt "7"); MinLength (txt "1")] in
  Forall stats_setting_ok line /\ last_of min_length_of 0%N line = 1%N /\
  measures_main 4 (txt "measures" :: txt "coll" :: s_written_all line) fs
  = Ok (Totals (mkMeasured 5 2 (11 + 32 + 4) (5 + 6) (10 + 8) (10 + 8))) /\
  measures_main 4 [txt "measures"; txt "coll"; txt "--min_length"; txt "ten"] fs = Ok Thrown /\
  measures_main 4 [txt "measures"; txt "coll"; txt "--min_length"] fs = UB NullDeref.
Proof. exact stats_cli_example. Qed.
