(** Property C74 again: collections of which only the first part is there, given to the tools
    that report statistics.  Full claim: such a collection is reported.  It never is.

    [coding_main] is the common main function of classic_coders and pom ([stop = false]) and
    of cbv_coding ([stop = true]), with the columns that a list adds. *)

From Verif Require Import Base FlatTrie Serialize Tries Tools Measures Stats Spec SpecTools SpecMeasures
  SpecStats SpecCut SpecCutInput SpecCutStats CutStatsThms.

(** Inside a long list, after [k] of its values and [r] bytes, once a value has been read: the
    list counts as complete, its missing values being the one read last with the [r] bytes
    put in. *)
Theorem C74_coders_inside_refuted : forall stop m columns ncols,
  (forall l row, columns l = Ok row -> length row = ncols) ->
  forall one u before l more k r fuel,
  collection_ok one u (before ++ l :: more) -> (stop = true -> all_long m before) ->
  (m < N.of_nat (length l))%N -> k < length l -> r < 4 -> 2 + length before <= fuel ->
  values_read m before k l <> [] ->
  let p := length (collection_file one u before) + 4 + 4 * k + r in
  let y := low_bytes r (nth k l 0%N) (last (values_read m before k l) 0%N) in
  coding_main fuel stop m columns ncols (Some (cut_at p (collection_file one u (before ++ l :: more))))
  = totals_of ncols columns (long_lists m before ++ [padded k y l]).
Proof. exact coders_inside. Qed.
Print Assumptions C74_coders_inside_refuted.

(** Before any value has been read, a variable that was never set is used. *)
Theorem C74_coders_inside_unset_refuted : forall stop m columns ncols one u before l more r fuel,
  collection_ok one u (before ++ l :: more) -> (stop = true -> all_long m before) ->
  (m < N.of_nat (length l))%N -> r < 4 -> 1 + length before <= fuel -> long_lists m before = [] ->
  let p := length (collection_file one u before) + 4 + r in
  coding_main fuel stop m columns ncols (Some (cut_at p (collection_file one u (before ++ l :: more))))
  = UB Indeterminate.
Proof. exact coders_inside_unset. Qed.
Print Assumptions C74_coders_inside_unset_refuted.

(** After [r] bytes of a length: the length is that of the list before with the [r] bytes put
    in.  If it is long enough, a further list of so many copies of the value read last is
    counted. *)
Theorem C74_coders_length_refuted : forall stop m columns ncols,
  (forall l row, columns l = Ok row -> length row = ncols) ->
  forall one u before l more r fuel,
  collection_ok one u (before ++ l :: more) -> (stop = true -> all_long m before) ->
  r < 4 -> 2 + length before <= fuel -> long_lists m before <> [] -> (m < length_read r before l)%N ->
  let p := length (collection_file one u before) + r in
  let y := last (concat (long_lists m before)) 0%N in
  coding_main fuel stop m columns ncols (Some (cut_at p (collection_file one u (before ++ l :: more))))
  = totals_of ncols columns (long_lists m before ++ [repeat y (N.to_nat (length_read r before l))]).
Proof. exact coders_length. Qed.
Print Assumptions C74_coders_length_refuted.

Theorem C74_coders_length_unset_refuted : forall stop m columns ncols one u before l more r fuel,
  collection_ok one u (before ++ l :: more) -> (stop = true -> all_long m before) ->
  r < 4 -> 1 + length before <= fuel -> long_lists m before = [] ->
  before = [] \/ (m < length_read r before l)%N ->
  let p := length (collection_file one u before) + r in
  coding_main fuel stop m columns ncols (Some (cut_at p (collection_file one u (before ++ l :: more))))
  = UB Indeterminate.
Proof. exact coders_length_unset. Qed.
Print Assumptions C74_coders_length_unset_refuted.

(** If it is not, or inside a short list: classic_coders and pom do not end. *)
Theorem C74_coders_hang_length_refuted : forall m columns ncols one u before l more r fuel,
  collection_ok one u (before ++ l :: more) ->
  Forall (fun l => exists row, columns l = Ok row) (long_lists m before) ->
  r < 4 -> before <> [] -> (length_read r before l <= m)%N ->
  let p := length (collection_file one u before) + r in
  coding_main fuel false m columns ncols (Some (cut_at p (collection_file one u (before ++ l :: more)))) = OutOfFuel.
Proof. exact coders_hangs_length. Qed.
Print Assumptions C74_coders_hang_length_refuted.

Theorem C74_coders_hang_short_refuted : forall m columns ncols one u before l more j fuel,
  collection_ok one u (before ++ l :: more) ->
  Forall (fun l => exists row, columns l = Ok row) (long_lists m before) ->
  j < 4 * length l -> (N.of_nat (length l) <= m)%N ->
  let p := length (collection_file one u before) + 4 + j in
  coding_main fuel false m columns ncols (Some (cut_at p (collection_file one u (before ++ l :: more)))) = OutOfFuel.
Proof. exact coders_hangs_short. Qed.
Print Assumptions C74_coders_hang_short_refuted.

(** cbv_coding prints the totals of the lists before. *)
Theorem C74_cbv_length_refuted : forall m columns ncols,
  (forall l row, columns l = Ok row -> length row = ncols) ->
  forall one u before l more r fuel,
  collection_ok one u (before ++ l :: more) -> all_long m before ->
  r < 4 -> 1 + length before <= fuel -> before <> [] -> (length_read r before l <= m)%N ->
  let p := length (collection_file one u before) + r in
  coding_main fuel true m columns ncols (Some (cut_at p (collection_file one u (before ++ l :: more))))
  = totals_of ncols columns before.
Proof. exact cbv_stops_length. Qed.
Print Assumptions C74_cbv_length_refuted.

(** The file may end anywhere after the length of the short list. *)
Theorem C74_cbv_short_refuted : forall m columns ncols,
  (forall l row, columns l = Ok row -> length row = ncols) ->
  forall one u before l more j fuel,
  collection_ok one u (before ++ l :: more) -> all_long m before ->
  1 + length before <= fuel -> (N.of_nat (length l) <= m)%N ->
  let p := length (collection_file one u before) + 4 + j in
  coding_main fuel true m columns ncols (Some (cut_at p (collection_file one u (before ++ l :: more))))
  = totals_of ncols columns before.
Proof. exact cbv_stops_short. Qed.
Print Assumptions C74_cbv_short_refuted.

(** Inside the two numbers at the start: classic_coders and pom print zeros, cbv_coding prints
    a variable that was never set. *)
Theorem C74_coders_header_refuted : forall stop m columns ncols one u lists fuel p, p < 8 -> 0 < fuel ->
  coding_main fuel stop m columns ncols (Some (cut_at p (collection_file one u lists)))
  = if stop then UB Indeterminate else Ok (mkTotals 0 0 (repeat 0%N ncols)).
Proof. exact coders_header. Qed.
Print Assumptions C74_coders_header_refuted.

(** measures, as the build tools: unless the file ends inside a long list, after its length,
    the result is that of the complete lists. *)
Theorem C74_measures_partial : forall m one u lists p before after fuel,
  collection_ok one u lists -> whole_lists p one u lists before after -> 2 + length before <= fuel ->
  ~ cut_inside p one u m (2 ^ 32) before after ->
  measures fuel m (Some (cut_at p (collection_file one u lists)))
  = measures fuel m (Some (collection_file one u before)).
Proof. exact measures_cut_between. Qed.
Print Assumptions C74_measures_partial.

Theorem C74_measures_inside_refuted : forall m one u lists p before after fuel r,
  collection_ok one u lists -> whole_lists p one u lists before after -> 2 + length before <= fuel ->
  cut_inside p one u m (2 ^ 32) before after ->
  measures fuel m (Some (collection_file one u before)) = Ok r ->
  measures fuel m (Some (cut_at p (collection_file one u lists))) = UB Indeterminate.
Proof. exact measures_cut_inside. Qed.
Print Assumptions C74_measures_inside_refuted.

Theorem C74_measures_header_refuted : forall m one u lists p fuel, p < 8 ->
  measures fuel m (Some (cut_at p (collection_file one u lists))) = UB Indeterminate.
Proof. exact measures_header. Qed.
Print Assumptions C74_measures_header_refuted.

(** Three lists, of which the second is short when the limit is 1.  41 and 37 are inside the two
    values of the last list, 33 inside its length, 29 inside the short list, 14 inside the first
    value, 10 inside the first length, 7 inside the header. *)
Example C74_stats_example :
  let lists := [[5; 7; 300]; [4]; [258; 515]]%N in
  let file := collection_file 1 512 lists in
  let sum := fun l : list N => sumN l in
  let ones := fun v : list bool => N.of_nat (count_true v) in
  collection_ok 1 512 lists /\ length file = 44 /\
  values_read 1 [[5; 7; 300]; [4]]%N 1 [258; 515]%N = [5; 7; 300; 258]%N /\
  padded 1 (low_bytes 1 515 258) [258; 515]%N = [258; 259]%N /\
  padded 0 (low_bytes 1 258 300) [258; 515]%N = [258; 258]%N /\
  classic_coders 9 sum sum sum 1 (Some (cut_at 41 file)) = Ok (mkTotals 5 2 [829; 829; 829])%N /\
  pom 9 sum sum sum 1 (Some (cut_at 37 file)) = Ok (mkTotals 5 2 [824; 824; 824; 59])%N /\
  length_read 1 [[5; 7; 300]; [4]]%N [258; 515]%N = 2%N /\
  classic_coders 9 sum sum sum 1 (Some (cut_at 33 file)) = Ok (mkTotals 5 2 [912; 912; 912])%N /\
  classic_coders 900 sum sum sum 1 (Some (cut_at 29 file)) = OutOfFuel /\
  classic_coders 9 sum sum sum 1 (Some (cut_at 10 file)) = UB Indeterminate /\
  classic_coders 9 sum sum sum 1 (Some (cut_at 14 file)) = UB Indeterminate /\
  classic_coders 9 sum sum sum 1 (Some (cut_at 7 file)) = Ok (mkTotals 0 0 [0; 0; 0])%N /\
  cbv_coding 9 ones 1 (Some (cut_at 29 file)) = Ok (mkTotals 3 1 [0; 0; 3])%N /\
  cbv_coding 9 ones 0 (Some (cut_at 20 file)) = Ok (mkTotals 3 1 [0; 0; 2])%N /\
  whole_lists 33 1 512 lists [[5; 7; 300]; [4]]%N [[258; 515]]%N /\
  ~ cut_inside 33 1 512 1 (2 ^ 32) [[5; 7; 300]; [4]]%N [[258; 515]]%N /\
  cut_inside 41 1 512 1 (2 ^ 32) [[5; 7; 300]; [4]]%N [[258; 515]]%N /\
  (exists r, measures 9 1 (Some (cut_at 33 file)) = Ok r /\ m_sets r = 1%N) /\
  measures 9 1 (Some (cut_at 41 file)) = UB Indeterminate /\ measures 9 1 (Some (cut_at 7 file)) = UB Indeterminate.
Proof. exact cut_stats_example. Qed.
