(** Property C74: collections of which only the first part is there, given to the tools
    that read collections. *)

From Verif Require Import Base FlatTrie LevelTrie FastTrie Tries Serialize Tools Stats CutInput Spec
  SpecTries SpecTools SpecMeasures SpecStats SpecCut SpecCutInput InterRefute ToolsThms CutInputThms.

(** The model of truncated input agrees with the model of the tools wherever that one
    gives a file. *)
Theorem C74_whole : forall fm min_size max_size rank_type block runs levelwise input file,
  build_tries fm min_size max_size rank_type block runs levelwise input = Ok file ->
  build_tries_in fm min_size max_size rank_type block runs levelwise input = Ok file.
Proof. exact tries_ok. Qed.
Print Assumptions C74_whole.

Theorem C74_fast_whole : forall fm junk min_size max_size rank_type runs levelwise lw input file,
  build_fast_tries fm junk min_size max_size rank_type runs levelwise lw input = Ok file ->
  build_fast_tries_in fm junk min_size max_size rank_type runs levelwise lw input = Ok file.
Proof. exact fast_ok. Qed.
Print Assumptions C74_fast_whole.

(** Wherever the file ends, some lists are complete. *)
Theorem C74_everywhere : forall p one u lists, 8 <= p ->
  exists before after, whole_lists p one u lists before after.
Proof. exact whole_lists_exist. Qed.
Print Assumptions C74_everywhere.

(** Full claim: a collection cut at any byte is reported.  It never is.  Unless the cut
    is inside a list to be stored, the tool builds the collection of the complete lists
    as if it were all. *)
Theorem C74_build_partial : forall fm min_size max_size rank_type block runs levelwise one u lists p before after,
  collection_ok one u lists -> whole_lists p one u lists before after ->
  ~ cut_inside p one u min_size max_size before after ->
  build_tries_in fm min_size max_size rank_type block runs levelwise (cut_at p (collection_file one u lists))
  = build_tries fm min_size max_size rank_type block runs levelwise (collection_file one u before).
Proof. exact tries_cut. Qed.
Print Assumptions C74_build_partial.

Theorem C74_fast_build_partial : forall fm junk min_size max_size rank_type runs levelwise lw one u lists p before after,
  collection_ok one u lists -> whole_lists p one u lists before after ->
  ~ cut_inside p one u min_size max_size before after ->
  build_fast_tries_in fm junk min_size max_size rank_type runs levelwise lw (cut_at p (collection_file one u lists))
  = build_fast_tries fm junk min_size max_size rank_type runs levelwise lw (collection_file one u before).
Proof. exact fast_cut. Qed.
Print Assumptions C74_fast_build_partial.

Theorem C74_silent_refuted : forall fm min_size max_size rank_type block runs levelwise one u lists l,
  collection_ok one u (lists ++ [l]) ->
  exists p, p < length (collection_file one u (lists ++ [l])) /\
    build_tries_in fm min_size max_size rank_type block runs levelwise
      (cut_at p (collection_file one u (lists ++ [l])))
    = build_tries fm min_size max_size rank_type block runs levelwise (collection_file one u lists).
Proof. exact silent_cut. Qed.
Print Assumptions C74_silent_refuted.

(** Inside a list to be stored, the missing values are read from a variable that was
    never set; so is the universe when even that is missing. *)
Theorem C74_inside_refuted : forall fm min_size max_size rank_type block runs levelwise one u lists p before after file,
  collection_ok one u lists -> whole_lists p one u lists before after ->
  cut_inside p one u min_size max_size before after ->
  build_tries fm min_size max_size rank_type block runs levelwise (collection_file one u before) = Ok file ->
  build_tries_in fm min_size max_size rank_type block runs levelwise (cut_at p (collection_file one u lists))
  = UB Indeterminate.
Proof. exact tries_inside. Qed.
Print Assumptions C74_inside_refuted.

Theorem C74_fast_inside_refuted : forall fm junk min_size max_size rank_type runs levelwise lw one u lists p before after file,
  collection_ok one u lists -> whole_lists p one u lists before after ->
  cut_inside p one u min_size max_size before after ->
  build_fast_tries fm junk min_size max_size rank_type runs levelwise lw (collection_file one u before) = Ok file ->
  build_fast_tries_in fm junk min_size max_size rank_type runs levelwise lw (cut_at p (collection_file one u lists))
  = UB Indeterminate.
Proof. exact fast_inside. Qed.
Print Assumptions C74_fast_inside_refuted.

Theorem C74_header_refuted : forall fm min_size max_size rank_type block runs levelwise one u lists p, p < 8 ->
  build_tries_in fm min_size max_size rank_type block runs levelwise (cut_at p (collection_file one u lists))
  = UB Indeterminate.
Proof. exact tries_header. Qed.
Print Assumptions C74_header_refuted.

Theorem C74_fast_header_refuted : forall fm junk min_size max_size rank_type runs levelwise lw one u lists p, p < 8 ->
  build_fast_tries_in fm junk min_size max_size rank_type runs levelwise lw (cut_at p (collection_file one u lists))
  = UB Indeterminate.
Proof. exact fast_header_cut. Qed.
Print Assumptions C74_fast_header_refuted.

(** classic_coders declares the variable outside the loop.  There a list cut after [k]
    values and [r] bytes counts as complete; its missing values are all the one read
    last, with the [r] bytes put in. *)
Theorem C74_classic_refuted : forall delta gamma fib m one u before l more k r fuel,
  collection_ok one u (before ++ l :: more) -> (m < N.of_nat (length l))%N ->
  0 < k -> k < length l -> r < 4 -> 2 + length before <= fuel ->
  let p := length (collection_file one u before) + 4 + 4 * k + r in
  let y := low_bytes r (nth k l 0%N) (nth (k - 1) l 0%N) in
  let counted := long_lists m before ++ [padded k y l] in
  classic_coders fuel delta gamma fib m (Some (cut_at p (collection_file one u (before ++ l :: more))))
  = Ok (mkTotals (total_length counted) (N.of_nat (length counted))
          [sumN (map delta counted); sumN (map gamma counted); sumN (map fib counted)]).
Proof. exact classic_cut. Qed.
Print Assumptions C74_classic_refuted.

(** Three lists, of which the second is too short to be stored.  The file has 44 bytes;
    29 end inside the second list, 33 inside the length of the third, 41 inside its
    second value. *)
Example C74_example :
  let lists := [[1; 2; 9]; [4]; [3; 300]]%N in
  let file := collection_file 1 512 lists in
  let build := build_tries_in plain_formats 1 100 0 512 false false in
  let sum := fun l : list N => sumN l in
  collection_ok 1 512 lists /\ length file = 44 /\
  whole_lists 29 1 512 lists [[1; 2; 9]]%N [[4]; [3; 300]]%N /\
  whole_lists 33 1 512 lists [[1; 2; 9]; [4]]%N [[3; 300]]%N /\
  ~ cut_inside 29 1 512 1 100 [[1; 2; 9]]%N [[4]; [3; 300]]%N /\
  ~ cut_inside 33 1 512 1 100 [[1; 2; 9]; [4]]%N [[3; 300]]%N /\
  cut_inside 41 1 512 1 100 [[1; 2; 9]; [4]]%N [[3; 300]]%N /\
  (exists f, build (cut_at 29 file) = Ok f /\ build (cut_at 33 file) = Ok f /\
             build (collection_file 1 512 [[1; 2; 9]]%N) = Ok f /\ build file <> Ok f) /\
  build (cut_at 41 file) = UB Indeterminate /\ build (cut_at 7 file) = UB Indeterminate /\
  classic_coders 9 sum sum sum 1 (Some (cut_at 41 file)) = Ok (mkTotals 5 2 [12 + 3 + 44; 59; 59])%N.
Proof. exact cut_input_example. Qed.
