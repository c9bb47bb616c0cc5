(** Properties C50, C51, C52: the tools that report statistics of a collection. *)

From Verif Require Import Base Serialize Tools Measures Stats Spec SpecTools SpecMeasures SpecStats
  StatsThms StatsTools StatsMeasures.
From Coq Require Import Sorting.Permutation.

(** C50.  Full claim: the gap column is gap_bits K + joint_costs u K.  The tool adds 32
    bits for the first list, and 32 bits instead of the distance after each list that
    ends in 0. *)
Theorem C50_measures_partial : forall m one u lists fuel,
  collection_ok one u lists -> (3 <= u)%N ->
  Forall (fun l => increasing l /\ below u l) (long_lists m lists) -> length lists < fuel ->
  let K := long_lists m lists in
  exists rs ts trs, Forall2 (fun l r => Rle l = Ok r) K rs /\
    Forall2 (prefix_total prefix_of_member u) K ts /\
    Forall2 (prefix_total prefix_outside_runs u) K trs /\
    measures fuel m (Some (collection_file one u lists))
    = Ok (mkMeasured (total_length K) (N.of_nat (length K))
            (gap_bits K + (if length K =? 0 then 0 else 32 + joint_charges u K)) (sumN rs)
            (N.of_nat (list_sum ts)) (N.of_nat (list_sum trs))).
Proof. exact measures_spec. Qed.
Print Assumptions C50_measures_partial.

Theorem C50_charges : forall u lists, Forall (fun l => last l 0%N <> 0%N) (removelast lists) ->
  joint_charges u lists = joint_costs u lists.
Proof. exact charges_costs. Qed.
Print Assumptions C50_charges.

Theorem C50_gap_refuted : forall m one u lists fuel r,
  collection_ok one u lists -> (3 <= u)%N ->
  Forall (fun l => increasing l /\ below u l) (long_lists m lists) -> long_lists m lists <> [] ->
  Forall (fun l => last l 0%N <> 0%N) (long_lists m lists) ->
  measures fuel m (Some (collection_file one u lists)) = Ok r ->
  m_gap r <> (gap_bits (long_lists m lists) + joint_costs u (long_lists m lists))%N.
Proof. exact measures_gap_wrong. Qed.
Print Assumptions C50_gap_refuted.

Theorem C50_missing_file : forall m fuel, measures fuel m None = UB Indeterminate.
Proof. exact measures_missing. Qed.
Print Assumptions C50_missing_file.

(** Three lists, of which the middle one is too short. *)
Example C50_example :
  let lists := [[1; 2; 9]; [4]; [3; 12]]%N in
  collection_ok 1 16 lists /\
  Forall (fun l => increasing l /\ below 16 l) (long_lists 1 lists) /\
  long_lists 1 lists = [[1; 2; 9]; [3; 12]]%N /\
  (gap_bits [[1; 2; 9]; [3; 12]] = 5 + 6 /\ joint_costs 16 [[1; 2; 9]; [3; 12]] = 4)%N /\
  measures 4 1 (Some (collection_file 1 16 lists))
  = Ok (mkMeasured 5 2 (11 + 32 + 4) (5 + 6) (10 + 8) (10 + 8)).
Proof. exact measures_example. Qed.

(** C51.  Full claim: the totals are those of [long_lists m lists].  They never are: the
    loop ends only after it has counted the last list a second time, with all its values
    replaced by the last one. *)
Theorem C51_classic_last_long : forall delta gamma fib m one u lists l fuel,
  collection_ok one u (lists ++ [l]) -> (m < N.of_nat (length l))%N -> 3 + length lists <= fuel ->
  let counted := long_lists m (lists ++ [l]) ++ [last_repeated l] in
  classic_coders fuel delta gamma fib m (Some (collection_file one u (lists ++ [l])))
  = Ok (mkTotals (total_length counted) (N.of_nat (length counted))
          [sumN (map delta counted); sumN (map gamma counted); sumN (map fib counted)]).
Proof. exact classic_last_long. Qed.
Print Assumptions C51_classic_last_long.

(** If the last list is short the program does not end. *)
Theorem C51_classic_hangs : forall delta gamma fib m one u lists l fuel,
  collection_ok one u (lists ++ [l]) -> (N.of_nat (length l) <= m)%N ->
  classic_coders fuel delta gamma fib m (Some (collection_file one u (lists ++ [l]))) = OutOfFuel.
Proof. exact classic_last_short. Qed.
Print Assumptions C51_classic_hangs.

Theorem C51_classic_refuted : forall delta gamma fib m one u lists fuel t, collection_ok one u lists ->
  classic_coders fuel delta gamma fib m (Some (collection_file one u lists)) = Ok t ->
  t_sets t = (N.of_nat (length (long_lists m lists)) + 1)%N.
Proof. exact classic_wrong. Qed.
Print Assumptions C51_classic_refuted.

(** The same for pom.  A list that contains 0 is undefined there (C46). *)
Theorem C51_pom_last_long : forall delta gamma fib m one u lists l fuel,
  collection_ok one u (lists ++ [l]) ->
  Forall (fun l => increasing l /\ Forall (fun x => 0 < x)%N l) (long_lists m (lists ++ [l])) ->
  (m < N.of_nat (length l))%N -> 3 + length lists <= fuel ->
  let counted := long_lists m (lists ++ [l]) ++ [last_repeated l] in
  exists suffixes, Forall2 (fun l r => pom_list l = Ok r) counted suffixes /\
  pom fuel delta gamma fib m (Some (collection_file one u (lists ++ [l])))
  = Ok (mkTotals (total_length counted) (N.of_nat (length counted))
          [sumN (map (fun r => delta (sort_values (fst r))) suffixes);
           sumN (map (fun r => gamma (sort_values (fst r))) suffixes);
           sumN (map (fun r => fib (sort_values (fst r))) suffixes);
           sumN (map snd suffixes)]).
Proof. exact pom_last_long. Qed.
Print Assumptions C51_pom_last_long.

Theorem C51_sort : forall l, nondecreasing (sort_values l) /\ Permutation (sort_values l) l.
Proof. exact sort_spec. Qed.
Print Assumptions C51_sort.

Theorem C51_pom_hangs : forall delta gamma fib m one u lists l fuel,
  collection_ok one u (lists ++ [l]) ->
  Forall (fun l => increasing l /\ Forall (fun x => 0 < x)%N l) (long_lists m lists) ->
  (N.of_nat (length l) <= m)%N ->
  pom fuel delta gamma fib m (Some (collection_file one u (lists ++ [l]))) = OutOfFuel.
Proof. exact pom_last_short. Qed.
Print Assumptions C51_pom_hangs.

Theorem C51_pom_refuted : forall delta gamma fib m one u lists fuel t, collection_ok one u lists ->
  pom fuel delta gamma fib m (Some (collection_file one u lists)) = Ok t ->
  t_sets t = (N.of_nat (length (long_lists m lists)) + 1)%N.
Proof. exact pom_wrong. Qed.
Print Assumptions C51_pom_refuted.

(** No list at all, or a file that cannot be opened: [n] is never read.  This is the
    common main function of classic_coders, pom and cbv_coding. *)
Theorem C51_no_lists : forall fuel stop m columns k one u, collection_ok one u [] -> 0 < fuel ->
  coding_main fuel stop m columns k (Some (collection_file one u [])) = UB Indeterminate.
Proof. exact main_empty. Qed.
Print Assumptions C51_no_lists.

Theorem C51_missing_file : forall fuel stop m columns k, 0 < fuel ->
  coding_main fuel stop m columns k None = UB Indeterminate.
Proof. exact main_missing. Qed.
Print Assumptions C51_missing_file.

Example C51_example :
  let lists := [[5; 7; 12]; [1; 2]]%N in
  let size := fun l : list N => N.of_nat (length l) in
  collection_ok 1 16 lists /\
  long_lists 0 lists ++ [last_repeated [1; 2]%N] = [[5; 7; 12]; [1; 2]; [2; 2]]%N /\
  classic_coders 9 size size size 0 (Some (collection_file 1 16 lists)) = Ok (mkTotals 7 3 [7; 7; 7])%N /\
  pom 9 size size size 0 (Some (collection_file 1 16 lists)) = Ok (mkTotals 7 3 [7; 7; 7; 15 + 4 + 6])%N /\
  classic_coders 900 size size size 2 (Some (collection_file 1 16 lists)) = OutOfFuel.
Proof. exact coders_example. Qed.

(** C52.  Full claim: the totals are those of [long_lists m lists].  True only of the
    lists before the first short one. *)
Theorem C52_cbv_partial : forall hyb m one u lists l more fuel,
  collection_ok one u (lists ++ l :: more) -> Forall increasing lists ->
  Forall (fun l => m < N.of_nat (length l))%N lists -> (N.of_nat (length l) <= m)%N ->
  1 + length lists <= fuel ->
  cbv_coding fuel hyb m (Some (collection_file one u (lists ++ l :: more)))
  = Ok (mkTotals (total_length lists) (N.of_nat (length lists))
          [0%N; 0%N; sumN (map (fun l => hyb (member_bits l)) lists)]).
Proof. exact cbv_first_short. Qed.
Print Assumptions C52_cbv_partial.

(** With no short list the last one is counted again. *)
Theorem C52_cbv_refuted : forall hyb m one u lists l fuel,
  collection_ok one u (lists ++ [l]) -> Forall increasing (lists ++ [l]) ->
  Forall (fun l => m < N.of_nat (length l))%N (lists ++ [l]) -> 3 + length lists <= fuel ->
  let counted := (lists ++ [l]) ++ [last_repeated l] in
  cbv_coding fuel hyb m (Some (collection_file one u (lists ++ [l])))
  = Ok (mkTotals (total_length counted) (N.of_nat (length counted))
          [0%N; 0%N; sumN (map (fun l => hyb (member_bits l)) counted)]).
Proof. exact cbv_all_long. Qed.
Print Assumptions C52_cbv_refuted.

Example C52_example :
  let ones := fun v : list bool => N.of_nat (count_true v) in
  collection_ok 1 16 [[5; 7; 12]; [1]; [1; 2; 3]]%N /\
  cbv_coding 9 ones 1 (Some (collection_file 1 16 [[5; 7; 12]; [1]; [1; 2; 3]]%N)) = Ok (mkTotals 3 1 [0; 0; 3])%N /\
  cbv_coding 9 ones 0 (Some (collection_file 1 16 [[5; 7; 12]; [1; 2; 3]]%N)) = Ok (mkTotals 9 3 [0; 0; 3 + 3 + 1])%N.
Proof. exact cbv_example. Qed.
