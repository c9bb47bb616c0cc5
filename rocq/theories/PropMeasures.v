(** Properties C23, C24, C41, C42, C43, C45, C46: the size measures. *)

From Verif Require Import Base FlatTrie Spec SpecTries SpecMeasures Measures NodeCount MeasureThms InterRefute.

(** C23.  [ns] lists, for each number [k] of removed digits, how many distinct
    prefixes the members have. *)
Theorem C23_trie_measure : forall (u : N) (s : list N),
  (3 <= u <= 2 ^ 48)%N -> s <> [] -> increasing s -> below u s -> shorter 32 s ->
  exists t ns, flat_build s u = Ok t /\ flat_trieMeasure t = Ok (list_sum ns) /\
    Forall2 (fun k n => counts (prefix_of_member s k) n) (seq 0 (digits u)) ns.
Proof. exact flat_measure. Qed.
Print Assumptions C23_trie_measure.

(** Prefixes of 0, 1, 5, 7 with 0, 1, 2 digits removed: 4 + 3 + 2. *)
Example C23_example :
  let s := [0; 1; 5; 7]%N in
  (s <> [] /\ increasing s /\ below 8 s /\ shorter 32 s) /\ digits 8 = 3 /\
  (let* t := flat_build s 8 in flat_trieMeasure t) = Ok 9.
Proof. cbv zeta. split; [sets_ok|]. split; reflexivity. Qed.

(** C24. *)
Theorem C24_elements_coded : forall (u : N) (s : list N),
  (3 <= u <= 2 ^ 48)%N -> s <> [] -> increasing s -> below u s -> shorter 32 s ->
  exists t, flat_build s u = Ok t /\ flat_elements_coded t = Ok (length s).
Proof. exact flat_elements. Qed.
Print Assumptions C24_elements_coded.

Example C24_example :
  let s := [0; 1; 5; 7; 40]%N in
  (s <> [] /\ increasing s /\ below 64 s /\ shorter 32 s) /\
  (let* t := flat_build s 64 in flat_elements_coded t) = Ok 5.
Proof. cbv zeta. split; [sets_ok|]. reflexivity. Qed.

(** C45.  The same count after encodeRuns leaves out the prefixes strictly inside
    a run.  It holds for every set, including those the trie cannot decode. *)
Theorem C45_trie_run_measure : forall (u : N) (s : list N),
  (3 <= u <= 2 ^ 48)%N -> s <> [] -> increasing s -> below u s -> shorter 32 s ->
  exists t t' ns, flat_build s u = Ok t /\ flat_encodeRuns t = Ok t' /\
    flat_trieMeasure t' = Ok (list_sum ns) /\
    Forall2 (fun k n => counts (prefix_outside_runs s k) n) (seq 0 (digits u)) ns.
Proof. exact flat_measure_runs. Qed.
Print Assumptions C45_trie_run_measure.

(** The two columns printed by tools/measures.cpp. *)
Theorem C45_measures_tool : forall (u : N) (s : list N),
  (3 <= u <= 2 ^ 48)%N -> s <> [] -> increasing s -> below u s -> shorter 32 s ->
  (exists ns, Trie s u false = Ok (list_sum ns) /\
     Forall2 (fun k n => counts (prefix_of_member s k) n) (seq 0 (digits u)) ns) /\
  (exists ns, Trie s u true = Ok (list_sum ns) /\
     Forall2 (fun k n => counts (prefix_outside_runs s k) n) (seq 0 (digits u)) ns).
Proof. exact trie_measure_spec. Qed.
Print Assumptions C45_measures_tool.

Example C45_example :
  let s := [0; 1; 2; 3; 5; 8; 9; 10; 11; 12; 13; 14; 15]%N in
  (s <> [] /\ increasing s /\ below 16 s /\ shorter 32 s) /\
  Trie s 16 false = Ok (2 + 4 + 7 + 13) /\ Trie s 16 true = Ok (2 + 2 + 1 + 1).
Proof. cbv zeta. split; [sets_ok|]. split; reflexivity. Qed.

(** C41. *)
Theorem C41_gap_measure : forall v, v <> [] -> increasing v -> below (2 ^ 48) v ->
  Gap v = Ok (sumN (map width (gaps v))).
Proof. exact gap_spec. Qed.
Print Assumptions C41_gap_measure.

Example C41_example :
  let v := [3; 4; 9; 20]%N in
  (increasing v /\ below (2 ^ 48) v) /\ gaps v = [3; 0; 4; 10]%N /\ map width (gaps v) = [2; 1; 3; 4]%N /\
  Gap v = Ok 10%N.
Proof. cbv zeta. split; [sets_ok|]. repeat split. Qed.

(** C42.  Full claim: gap_costs rest + run_costs (n :: map snd rest).  The last run
    is left out. *)
Theorem C42_rle_partial : forall n rest, 0 < n -> runs_ok rest -> below (2 ^ 48) (from_runs 0 n rest) ->
  Rle (from_runs 0 n rest) = Ok (gap_costs rest + run_costs (removelast (n :: map snd rest)))%N.
Proof. exact rle_spec. Qed.
Print Assumptions C42_rle_partial.

(** Lists that do not start at zero are measured as if zero were a member. *)
Theorem C42_rle_zero : forall x v, x <> 0%N -> Rle (x :: v) = Rle (0%N :: x :: v).
Proof. exact rle_zero. Qed.
Print Assumptions C42_rle_zero.

Theorem C42_rle_refuted : ~ (forall n rest, 0 < n -> runs_ok rest -> below (2 ^ 48) (from_runs 0 n rest) ->
  Rle (from_runs 0 n rest) = Ok (gap_costs rest + run_costs (n :: map snd rest))%N).
Proof. exact rle_refuted. Qed.
Print Assumptions C42_rle_refuted.

(** Extending the last run costs nothing. *)
Theorem C42_last_run_ignored : forall v x n,
  Forall (fun y => y < 2 ^ 64)%N (v ++ [x]) -> (x + N.of_nat n < 2 ^ 64)%N ->
  Rle ((v ++ [x]) ++ consecutive (x + 1) n) = Rle (v ++ [x]).
Proof. exact rle_last_run. Qed.
Print Assumptions C42_last_run_ignored.

Example C42_example :
  from_runs 0 3 [(3%N, 2); (5%N, 4)] = [0; 1; 2; 6; 7; 13; 14; 15; 16]%N /\
  runs_ok [(3%N, 2); (5%N, 4)] /\ below (2 ^ 48) (from_runs 0 3 [(3%N, 2); (5%N, 4)]) /\
  Rle (from_runs 0 3 [(3%N, 2); (5%N, 4)]) = Ok (2 + 3 + (2 + 1))%N.
Proof. split; [reflexivity|]. split; [repeat constructor|]. split; [repeat constructor|reflexivity]. Qed.

(** C43.  [k] is the number of digits that are kept: the values agree above them
    and differ in the first of them. *)
Theorem C43_prefix_of : forall x y, (x < 2 ^ 64)%N -> (y < 2 ^ 64)%N -> x <> y ->
  exists k, 1 <= k <= 64 /\ (x / 2 ^ N.of_nat k = y / 2 ^ N.of_nat k)%N /\
    (x / 2 ^ N.of_nat (k - 1) <> y / 2 ^ N.of_nat (k - 1))%N /\
    prefixOf x y 64 = Ok (x mod 2 ^ N.of_nat k)%N.
Proof. exact prefixOf_spec. Qed.
Print Assumptions C43_prefix_of.

Theorem C43_prefix_of_same : forall x, prefixOf x x 64 = Ok x.
Proof. exact prefixOf_same. Qed.
Print Assumptions C43_prefix_of_same.

(** Not for the other widths the signature admits. *)
Theorem C43_narrow_refuted : ~ (forall n x y,
  1 <= n <= 64 -> (x < 2 ^ N.of_nat n)%N -> (y < 2 ^ N.of_nat n)%N -> x <> y ->
  exists k, 1 <= k <= n /\ (x / 2 ^ N.of_nat k = y / 2 ^ N.of_nat k)%N /\
    (x / 2 ^ N.of_nat (k - 1) <> y / 2 ^ N.of_nat (k - 1))%N /\
    prefixOf x y n = Ok (x mod 2 ^ N.of_nat k)%N).
Proof. exact prefixOf_narrow_refuted. Qed.
Print Assumptions C43_narrow_refuted.

Example C43_example : prefixOf 181 172 64 = Ok 21%N /\ (181 / 2 ^ 5 = 172 / 2 ^ 5 /\ 181 / 2 ^ 4 <> 172 / 2 ^ 4)%N.
Proof. split; [reflexivity|]. split; [reflexivity|discriminate]. Qed.

(** C46.  The sum over a list that does not start at zero is defined: each suffix
    is positive, and the sum is that of the code lengths. *)
Theorem C46_suffix_sizes_partial : forall x v, (0 < x)%N -> increasing (x :: v) -> below (2 ^ 48) (x :: v) ->
  exists sp, pom_list (x :: v) = Ok (x :: sp, (sumN (map (fun y => 2 * N.log2 y + 1) (x :: sp)))%N) /\
    Forall2 (fun yz r => prefixOf (snd yz) (fst yz) 64 = Ok r) (combine (x :: v) v) sp.
Proof. exact pom_list_spec. Qed.
Print Assumptions C46_suffix_sizes_partial.

(** A list that starts at zero takes the logarithm of zero. *)
Theorem C46_zero_fails : forall v, pom_list (0%N :: v) = UB BadCast.
Proof. reflexivity. Qed.
Print Assumptions C46_zero_fails.

Example C46_example :
  let v := [5; 7; 12]%N in (increasing v /\ below (2 ^ 48) v) /\ pom_list v = Ok ([5; 3; 12], 5 + 3 + 7)%N.
Proof. cbv zeta. split; [sets_ok|]. reflexivity. Qed.
