(** Property C90, and C68 for the average that the build tools print. *)

From Coq Require Import QArith Qabs String.
From Verif Require Import Base FlatTrie LevelTrie FastTrie Tries Serialize Tools Spec SpecTries SpecFiles SpecTools ToolsThms
  Text Report SpecReport Stats SpecText Average SpecAverage AverageThms AverageText AverageTools.

(** C90.  "An average that a tool prints is the quotient of the totals that it has counted, to six
    parts in a million."  The build tools: *)
Theorem C90_build : forall r, (0 < r_ints r)%N -> (8 * r_size r < 2 ^ 64)%N ->
  exists text, report_bpi r = Ok text /\ prints_average (8 * r_size r) (r_ints r) text.
Proof. exact report_average. Qed.
Print Assumptions C90_build.

(** measures: *)
Theorem C90_measures : forall m, (0 < m_ints m)%N ->
  exists texts, measured_bpi m = Ok texts /\
    Forall2 (fun a => prints_average a (m_ints m)) [m_gap m; m_rle m; m_trie m; m_trie_run m] texts.
Proof. exact measured_averages. Qed.
Print Assumptions C90_measures.

(** classic_coders and cbv_coding, whose totals are bytes: *)
Theorem C90_coders : forall t, (0 < t_ints t)%N ->
  exists texts, coded_bpi t = Ok texts /\ Forall2 (fun a => prints_average (8 * a) (t_ints t)) (t_cols t) texts.
Proof. exact coded_averages. Qed.
Print Assumptions C90_coders.

(** pom, the last of whose totals are bits: *)
Theorem C90_pom : forall t ed eg fib theory, (0 < t_ints t)%N -> t_cols t = [ed; eg; fib; theory] ->
  Forall (fun a => 8 * a < 2 ^ 64)%N [ed; eg; fib] ->
  exists texts, pom_bpi t = Ok texts /\
    Forall2 (fun a => prints_average a (t_ints t)) [8 * ed; 8 * eg; 8 * fib; theory]%N texts.
Proof. exact pom_averages. Qed.
Print Assumptions C90_pom.

(** If nothing was counted no number is printed. *)
Theorem C90_none : forall a r, r_ints r = 0%N -> report_bpi r = Ok None /\ average 53 a 0 = Ok None.
Proof. exact no_average. Qed.
Print Assumptions C90_none.

(** A text denotes one number. *)
Theorem C90_text : forall w x y, denotes w x -> denotes w y -> x = y.
Proof. exact denotes_one. Qed.
Print Assumptions C90_text.

(** Conversions and divisions round as IEEE 754 says, and quotients stay in the range of float. *)
Theorem C90_rounding : forall p n d, (1 <= p)%N -> (0 < n)%N -> (0 < d)%N ->
  nearest p (of_N n / of_N d) (fst (to_float p n d)) (snd (to_float p n d)).
Proof. exact to_float_nearest. Qed.
Print Assumptions C90_rounding.

Theorem C90_range : forall p a b, (24 <= p)%N -> (0 < a < 2 ^ 64)%N -> (0 < b < 2 ^ 64)%N ->
  exists m e, float_div p (float_of p a) (float_of p b) = Finite (m, e) /\
    (2 ^ (-(126)) <= of_N m * 2 ^ e /\ of_N m * 2 ^ e < 2 ^ 128)%Q.
Proof. exact quotient_range. Qed.
Print Assumptions C90_range.

(** C68.  The average printed is that of the bytes stored less two for each list, for fast tries
    that of the bytes stored and 14 more. *)
Theorem C68_bpi_partial : forall fm min_size max_size rank_type block runs levelwise one u lists file,
  collection_ok one u lists ->
  build_tries fm min_size max_size rank_type block runs levelwise (collection_file one u lists) = Ok file ->
  (8 * N.of_nat (length file) < 2 ^ 64)%N ->
  let kept := kept_lists min_size max_size lists in
  (0 < all_values kept)%N ->
  exists r text bytes,
    report_tries fm min_size max_size rank_type block runs levelwise true (collection_file one u lists) = Ok (file, r) /\
    report_bpi r = Ok text /\ (header_bytes rank_type + bytes = N.of_nat (length file))%N /\
    (2 * N.of_nat (length kept) <= bytes)%N /\
    prints_average (8 * (bytes - 2 * N.of_nat (length kept))) (all_values kept) text.
Proof. exact tries_average. Qed.
Print Assumptions C68_bpi_partial.

Theorem C68_fast_bpi_partial : forall fm junk min_size max_size rank_type runs levelwise lw one u lists file,
  collection_ok one u lists ->
  build_fast_tries fm junk min_size max_size rank_type runs levelwise lw (collection_file one u lists) = Ok file ->
  let kept := kept_lists min_size max_size lists in
  (8 * (N.of_nat (length file) + 14 * N.of_nat (length kept)) < 2 ^ 64)%N ->
  (0 < all_values kept)%N ->
  exists r text bytes,
    report_fast_tries fm junk min_size max_size rank_type runs levelwise lw true (collection_file one u lists) = Ok (file, r) /\
    report_bpi r = Ok text /\ (fast_header_bytes + bytes = N.of_nat (length file))%N /\
    prints_average (8 * (bytes + 14 * N.of_nat (length kept))) (all_values kept) text.
Proof. exact fast_tries_average. Qed.
Print Assumptions C68_fast_bpi_partial.

(** So it is wrong for every collection whose tries have fewer than 166666 bytes on average. *)
Theorem C68_bpi_refuted : forall fm min_size max_size rank_type block runs levelwise one u lists file bytes r text,
  collection_ok one u lists ->
  build_tries fm min_size max_size rank_type block runs levelwise (collection_file one u lists) = Ok file ->
  (8 * N.of_nat (length file) < 2 ^ 64)%N ->
  let kept := kept_lists min_size max_size lists in
  (0 < all_values kept)%N -> (header_bytes rank_type + bytes = N.of_nat (length file))%N ->
  (6 * bytes < 1000000 * N.of_nat (length kept))%N ->
  report_tries fm min_size max_size rank_type block runs levelwise true (collection_file one u lists) = Ok (file, r) ->
  report_bpi r = Ok text -> ~ prints_average (8 * bytes) (all_values kept) text.
Proof. exact tries_average_wrong. Qed.
Print Assumptions C68_bpi_refuted.

Example C90_example :
  report_bpi (mkReport 13 2 57 9) = Ok (Some (txt "50.6667")) /\
  measured_bpi (mkMeasured 7 2 40 35 50 1) = Ok (map Some [txt "5.71429"; txt "5"; txt "7.14286"; txt "0.142857"]) /\
  coded_bpi (mkTotals 3 1 [1000; 0; 1000000]%N) = Ok (map Some [txt "2666.67"; txt "0"; txt "2.66667e+06"]) /\
  pom_bpi (mkTotals 80000 1 [3; 16; 20000; 2]%N) = Ok (map Some [txt "0.0003"; txt "0.0016"; txt "2"; txt "2.5e-05"]) /\
  exists x, denotes (txt "2.5e-05") x /\ (x == 25 # 1000000)%Q.
Proof.
  split; [vm_compute; reflexivity|]. split; [vm_compute; reflexivity|]. split; [vm_compute; reflexivity|].
  split; [vm_compute; reflexivity|]. eexists. split.
  - apply (denotes_small (txt "2") (txt "5") (txt "05")); repeat constructor; discriminate.
  - vm_compute. reflexivity.
Qed.

Example C90_rounding_example :
  to_float 24 1 3 = (11184811%N, (-25)%Z) /\ to_float 24 16777217 1 = (8388608%N, 1%Z) /\
  to_float 24 16777219 1 = (8388610%N, 1%Z).
Proof. repeat split. Qed.

(** Three lists, of which two are kept. *)
Definition average_lists : list (list N) := [[1; 4; 9; 12]; [5; 6]; [3; 4; 5; 9; 10]]%N.

Example C68_bpi_example :
  collection_ok 1 13 average_lists /\ (0 < all_values (kept_lists 2 100 average_lists))%N /\
  exists file r,
    build_tries plain_formats 2 100 0 512 false false (collection_file 1 13 average_lists) = Ok file /\
    (8 * N.of_nat (length file) < 2 ^ 64)%N /\
    (6 * (N.of_nat (length file) - 18) < 1000000 * N.of_nat (length (kept_lists 2 100 average_lists)))%N /\
    report_tries plain_formats 2 100 0 512 false false true (collection_file 1 13 average_lists) = Ok (file, r) /\
    report_bpi r = Ok (Some (txt "78.2222")).
Proof.
  split; [split; [reflexivity|split; [reflexivity|split; [reflexivity|split; repeat constructor]]]|].
  split; [reflexivity|].
  do 2 eexists. split; [vm_compute; reflexivity|]. split; [reflexivity|]. split; [reflexivity|].
  split; vm_compute; reflexivity.
Qed.
