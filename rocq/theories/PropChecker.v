(** Properties C63, C64: the project's own checking programs. *)

From Verif Require Import Base FlatTrie LevelTrie FastTrie ParallelFor Intersection Tries Serialize
  Tools Spec SpecTries SpecOrder SpecFiles SpecTools SerializeThms InterRefute ParForThms ToolsThms FastToolsThms
  Reference ReferenceFacts Checker SpecChecker KeepThms CheckerThms CheckerFast EncodeCheck.

(** C63.  "The intersection checker accepts a collection and a query log exactly if every answer of
    at most 16 ids is right; otherwise it names the first wrong one."  Holds for a collection made
    by the build tool, ids of lists and queries with at least one id; plain tries are always
    accepted. *)
Theorem C63_checker_partial :
  forall fm min_size max_size rank_type block runs levelwise one u lists hc sched sort queries,
  formats_ok fm -> collection_ok one u lists -> (2 <= u)%N ->
  loadable_options rank_type block levelwise ->
  Forall (stored_ok u (built_variant rank_type levelwise) runs) (kept_lists min_size max_size lists) ->
  (1 <= hc < 2 ^ 16)%N -> (3 <= u \/ hc <= 3)%N ->
  (forall nq, valid_scheduler (fst (sched nq)) /\ valid_scheduler (snd (sched nq))) -> valid_sort sort ->
  queries <> [] -> Forall (query_ok (kept_lists min_size max_size lists)) queries ->
  exists file v,
    build_tries fm min_size max_size rank_type block runs levelwise (collection_file one u lists) = Ok file /\
    check_collection fm sched hc sort file queries = Ok v /\
    verdict (fun k q => exists r,
      (let* ts := each_ok (bin_make u (built_variant rank_type levelwise) runs)
                          (lists_at (kept_lists min_size max_size lists) q) in
       Intersect Bin (fst (sched k)) (snd (sched k)) hc (map bin_ops ts) runs true) = Ok r /\
      is_intersection (lists_at (kept_lists min_size max_size lists) q) r) queries v /\
    (runs = false -> v = (false, length (short_queries queries))).
Proof. exact checker_verdict. Qed.
Print Assumptions C63_checker_partial.

(** An id that is no list: a null pointer is used. *)
Theorem C63_unknown_id_refuted :
  forall fm min_size max_size rank_type block runs levelwise one u lists hc sched sort q queries,
  formats_ok fm -> collection_ok one u lists -> (2 <= u)%N ->
  loadable_options rank_type block levelwise ->
  Forall (stored_ok u (built_variant rank_type levelwise) runs) (kept_lists min_size max_size lists) ->
  Exists (fun i => (N.of_nat (length (kept_lists min_size max_size lists)) <= i)%N) q ->
  exists file,
    build_tries fm min_size max_size rank_type block runs levelwise (collection_file one u lists) = Ok file /\
    check_collection fm sched hc sort file (q :: queries) = UB NullDeref.
Proof. exact checker_unknown_id. Qed.
Print Assumptions C63_unknown_id_refuted.

(** No ids at all, or a first query without ids: a read out of bounds. *)
Theorem C63_no_ids_refuted :
  forall fm min_size max_size rank_type block runs levelwise one u lists hc sched sort queries,
  formats_ok fm -> collection_ok one u lists -> (2 <= u)%N ->
  loadable_options rank_type block levelwise ->
  Forall (stored_ok u (built_variant rank_type levelwise) runs) (kept_lists min_size max_size lists) ->
  kept_lists min_size max_size lists <> [] -> queries <> [] ->
  (concat queries = [] \/ hd [] queries = []) ->
  exists file,
    build_tries fm min_size max_size rank_type block runs levelwise (collection_file one u lists) = Ok file /\
    check_collection fm sched hc sort file queries = UB OutOfBounds.
Proof. exact checker_no_ids. Qed.
Print Assumptions C63_no_ids_refuted.

(** The checker for fast tries is right about files without the two bytes of the word size, of
    tries with words of 64 bits. *)
Theorem C63_fast_checker_partial :
  forall fm junk min_size max_size rank_type runs levelwise one u lists blank hc sched sort queries,
  formats_ok fm -> collection_ok one u lists -> fast_universe u 6 ->
  (rank_type < 2 ^ 32)%N -> rank_type <> 1%N ->
  junk_ok junk -> blank_ok blank -> Forall (fast_ok u) (kept_lists min_size max_size lists) ->
  (runs = true -> forall i, j_empty (junk i) = Some false) ->
  (1 <= hc < 2 ^ 16)%N -> (64 < u \/ hc = 1)%N ->
  (forall nq, valid_scheduler (fst (sched nq)) /\ valid_scheduler (snd (sched nq))) -> valid_sort sort ->
  queries <> [] -> Forall (query_ok (kept_lists min_size max_size lists)) queries ->
  exists file v,
    build_fast_tries fm junk min_size max_size rank_type runs levelwise 6 (collection_file one u lists)
      = Ok file /\
    check_fast_collection fm (blank 6) sched hc sort (without_word_size file) queries = Ok v /\
    verdict (fun k q => exists r,
      (let* ts := each_ok (fun i => fast_make u 6 (j_hwr (junk (N.to_nat i))) (j_empty (junk (N.to_nat i))) runs
                                      (nth (N.to_nat i) (kept_lists min_size max_size lists) [])) q in
       Intersect (Fast 6) (fst (sched k)) (snd (sched k)) hc (map fast_ops ts) runs true) = Ok r /\
      is_intersection (lists_at (kept_lists min_size max_size lists) q) r) queries v /\
    (runs = false -> v = (false, length (short_queries queries))).
Proof. exact fast_checker_verdict. Qed.
Print Assumptions C63_fast_checker_partial.

(** The files that the build tool writes have these two bytes.  The checker takes the word size for
    the low half of the number of tries, and so on. *)
Theorem C63_fast_header_refuted :
  forall fm junk min_size max_size rank_type runs levelwise lw one u lists,
  formats_ok fm -> collection_ok one u lists -> fast_universe u lw ->
  (rank_type < 2 ^ 32)%N -> rank_type <> 1%N ->
  junk_ok junk -> Forall (fast_ok u) (kept_lists min_size max_size lists) ->
  let n := N.of_nat (length (kept_lists min_size max_size lists)) in
  exists file rest,
    build_fast_tries fm junk min_size max_size rank_type runs levelwise lw (collection_file one u lists)
      = Ok file /\
    check_fast_header file
    = Ok (rank_type, Some runs, wbits lw + 65536 * (n mod 65536), n / 65536 + 65536 * (one mod 65536),
          one / 65536 + 65536 * (u mod 65536), rest)%N.
Proof. exact fast_checker_misreads. Qed.
Print Assumptions C63_fast_header_refuted.

Definition no_junk (i : nat) : fast_junk := mkJunk None (Some false) 77 0.
Definition blank (lw : nat) : fast := fast_default lw 0 0 None false None.

(** Plain tries are accepted; with run encoding a wrong answer is found; an unknown id and a query
    without ids break the checker; so do files of fast tries, unless the word size is cut out. *)
Example C63_example :
  let lists := [[0; 1; 2; 3; 4; 5; 6; 7; 9; 12]; [3; 5; 6; 7; 12]]%N in
  let s := fun _ : nat => (in_order, backwards) in
  let check runs queries :=
    let* file := build_tries plain_formats 0 100 0 512 runs true (collection_file 1 16 lists) in
    check_collection plain_formats s 4 size_sort file queries in
  let ffile := build_fast_tries plain_formats no_junk 0 100 0 false false 6 (collection_file 1 100 lists) in
  (formats_ok plain_formats /\ collection_ok 1 16 lists /\ loadable_options 0 512 true /\
   Forall (stored_ok 16 (built_variant 0 true) true) (kept_lists 0 100 lists) /\
   valid_sort size_sort /\ Forall (query_ok (kept_lists 0 100 lists)) [[1]; [0; 1]; [0]]%N /\
   (forall nq, valid_scheduler (fst (s nq)) /\ valid_scheduler (snd (s nq)))) /\
  (fast_universe 100 6 /\ junk_ok no_junk /\ blank_ok blank /\ Forall (fast_ok 100) (kept_lists 0 100 lists)) /\
  check false [[1]; [0; 1]; repeat 0 17; [0]]%N = Ok (false, 3) /\
  check true [[1]; [0; 1]; [0]]%N = Ok (true, 1) /\
  check false [[1; 2]]%N = UB NullDeref /\
  check false [[]; [1]]%N = UB OutOfBounds /\
  (let* file := ffile in
   check_fast_collection plain_formats (blank 6) s 4 size_sort (without_word_size file) [[1]; [0; 1]]%N)
    = Ok (false, 2) /\
  (let* file := ffile in let* (r, a, n, one, u, _) := check_fast_header file in Ok (n, one, u))
    = Ok (64 + 65536 * 2, 65536, 65536 * 100)%N.
Proof.
  cbv zeta. split; [|split].
  - split; [apply plain_formats_ok|].
    split; [split; [reflexivity|split; [reflexivity|split; [reflexivity|split; repeat constructor]]]|].
    split; [split; [reflexivity|split; [reflexivity|discriminate]]|].
    split; [constructor; [|constructor; [|constructor]]; sets_ok|].
    split; [apply size_sort_valid|].
    split; [repeat (constructor; [split; [discriminate|repeat constructor]|]); constructor|].
    intros. split; [apply in_order_valid|apply backwards_valid].
  - split; [split; [cbn; auto|split; [reflexivity|discriminate]]|].
    split; [intros i; split; [intros h E; discriminate|split; reflexivity]|].
    split; [intros lw; split; reflexivity|].
    constructor; [|constructor; [|constructor]]; sets_ok.
  - repeat split; vm_compute; reflexivity.
Qed.

(** C64.  "The encoding checker reports exactly the lists that are not sets within the universe, and
    no others."  Holds, with the universe rounded up to a power of two, of lists longer than the
    minimum taken modulo 2^32, for plain tries and level-wise ones, and for run-encoded flat tries of lists
    that keep a set with a mixed block. *)
Theorem C64_encoding_checker_partial :
  forall (min_size rank : N) (runs levelwise : bool) (one u : N) (lists : list (list N)),
  collection_ok one u lists -> (if levelwise then 2 <= u else 3 <= u)%N ->
  let judged := longer_than (min_size mod 2 ^ 32) lists in
  (runs = true -> levelwise = false -> forall l, In l judged ->
     exists r, kept_set 1 (rounded u) l r /\ mixed_block r) ->
  exists bad,
    verify_encode min_size rank runs levelwise (collection_file one u lists)
      = Ok (bad, length judged, total_values judged) /\
    reports (fun l => increasing l /\ below (rounded u) l) judged bad.
Proof. exact encode_reports. Qed.
Print Assumptions C64_encoding_checker_partial.

(** A run-encoded flat trie of any other list ends the checker. *)
Theorem C64_flat_runs_refuted : forall (min_size rank one u : N) (lists : list (list N)) (l r : list N),
  collection_ok one u lists -> (3 <= u)%N ->
  In l (longer_than (min_size mod 2 ^ 32) lists) -> kept_set 1 (rounded u) l r -> ~ mixed_block r ->
  verify_encode min_size rank true false (collection_file one u lists) = UB OutOfBounds.
Proof. exact encode_stops. Qed.
Print Assumptions C64_flat_runs_refuted.

(** "The rank chooses the class that is checked."  False: all that matters is whether it is 0, so
    the classes with the rank structures of rank 2 are never checked. *)
Theorem C64_rank_refuted : forall min_size rank rank' runs levelwise input,
  (rank =? 0)%N = (rank' =? 0)%N ->
  verify_encode min_size rank runs levelwise input = verify_encode min_size rank' runs levelwise input.
Proof. exact encode_rank. Qed.
Print Assumptions C64_rank_refuted.

(** Fast tries: the same, where with rank 0 a list that is reported must keep at least ten
    values. *)
Theorem C64_fast_encoding_checker_partial :
  forall (junk : nat -> fast_junk) (min_size rank : N) (runs : bool) (lw : nat) (one u : N) (lists : list (list N)),
  collection_ok one u lists -> fast_universe u lw ->
  (forall i, u16_member (j_hwr (junk i))) ->
  (runs = true -> forall i, j_empty (junk i) = Some false) ->
  let judged := longer_than (min_size mod 2 ^ 32) lists in
  (rank = 0%N -> forall l, In l judged ->
     (increasing l /\ below (rounded u) l) \/
     exists r, kept_set (2 ^ N.of_nat lw) (rounded u) l r /\ 10 <= length r) ->
  exists bad,
    verify_fast junk min_size rank runs lw (collection_file one u lists)
      = Ok (bad, length judged, total_values judged) /\
    reports (fun l => increasing l /\ below (rounded u) l) judged bad.
Proof. exact fast_encode_reports. Qed.
Print Assumptions C64_fast_encoding_checker_partial.

(** Otherwise the report prints values that are not there. *)
Theorem C64_fast_ten_refuted :
  forall (junk : nat -> fast_junk) (min_size : N) (runs : bool) (lw : nat) (one u : N) (lists : list (list N)) l r,
  collection_ok one u lists -> fast_universe u lw ->
  (forall i, u16_member (j_hwr (junk i))) ->
  (runs = true -> forall i, j_empty (junk i) = Some false) ->
  In l (longer_than (min_size mod 2 ^ 32) lists) -> ~ (increasing l /\ below (rounded u) l) ->
  kept_set (2 ^ N.of_nat lw) (rounded u) l r -> length r < 10 ->
  verify_fast junk min_size 0 runs lw (collection_file one u lists) = UB OutOfBounds.
Proof. exact fast_encode_stops. Qed.
Print Assumptions C64_fast_ten_refuted.

(** With run encoding, the member that no constructor sets decides: undefined, or every list is
    reported although it is stored right. *)
Theorem C64_fast_runs_refuted :
  forall (junk : nat -> fast_junk) (min_size rank : N) (lw : nat) (one u : N) (lists : list (list N)),
  collection_ok one u lists -> fast_universe u lw ->
  let judged := longer_than (min_size mod 2 ^ 32) lists in
  (judged <> [] -> j_empty (junk 0) = None ->
   verify_fast junk min_size rank true lw (collection_file one u lists) = UB Indeterminate) /\
  (rank <> 0%N -> (forall i, j_empty (junk i) = Some true) ->
   exists bad,
     verify_fast junk min_size rank true lw (collection_file one u lists)
       = Ok (bad, length judged, total_values judged) /\
     reports (fun _ => False) judged bad).
Proof.
  exact (fun junk m rank lw one u lists C U =>
           conj (fast_encode_indeterminate junk m rank lw one u lists C U)
                (fast_encode_rejects junk m rank lw one u lists C U)).
Qed.
Print Assumptions C64_fast_runs_refuted.

(** Judged: the lists 0, 2, 3 and 4 of five.  The second of these is not sorted, the third goes beyond
    the rounded universe of 16, the last beyond the universe of 13 only. *)
Example C64_example :
  let lists := [[0; 1; 2; 3; 9]; [5]; [5; 2; 7]; [1; 2; 16]; [1; 14]]%N in
  let f := collection_file 1 13 lists in
  let junk e (i : nat) := mkJunk None e 77 0 in
  (collection_ok 1 13 lists /\ fast_universe 13 3 /\
   longer_than ((2 ^ 32 + 1) mod 2 ^ 32) lists = [[0; 1; 2; 3; 9]; [5; 2; 7]; [1; 2; 16]; [1; 14]]%N /\
   kept_set 1 (rounded 13) [5; 2; 7]%N [5; 6; 7]%N /\ mixed_block [5; 6; 7]%N) /\
  verify_encode (2 ^ 32 + 1) 0 false false f = Ok ([1; 2], 4, 13%N) /\
  verify_encode 1 2 false true f = Ok ([1; 2], 4, 13%N) /\
  verify_encode 1 1 true true f = Ok ([1; 2], 4, 13%N) /\
  verify_encode 1 1 true false f = Ok ([1; 2], 4, 13%N) /\
  verify_encode 2 0 true false (collection_file 1 16 [[1; 2; 3]; [4; 5; 6; 7]]%N) = UB OutOfBounds /\
  verify_fast (junk None) 1 2 false 3 f = Ok ([1; 2], 4, 13%N) /\
  verify_fast (junk None) 1 0 false 3 f = UB OutOfBounds /\
  verify_fast (junk None) 1 2 true 3 f = UB Indeterminate /\
  verify_fast (junk (Some true)) 1 2 true 3 f = Ok ([0; 1; 2; 3], 4, 13%N) /\
  verify_fast (junk (Some false)) 1 2 true 3 f = Ok ([1; 2], 4, 13%N).
Proof.
  cbv zeta. split; [|repeat split; vm_compute; reflexivity].
  split; [split; [reflexivity|split; [reflexivity|split; [reflexivity|split; repeat constructor]]]|].
  split; [split; [cbn; auto|split; [reflexivity|discriminate]]|].
  split; [reflexivity|]. split.
  - exists [5; 6; 7]%N. split; [exact kept_example|]. split; [repeat constructor|tauto].
  - exists 5%N, 4%N. cbn. intuition discriminate.
Qed.
