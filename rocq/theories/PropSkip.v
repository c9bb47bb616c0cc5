(** Property C99: the file written by a build tool announces as many sets as it holds, whatever
    the lengths of the lists. *)

From Verif Require Import Base FlatTrie LevelTrie FastTrie ParallelFor Intersection Tries Serialize
  Tools Cut Spec SpecTries SpecFiles SpecTools SpecSkip SerializeThms InterRefute ParForThms ToolsFacts
  ToolsThms FastToolsThms CutThms SkipThms.

(** Full claim: the number announced is the number of lists kept.  The first pass over the
    collection goes on after a list of n values at n mod 2^30 numbers from its beginning, and so
    does the second after a list that is not kept: with lists of 2^30 values or more they take
    values for lengths.  The file, exactly: for every collection. *)
Theorem C99_file_partial : forall fm min_size max_size rank_type block runs levelwise one u lists met file,
  fitting_collection one u lists -> lengths_met (words lists) met ->
  build_tries fm min_size max_size rank_type block runs levelwise (collection_file one u lists) = Ok file ->
  exists stored ts records, lists_read min_size max_size (words lists) stored /\
    each_ok (bin_make u (built_variant rank_type levelwise) runs) stored = Ok ts /\
    Forall2 (fun t r => exists n, bin_serialize (built_codecs fm rank_type block) t = Ok (r, n)) ts records /\
    file = le_bytes 4 rank_type ++ (if N.eqb rank_type 1 then le_bytes 4 block else []) ++ [bool_byte runs]
           ++ [bool_byte levelwise]
           ++ le_bytes 4 (N.of_nat (length (in_range min_size max_size met)) mod 2 ^ 32)
           ++ le_bytes 4 one ++ le_bytes 4 u ++ concat records.
Proof. exact long_files. Qed.
Print Assumptions C99_file_partial.

Theorem C99_fast_file_partial :
  forall fm junk min_size max_size rank_type runs levelwise lw one u lists met file,
  fitting_collection one u lists -> lengths_met (words lists) met ->
  build_fast_tries fm junk min_size max_size rank_type runs levelwise lw (collection_file one u lists) = Ok file ->
  exists stored records, lists_read min_size max_size (words lists) stored /\ length records = length stored /\
    (forall i l r, nth_error stored i = Some l -> nth_error records i = Some r ->
       exists t, fast_make u lw (j_hwr (junk i)) (j_empty (junk i)) runs l = Ok t /\
         r = fst (fast_serialize (fast_codecs fm rank_type) (j_hwr_bytes (junk i)) (j_empty_byte (junk i)) t)) /\
    file = le_bytes 4 rank_type ++ [bool_byte runs] ++ [bool_byte levelwise] ++ le_bytes 2 (wbits lw)
           ++ le_bytes 4 (N.of_nat (length (in_range min_size max_size met)) mod 2 ^ 32)
           ++ le_bytes 4 one ++ le_bytes 4 u ++ concat records.
Proof. exact long_fast_files. Qed.
Print Assumptions C99_fast_file_partial.

(** The lists stored are the lists kept when those that are not kept have fewer than 2^30
    values. *)
Theorem C99_stored_lists : forall min_size max_size one u lists stored,
  long_collection_ok min_size max_size one u lists ->
  (lists_read min_size max_size (words lists) stored <-> stored = kept_lists min_size max_size lists).
Proof. exact long_read. Qed.
Print Assumptions C99_stored_lists.

(** Every sequence of numbers has such lengths, and with lists shorter than 2^30 they are the
    lengths of the lists. *)
Theorem C99_lengths : forall ws, exists met, lengths_met ws met.
Proof. exact met_exists. Qed.
Print Assumptions C99_lengths.

Theorem C99_short_lists : forall lists met, Forall (shorter 30) lists ->
  (lengths_met (words lists) met <-> met = map (fun l => N.of_nat (length l)) lists).
Proof. exact met_short. Qed.
Print Assumptions C99_short_lists.

(** What the query tool loads: the first tries, as many as announced; if more are announced than
    stored, it uses variables that were never set. *)
Theorem C99_load_partial : forall fm k min_size max_size rank_type block runs levelwise one u lists met stored,
  formats_ok fm -> fitting_collection one u lists -> (2 <= u)%N ->
  loadable_options rank_type block levelwise ->
  Forall (stored_ok u (built_variant rank_type levelwise) runs) stored ->
  lengths_met (words lists) met -> lists_read min_size max_size (words lists) stored ->
  exists file ts,
    build_tries fm min_size max_size rank_type block runs levelwise (collection_file one u lists) = Ok file /\
    each_ok (bin_make u (built_variant rank_type levelwise) runs) stored = Ok ts /\
    load_collection_cut fm k file
    = (let n := (N.of_nat (length (in_range min_size max_size met)) mod 2 ^ 32)%N in
       if N.leb n (N.of_nat (length stored))
       then Ok (runs, firstn (N.to_nat n) ts)
       else UB Indeterminate).
Proof. exact long_load. Qed.
Print Assumptions C99_load_partial.

(** The fast query tool stops reading at the last trie asked for.  Its answers are exact if the
    ids are below both the number stored and the number announced. *)
Theorem C99_fast_queries_partial :
  forall fm junk min_size max_size rank_type runs levelwise lw one u lists met stored blank hc parallel sched queries,
  formats_ok fm -> fitting_collection one u lists -> fast_universe u lw ->
  (rank_type < 2 ^ 32)%N -> rank_type <> 1%N -> junk_ok junk -> blank_ok blank ->
  lengths_met (words lists) met -> lists_read min_size max_size (words lists) stored ->
  Forall (fast_ok u) stored -> fast_exact_mode u lw runs parallel hc sched stored ->
  queries <> [] -> Forall (query_ok stored) queries ->
  Forall (Forall (fun i => (i < N.of_nat (length (in_range min_size max_size met)) mod 2 ^ 32)%N)) queries ->
  exists file rs,
    build_fast_tries fm junk min_size max_size rank_type runs levelwise lw (collection_file one u lists) = Ok file /\
    fast_query_log fm blank sched hc parallel file queries = Ok rs /\
    Forall2 (answers stored) queries rs.
Proof. exact read_fast_queries. Qed.
Print Assumptions C99_fast_queries_partial.

(** If fewer are announced than stored, a query that asks for an id not announced uses a null
    pointer, also when the trie is in the file. *)
Theorem C99_fast_unannounced_refuted :
  forall fm junk min_size max_size rank_type runs levelwise lw one u lists met stored blank hc parallel sched q i,
  formats_ok fm -> fitting_collection one u lists -> fast_universe u lw ->
  (rank_type < 2 ^ 32)%N -> rank_type <> 1%N -> junk_ok junk -> blank_ok blank ->
  lengths_met (words lists) met -> lists_read min_size max_size (words lists) stored ->
  Forall (fast_ok u) stored ->
  let n := (N.of_nat (length (in_range min_size max_size met)) mod 2 ^ 32)%N in
  (n <= N.of_nat (length stored))%N -> length q <= 16 -> In i q -> (n <= i)%N ->
  exists file,
    build_fast_tries fm junk min_size max_size rank_type runs levelwise lw (collection_file one u lists) = Ok file /\
    fast_query_log fm blank sched hc parallel file [q] = UB NullDeref.
Proof. exact read_fast_missing. Qed.
Print Assumptions C99_fast_unannounced_refuted.

(** A collection of one list, all values below 2^30: the file announces 31 sets, and the query
    tool cannot load it. *)
Theorem C99_too_many_refuted :
  let r := run_from 0 (N.to_nat (2 ^ 30)) in
  forall fm k max_size rank_type block levelwise one,
  formats_ok fm -> loadable_options rank_type block levelwise -> (one < 2 ^ 32)%N -> (2 ^ 30 <= max_size)%N ->
  long_collection_ok 0 max_size one (2 ^ 30) [r] /\
  Forall (stored_ok (2 ^ 30) (built_variant rank_type levelwise) false) [r] /\
  exists file t rest,
    bin_make (2 ^ 30) (built_variant rank_type levelwise) false r = Ok t /\
    build_tries fm 0 max_size rank_type block false levelwise (collection_file one (2 ^ 30) [r]) = Ok file /\
    file = le_bytes 4 rank_type ++ (if N.eqb rank_type 1 then le_bytes 4 block else []) ++ [0]%N
           ++ [bool_byte levelwise] ++ le_bytes 4 31 ++ rest /\
    load_collection_cut fm k file = UB Indeterminate.
Proof. exact (run_miscounted _ (run_is_run 0 eq_refl)). Qed.
Print Assumptions C99_too_many_refuted.

Theorem C99_fast_too_many_refuted :
  let r := run_from 0 (N.to_nat (2 ^ 30)) in
  forall fm junk max_size rank_type levelwise lw one,
  junk_ok junk -> In lw [3; 4; 5; 6] -> (one < 2 ^ 32)%N -> (2 ^ 30 <= max_size)%N ->
  long_collection_ok 0 max_size one (2 ^ 30) [r] /\ Forall (fast_ok (2 ^ 30)) [r] /\
  exists file record,
    build_fast_tries fm junk 0 max_size rank_type false levelwise lw (collection_file one (2 ^ 30) [r]) = Ok file /\
    file = le_bytes 4 rank_type ++ [0]%N ++ [bool_byte levelwise] ++ le_bytes 2 (wbits lw) ++ le_bytes 4 31
           ++ le_bytes 4 one ++ le_bytes 4 (2 ^ 30) ++ record.
Proof. exact (run_miscounted_fast _ (run_is_run 0 eq_refl)). Qed.
Print Assumptions C99_fast_too_many_refuted.

(** The fast query tool answers from that file all the same. *)
Theorem C99_fast_too_many_answered :
  let r := run_from 0 (N.to_nat (2 ^ 30)) in
  forall fm junk max_size rank_type levelwise lw one blank hc sched queries,
  formats_ok fm -> In lw [3; 4; 5; 6] -> (rank_type < 2 ^ 32)%N -> rank_type <> 1%N -> junk_ok junk ->
  blank_ok blank -> (one < 2 ^ 32)%N -> (2 ^ 30 <= max_size)%N -> (1 <= hc)%N ->
  queries <> [] -> Forall (fun q => q <> [] /\ Forall (eq 0%N) q) queries ->
  exists file rs,
    build_fast_tries fm junk 0 max_size rank_type false levelwise lw (collection_file one (2 ^ 30) [r]) = Ok file /\
    fast_query_log fm blank sched hc false file queries = Ok rs /\
    Forall2 (answers [r]) queries rs.
Proof. exact (run_fast_queried _ (run_is_run 0 eq_refl)). Qed.
Print Assumptions C99_fast_too_many_answered.

(** The 2^30 values from 2^31 on, followed by any other lists of fewer than 2^30 numbers in all:
    the file announces one set, so the query tool has lost all other lists. *)
Theorem C99_too_few_refuted :
  let r := run_from (2 ^ 31) (N.to_nat (2 ^ 30)) in
  forall fm k min_size max_size rank_type block levelwise one u others,
  formats_ok fm -> loadable_options rank_type block levelwise -> (one < 2 ^ 32)%N ->
  (2 ^ 31 + 2 ^ 30 <= u < 2 ^ 32)%N -> (min_size < 2 ^ 30)%N -> (2 ^ 30 <= max_size < 2 ^ 31)%N ->
  Forall (shorter 30) others -> Forall (below (2 ^ 32)) others ->
  (N.of_nat (length (words others)) < 2 ^ 30)%N ->
  Forall (stored_ok u (built_variant rank_type levelwise) false) (kept_lists min_size max_size others) ->
  long_collection_ok min_size max_size one u (r :: others) /\
  Forall (stored_ok u (built_variant rank_type levelwise) false) (kept_lists min_size max_size (r :: others)) /\
  kept_lists min_size max_size (r :: others) = r :: kept_lists min_size max_size others /\
  exists file t,
    build_tries fm min_size max_size rank_type block false levelwise (collection_file one u (r :: others)) = Ok file /\
    bin_make u (built_variant rank_type levelwise) false r = Ok t /\
    load_collection_cut fm k file = Ok (false, [t]) /\
    forall sched hc parallel q queries, Exists (fun i => (1 <= i)%N) q ->
      query_log_cut fm k sched hc parallel file (q :: queries) = UB OutOfBounds.
Proof. exact (run_loses_lists _ (run_is_run (2 ^ 31) eq_refl)). Qed.
Print Assumptions C99_too_few_refuted.

(** The fast query tool fails on each of the lists lost, although their tries are in the file. *)
Theorem C99_fast_too_few_refuted :
  let r := run_from (2 ^ 31) (N.to_nat (2 ^ 30)) in
  forall fm junk min_size max_size rank_type levelwise lw one u others,
  formats_ok fm -> In lw [3; 4; 5; 6] -> (rank_type < 2 ^ 32)%N -> rank_type <> 1%N -> junk_ok junk ->
  (one < 2 ^ 32)%N -> (2 ^ 31 + 2 ^ 30 <= u < 2 ^ 32)%N ->
  (min_size < 2 ^ 30)%N -> (2 ^ 30 <= max_size < 2 ^ 31)%N ->
  Forall (shorter 30) others -> Forall (below (2 ^ 32)) others ->
  (N.of_nat (length (words others)) < 2 ^ 30)%N ->
  Forall (fast_ok u) (kept_lists min_size max_size others) ->
  long_collection_ok min_size max_size one u (r :: others) /\
  Forall (fast_ok u) (kept_lists min_size max_size (r :: others)) /\
  kept_lists min_size max_size (r :: others) = r :: kept_lists min_size max_size others /\
  exists file,
    build_fast_tries fm junk min_size max_size rank_type false levelwise lw (collection_file one u (r :: others)) = Ok file /\
    forall blank hc parallel sched q, blank_ok blank -> length q <= 16 -> Exists (fun i => (1 <= i)%N) q ->
      fast_query_log fm blank sched hc parallel file [q] = UB NullDeref.
Proof. exact (run_fast_loses_lists _ (run_is_run (2 ^ 31) eq_refl)). Qed.
Print Assumptions C99_fast_too_few_refuted.

(** Three lists of which two are kept; a stream of numbers in which a length of 2^30 + 1 is met:
    one number is passed over and the next two are taken for lengths; the same number not kept,
    where a list is read that the collection does not hold. *)
Example C99_example :
  let lists := [[1; 2; 3]; [5]; [2; 9]]%N in
  (long_collection_ok 1 100 1 12 lists /\ formats_ok plain_formats /\ loadable_options 0 512 false /\
   Forall (stored_ok 12 (built_variant 0 false) false) (kept_lists 1 100 lists) /\
   lengths_met (words lists) [3; 1; 2]%N) /\
  (in_range 1 100 [3; 1; 2] = [3; 2])%N /\
  (let* file := build_tries plain_formats 1 100 0 512 false false (collection_file 1 12 lists) in
   let* (runs, ts) := load_collection_cut plain_formats zeros file in
   each_ok (fun t => bin_decode t []) ts) = Ok [[1; 2; 3]; [2; 9]]%N /\
  lengths_met [2 ^ 30 + 1; 7; 0; 2; 8; 9; 1; 4]%N [2 ^ 30 + 1; 0; 2; 1]%N /\
  (fitting_collection 1 12 lists /\ lists_read 1 100 (words lists) [[1; 2; 3]; [2; 9]]%N /\
   lists_read 2 9 [2 ^ 30 + 1; 7; 3; 2; 8; 9]%N [[2; 8; 9]]%N) /\
  (** C99_fast_queries_partial *)
  (Forall (fast_ok 12) [[1; 2; 3]; [2; 9]]%N /\ fast_universe 12 3 /\
   fast_exact_mode 12 3 false true 1 (fun _ _ => (in_order, backwards)) [[1; 2; 3]; [2; 9]]%N /\
   Forall (query_ok [[1; 2; 3]; [2; 9]]%N) [[1; 0]; [1]]%N) /\
  (** others in C99_too_few_refuted *)
  (Forall (shorter 30) lists /\ Forall (below (2 ^ 32)) lists /\ (N.of_nat (length (words lists)) < 2 ^ 30)%N /\
   Forall (stored_ok (2 ^ 31 + 2 ^ 30) (built_variant 0 false) false) (kept_lists 0 (2 ^ 30) lists)).
Proof. exact long_example. Qed.

(** Two tries kept, and the id of the third list. *)
Example C99_fast_unannounced_example :
  (let* file := build_fast_tries plain_formats (fun _ => mkJunk None None 0 0) 1 100 0 false false 3
                  (collection_file 1 12 [[1; 2; 3]; [5]; [2; 9]]%N) in
   fast_query_log plain_formats (fun lw => fast_default lw 0 0 None false None) (fun _ _ => (in_order, in_order)) 1
     false file [[0; 2]]%N) = UB NullDeref /\
  Forall (fast_ok (2 ^ 31 + 2 ^ 30)) (kept_lists 0 (2 ^ 30) [[1; 2; 3]; [5]; [2; 9]]%N).
Proof. exact fast_unannounced_example. Qed.
