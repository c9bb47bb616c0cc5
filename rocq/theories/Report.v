(** What the build tools print about a collection, with and without --out:
    tools/build_tries.cpp:81-190, tools/build_fastTries.cpp:77-136.

    Simplifications: the text around the numbers is left out; the division of the two totals
    is in [Average.v]; the messages of --verbose are not modelled. *)

From Verif Require Import Base FlatTrie LevelTrie FastTrie Tries Serialize Tools.

(** The numbers printed: "Universe: u", "Total inverted lists: lists| Bpi: (float)(size*8)/ints"
    and "Total ints: ints".  tools/build_tries.cpp:81, 185-186, tools/build_fastTries.cpp:77,
    132-133. *)
Record report := mkReport { r_universe : N; r_lists : N; r_size : N; r_ints : N }.

(** The second pass with its totals, which are uint64_t: tools/build_tries.cpp:83-180,
    tools/build_fastTries.cpp:79-127.  [visit i il]: the bytes written for the i-th kept
    list (none without --out), and trie_bytes_size. *)
Fixpoint report_loop (fuel : nat) (min_size max_size : N) (visit : nat -> list N -> result (list N * N))
         (input : list N) (n_il : nat) (out : list N) (total_size total_elements : N)
  : result (list N * (N * N * N)) :=
  match read_eof 4 input with
  | None => Ok (out, (N.of_nat n_il, total_size, total_elements))
  | Some (n, input') =>
    match fuel with
    | O => OutOfFuel
    | S fuel' =>
      if keep_list min_size max_size n then
        let* (il, input') := read_inv_list (N.to_nat n) input' in
        let* (bytes, trie_bytes_size) := visit n_il il in
        report_loop fuel' min_size max_size visit input' (S n_il) (out ++ bytes)
          (N.modulo (total_size + trie_bytes_size) (2 ^ 64)) (N.modulo (total_elements + n) (2 ^ 64))
      else report_loop fuel' min_size max_size visit (seek_list n input') n_il out total_size total_elements
    end
  end.

(** buildCollection: tools/build_tries.cpp:50-190, tools/build_fastTries.cpp:45-136.
    [given]: whether --out was given; then [header] comes first. *)
Definition report_file (given : bool) (min_size max_size : N) (header : list N)
           (visit : N -> nat -> list N -> result (list N * N)) (input : list N)
  : result (list N * report) :=
  let* (one, lists) := read_le 4 input in
  let* (u, lists) := read_le 4 lists in
  let* nSets := count_sets (length lists) min_size max_size lists 0 in
  let* (out, (n_il, total_size, total_elements)) :=
    report_loop (length lists) min_size max_size (visit u) lists 0
      (if given then header ++ le_bytes 4 nSets ++ le_bytes 4 one ++ le_bytes 4 u else []) 0 0 in
  Ok (out, mkReport u n_il total_size total_elements).

(** tools/build_tries.cpp:94-168. *)
Definition report_tries (fm : formats) (min_size max_size rank_type block : N)
           (runs levelwise given : bool) (input : list N) : result (list N * report) :=
  report_file given min_size max_size
    (le_bytes 4 rank_type
     ++ (if N.eqb rank_type 1 then le_bytes 4 block else [])
     ++ [bool_byte runs] ++ [bool_byte levelwise])
    (fun u _ il =>
       let c := built_codecs fm rank_type block in
       let* t := bin_make u (built_variant rank_type levelwise) runs il in
       let* bytes := (if given then let* (bytes, _) := bin_serialize c t in Ok bytes else Ok []) in
       Ok (bytes, bin_size_in_bytes c t))
    input.

(** tools/build_fastTries.cpp:91-113. *)
Definition report_fast_tries (fm : formats) (junk : nat -> fast_junk) (min_size max_size rank_type : N)
           (runs levelwise : bool) (lw : nat) (given : bool) (input : list N) : result (list N * report) :=
  report_file given min_size max_size
    (le_bytes 4 rank_type ++ [bool_byte runs] ++ [bool_byte levelwise] ++ le_bytes 2 (wbits lw))
    (fun u i il =>
       let j := junk i in
       let c := fast_codecs fm rank_type in
       let* t := fast_make u lw (j_hwr j) (j_empty j) runs il in
       Ok (if given then fst (fast_serialize c (j_hwr_bytes j) (j_empty_byte j) t) else [],
           fast_size_in_bytes c t))
    input.
