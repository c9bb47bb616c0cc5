(** The build tools again, on input streams that may end anywhere:
    tools/build_tries.cpp:17-190, tools/build_fastTries.cpp:12-136.  Tools.v stops with
    [UB Unmodelled] where a read is short; here the stream keeps its eofbit and failbit
    (Stats.v), and a variable that no read has set is indeterminate. *)

From Verif Require Import Base FlatTrie LevelTrie FastTrie Tries Serialize Tools Stats.

(** The counting pass: tools/build_tries.cpp:54-66, tools/build_fastTries.cpp:49-61.
    [n] is declared in the loop. *)
Fixpoint count_sets_in (fuel : nat) (min_size max_size : N) (i : instream) (nSets : N) : result N :=
  let (n, i) := in_read4 None i in
  if in_eof i then Ok nSets
  else
    match fuel with
    | O => OutOfFuel
    | S fuel' =>
      let* n := oget n in
      let nSets := if keep_list min_size max_size n
                   then N.modulo (nSets + 1) (2 ^ 32) else nSets in
      count_sets_in fuel' min_size max_size (in_skip n i) nSets
    end.

(** read_inv_list: tools/build_tries.cpp:17-27, tools/build_fastTries.cpp:12-22.  [x] is
    declared in the loop and pushed whether or not the read set it. *)
Fixpoint read_inv_list_in (n : nat) (i : instream) : result (list N * instream) :=
  match n with
  | O => Ok ([], i)
  | S n' =>
    let (x, i) := in_read4 None i in
    let* x := oget x in
    let* (l, i) := read_inv_list_in n' i in
    Ok (x :: l, i)
  end.

(** The second pass: tools/build_tries.cpp:85-180, tools/build_fastTries.cpp:82-127. *)
Fixpoint build_loop_in (fuel : nat) (min_size max_size : N) (store : nat -> list N -> result (list N))
         (i : instream) (n_il : nat) (out : list N) : result (list N) :=
  let (n, i) := in_read4 None i in
  if in_eof i then Ok out
  else
    match fuel with
    | O => OutOfFuel
    | S fuel' =>
      let* n := oget n in
      if keep_list min_size max_size n then
        let* (il, i) := read_inv_list_in (N.to_nat n) i in
        let* bytes := store n_il il in
        build_loop_in fuel' min_size max_size store i (S n_il) (out ++ bytes)
      else build_loop_in fuel' min_size max_size store (in_skip n i) n_il out
    end.

(** buildCollection: tools/build_tries.cpp:48-190, tools/build_fastTries.cpp:45-136.
    clear() and seekg(8, beg) between the passes; u is printed. *)
Definition build_file_in (min_size max_size : N) (header : list N)
           (store : N -> nat -> list N -> result (list N)) (input : list N) : result (list N) :=
  let i := in_open (Some input) in
  let (one, i) := in_read4 None i in
  let (u, i) := in_read4 None i in
  let* nSets := count_sets_in (length (skipn 8 input)) min_size max_size i 0 in
  let* one := oget one in
  let* u := oget u in
  build_loop_in (length (skipn 8 input)) min_size max_size (store u) (mkIn (skipn 8 input) false false) 0
    (header ++ le_bytes 4 nSets ++ le_bytes 4 one ++ le_bytes 4 u).

(** tools/build_tries.cpp: main and buildCollection. *)
Definition build_tries_in (fm : formats) (min_size max_size rank_type block : N)
           (runs levelwise : bool) (input : list N) : result (list N) :=
  build_file_in min_size max_size
    (le_bytes 4 rank_type
     ++ (if N.eqb rank_type 1 then le_bytes 4 block else [])
     ++ [bool_byte runs] ++ [bool_byte levelwise])
    (fun u _ il =>
       let* t := bin_make u (built_variant rank_type levelwise) runs il in
       let* (bytes, _) := bin_serialize (built_codecs fm rank_type block) t in
       Ok bytes)
    input.

(** tools/build_fastTries.cpp: main and buildCollection. *)
Definition build_fast_tries_in (fm : formats) (junk : nat -> fast_junk) (min_size max_size rank_type : N)
           (runs levelwise : bool) (lw : nat) (input : list N) : result (list N) :=
  build_file_in min_size max_size
    (le_bytes 4 rank_type ++ [bool_byte runs] ++ [bool_byte levelwise] ++ le_bytes 2 (wbits lw))
    (fun u i il =>
       let j := junk i in
       let* t := fast_make u lw (j_hwr j) (j_empty j) runs il in
       Ok (fst (fast_serialize (fast_codecs fm rank_type) (j_hwr_bytes j) (j_empty_byte j) t)))
    input.
