(** Model of the query tools on a file that ends too early: load() of
    include/flatBinTrie.hpp, flatBinTrie_il.hpp, binTrie.hpp, binTrie_il.hpp and
    fastBinaryTrie.hpp, loadSequences and main of tools/intersection_query_log.cpp,
    loadTries and main of tools/intersection_querylog_fastTrie.cpp.

    Serialize.v and Tools.v stop at the first read that meets the end of the file.
    Here a stream is the list of its remaining bytes and its eof flag.  After a read
    that meets the end the flag is set and further reads do nothing. *)

From Verif Require Import Base FlatTrie LevelTrie FastTrie ParallelFor Intersection Tries Serialize Tools.

(** The ifstreams of tools/intersection_query_log.cpp:188-189 and
    tools/intersection_querylog_fastTrie.cpp:154-155: the bytes left and eofbit. *)
Definition stream : Type := (list N * bool)%type.

(** Any reading function of Serialize.v whose failure leaves a variable or a member
    of the program unset.  In the functions below what follows such a read uses the
    variable: n, _1 and u are locals of loadSequences and loadTries without initial
    value (tools/intersection_query_log.cpp:33, intersection_querylog_fastTrie.cpp:54),
    and after the scalars of a trie comes the load() of a bit vector, which reads its
    own size into a local without initial value. *)
Definition whole {A} (read : list N -> result (A * list N)) (s : stream) : result (A * stream) :=
  match read (fst s) with
  | Ok (a, rest) => Ok (a, (rest, snd s))
  | _ => UB Indeterminate
  end.

(** What an sdsl structure holds after a load() that met the end of the file: bits that depend
    on the memory.  [None]: the program stops.  Simplification: a rank structure loaded in part
    counts the ones of some sequence of bits.  No code in /repo: sdsl, called at
    include/flatBinTrie.hpp:264-266, include/binTrie.hpp:226-229,
    include/fastBinaryTrie.hpp:233-234. *)
Record cuts := mkCuts {
  k_bv : list N -> option (list bool);
  k_rank : list N -> list bool -> option (list bool)
}.

(** load() of an sdsl structure: the size on 8 bytes is read into a local without initial value,
    then memory is allocated and filled.  No code in /repo: sdsl, called at
    include/flatBinTrie.hpp:264-266, include/binTrie.hpp:226-229,
    include/fastBinaryTrie.hpp:233-234. *)
Definition part (k : list N -> option (list bool)) (load : list N -> result (list bool * list N))
           (s : stream) : result (list bool * stream) :=
  match load (fst s) with
  | Ok (v, rest) => Ok (v, (rest, snd s))
  | _ =>
    if length (fst s) <? 8 then UB Indeterminate
    else match k (fst s) with
         | Some v => Ok (v, ([], true))
         | None => UB Indeterminate
         end
  end.

(** bTrie.load(in): include/flatBinTrie.hpp:264-265, include/binTrie.hpp:226-227,
    include/fastBinaryTrie.hpp:233. *)
Definition bv_cut (k : cuts) (c : bv_codec) (s : stream) : result (list bool * stream) :=
  part (k_bv k) (bv_load c) s.

(** b_rank.load(in, &bTrie): include/flatBinTrie.hpp:266, include/binTrie.hpp:228-229,
    include/fastBinaryTrie.hpp:234. *)
Definition rank_cut (k : cuts) (c : rank_codec) (v : list bool) (s : stream)
  : result (list bool * stream) :=
  part (fun bytes => k_rank k bytes v) (fun bytes => rk_load c bytes v) s.

(** flatBinTrie::load: include/flatBinTrie.hpp:258-267, flatBinTrie_il.hpp:267-276. *)
Definition flat_load_cut (k : cuts) (c : codecs) (s : stream) : result (flat * stream) :=
  let* (sc, s) := whole load_scalars s in
  let '(h, hwr, e, r) := sc in
  let* (bt, s) := bv_cut k (c_bv c) s in
  let* (ll, s) := bv_cut k (c_last c) s in
  let* (rk, s) := rank_cut k (c_rank c) bt s in
  Ok (mkFlat h hwr e r bt ll rk, s).

(** The loop over the bit vectors: include/binTrie.hpp:226-227,
    include/binTrie_il.hpp:207-208. *)
Fixpoint load_bvs_cut (k : cuts) (c : bv_codec) (n : nat) (s : stream)
  : result (list (list bool) * stream) :=
  match n with
  | O => Ok ([], s)
  | S n' =>
    let* (v, s) := bv_cut k c s in
    let* (vs, s) := load_bvs_cut k c n' s in
    Ok (v :: vs, s)
  end.

(** The loop over the rank structures: include/binTrie.hpp:228-229,
    include/binTrie_il.hpp:209-210. *)
Fixpoint load_ranks_cut (k : cuts) (c : rank_codec) (vs : list (list bool)) (s : stream)
  : result (list (list bool) * stream) :=
  match vs with
  | [] => Ok ([], s)
  | v :: vs' =>
    let* (r, s) := rank_cut k c v s in
    let* (rs, s) := load_ranks_cut k c vs' s in
    Ok (r :: rs, s)
  end.

(** The loop of binTrie_il::load: include/binTrie_il.hpp:207-211. *)
Fixpoint load_il_cut (k : cuts) (c : codecs) (n : nat) (s : stream)
  : result (list (list bool) * stream) :=
  match n with
  | O => Ok ([], s)
  | S n' =>
    let* (v, s) := bv_cut k (c_bv c) s in
    let* s :=
      (if n' =? 0 then Ok s
       else let* (_, s) := rank_cut k (c_rank c) v s in Ok s) in
    let* (vs, s) := load_il_cut k c n' s in
    Ok (v :: vs, s)
  end.

(** binTrie::load: include/binTrie.hpp:216-230; binTrie_il::load:
    include/binTrie_il.hpp:197-213. *)
Definition level_load_cut (k : cuts) (c : codecs) (il : bool) (s : stream)
  : result (level_trie * stream) :=
  let* (sc, s) := whole load_scalars s in
  let '(h, hwr, e, r) := sc in
  if h =? 0 then UB Unmodelled
  else if il then
    let* (bts, s) := load_il_cut k c h s in
    Ok (mkLevel true hwr e r bts [], s)
  else
    let* (bts, s) := load_bvs_cut k (c_bv c) h s in
    let* (rks, s) := load_ranks_cut k (c_rank c) (firstn (h - 1) bts) s in
    Ok (mkLevel false hwr e r bts rks, s).

(** Virtual dispatch: include/binaryTrie.hpp:26. *)
Definition bin_load_cut (k : cuts) (c : codecs) (old : bin_trie) (s : stream)
  : result (bin_trie * stream) :=
  match old with
  | BFlat _ => let* (t, s) := flat_load_cut k c s in Ok (BFlat t, s)
  | BLevel t => let* (t, s) := level_load_cut k c (l_il t) s in Ok (BLevel t, s)
  end.

(** loadSequences: tools/intersection_query_log.cpp:40-82, with its test of eof()
    before each trie. *)
Fixpoint load_sequences_cut (k : cuts) (n : nat) (obj : result (codecs * bin_trie)) (s : stream)
  : result (list bin_trie) :=
  match n with
  | O => Ok []
  | S n' =>
    if snd s then Ok []
    else
      let* (c, old) := obj in
      let* (t, s) := bin_load_cut k c old s in
      let* ts := load_sequences_cut k n' obj s in
      Ok (t :: ts)
  end.

(** main and loadSequences: tools/intersection_query_log.cpp:212-216, 33-82. *)
Definition load_collection_cut (fm : formats) (k : cuts) (file : list N)
  : result (bool * list bin_trie) :=
  let s := (file, false) in
  let* (rank_type, s) := whole (read_le 4) s in
  let* (block, s) := (if N.eqb rank_type 1 then whole (read_le 4) s else Ok (512%N, s)) in
  let* (runs, s) := whole read_bool s in
  let* (levelwise, s) := whole read_bool s in
  let* (n, s) := whole (read_le 4) s in
  let* (one, s) := whole (read_le 4) s in
  let* (u, s) := whole (read_le 4) s in
  let* ts := load_sequences_cut k (N.to_nat n) (loaded_object fm rank_type block levelwise) s in
  Ok (runs, ts).

(** tools/intersection_query_log.cpp: main and performIntersections. *)
Definition query_log_cut (fm : formats) (k : cuts) (sched : nat -> nat -> scheduler * scheduler)
           (hc : N) (parallel : bool) (file : list N) (queries : list (list N))
  : result (list (option (list N))) :=
  let* (runs, seqs) := load_collection_cut fm k file in
  run_queries (fun i => vgetN seqs i)
    (fun nq rep ts =>
       Intersect Bin (fst (sched nq rep)) (snd (sched nq rep)) hc (map bin_ops ts) runs parallel)
    0 queries.

(** * Fast tries *)

(** fastBinaryTrie::load: include/fastBinaryTrie.hpp:227-243.  sizeLastLevel and x are
    locals without initial value, and both are used. *)
Definition fast_load_cut (k : cuts) (c : codecs) (old : fast) (s : stream) : result (fast * stream) :=
  let lw := x_lw old in
  let* (h, s) := whole (read_le 2) s in
  let* (hwr, s) := whole (read_le 2) s in
  let* (e, s) := whole read_obool s in
  let* (r, s) := whole read_bool s in
  let* (bt, s) := bv_cut k (c_bv c) s in
  let* (rk, s) := rank_cut k (c_rank c) bt s in
  let* (n, s) := whole (read_le 8) s in
  if N.ltb (N.of_nat (length (fst s))) n then UB Indeterminate
  else
    let* (ws, s) := whole (load_words (wbytes lw) (N.to_nat n)) s in
    Ok (mkFast lw (N.to_nat h) (Some (N.to_nat hwr)) (N.to_nat h + lw - 1) r e bt
               (x_lastLevel old ++ ws) rk, s).

(** The loop of loadTries: tools/intersection_querylog_fastTrie.cpp:61-73. *)
Fixpoint load_tries_loop_cut (k : cuts) (c : codecs) (blank : fast) (n : nat) (i : N) (ids : list N)
         (np : nat) (s : stream) (tries : list (N * fast)) : result (list (N * fast)) :=
  match n with
  | O => Ok tries
  | S n' =>
    let* (t, s) := fast_load_cut k c blank s in
    let* id := vget ids np in
    if N.eqb i id then
      let tries := tries ++ [(i, t)] in
      if S np =? length ids then Ok tries
      else load_tries_loop_cut k c blank n' (i + 1) ids (S np) s tries
    else load_tries_loop_cut k c blank n' (i + 1) ids np s tries
  end.

(** loadTries: tools/intersection_querylog_fastTrie.cpp:45-75. *)
Definition load_tries_cut (k : cuts) (c : codecs) (blank : fast) (queries : list (list N)) (s : stream)
  : result (list (N * fast)) :=
  let* (n, s) := whole (read_le 4) s in
  let* (one, s) := whole (read_le 4) s in
  let* (u, s) := whole (read_le 4) s in
  load_tries_loop_cut k c blank (N.to_nat n) 0 (set_indexes queries) 0 s [].

(** tools/intersection_querylog_fastTrie.cpp: main and performIntersections.  A short
    header leaves n unset. *)
Definition fast_query_log_cut (fm : formats) (k : cuts) (blank : nat -> fast)
           (sched : nat -> nat -> scheduler * scheduler) (hc : N)
           (parallel : bool) (file : list N) (queries : list (list N))
  : result (list (option (list N))) :=
  let* (hd, s) := whole read_fast_header (file, false) in
  let '(rank_type, runs, levelwise, wsize) := hd in
  let* runs := oget runs in
  let lw := word_log wsize in
  let* tries := load_tries_cut k (fast_codecs fm rank_type) (blank lw) queries s in
  map_queries tries
    (fun nq rep ts =>
       Intersect (Fast lw) (fst (sched nq rep)) (snd (sched nq rep)) hc (map fast_ops ts) runs parallel)
    queries.
