(** Model of the command-line tools that build collections of tries and answer query
    logs: tools/build_tries.cpp, tools/intersection_query_log.cpp,
    tools/build_fastTries.cpp, tools/intersection_querylog_fastTrie.cpp.

    Files are lists of bytes, all opened successfully; the output path is given; a log
    is the list of its queries, each a list of ids (Text.v and Cli.v model the text of
    the log, the command line and the files).  Not modelled: the messages and the time
    measurements. *)

From Verif Require Import Base FlatTrie LevelTrie FastTrie ParallelFor Intersection Tries Serialize.

(** The formats of the sdsl structures used with rank_support_v, rank_support_v5 and
    rank_support_il<1, block>.  No code in /repo: sdsl, with the classes chosen at
    tools/build_tries.cpp:101-167. *)
Record formats := mkFormats {
  fm_v : codecs;
  fm_v5 : codecs;
  fm_il : N -> codecs
}.

(** What the theorems assume of them. No code in /repo: sdsl, with the classes chosen at
    tools/build_tries.cpp:101-167. *)
Definition formats_ok (fm : formats) : Prop :=
  codecs_ok (fm_v fm) /\ codecs_ok (fm_v5 fm) /\ forall b, codecs_ok (fm_il fm b).

(** [in.read(p, k); if (in.eof()) break;]: [None] when fewer than [k] bytes are left.
    tools/build_tries.cpp:58-61, 90-93, tools/build_fastTries.cpp:53-56, 86-89. *)
Definition read_eof (k : nat) (input : list N) : option (N * list N) :=
  match read_bytes k input with
  | Ok (l, rest) => Some (le_value l, rest)
  | _ => None
  end.

(** [in.seekg(4*n, ios::cur)]: n is a uint32_t, and so is 4*n.  Past the end the next read meets
    the end of the file.  tools/build_tries.cpp:65, 178, tools/build_fastTries.cpp:60, 125. *)
Definition seek_list (n : N) (input : list N) : list N :=
  let k := N.modulo (4 * n) (2 ^ 32) in
  if N.leb (N.of_nat (length input)) k then [] else skipn (N.to_nat k) input.

(** [n > min_size && n <= max_size].  tools/build_tries.cpp:62, 96,
    tools/build_fastTries.cpp:57, 92. *)
Definition keep_list (min_size max_size n : N) : bool :=
  (N.ltb min_size n && N.leb n max_size)%bool.

(** The counting pass: tools/build_tries.cpp:54-66, tools/build_fastTries.cpp:49-61.
    Each iteration reads four bytes, so the length of the file bounds the number of
    iterations. *)
Fixpoint count_sets (fuel : nat) (min_size max_size : N) (input : list N) (nSets : N)
  : result N :=
  match read_eof 4 input with
  | None => Ok nSets
  | Some (n, input') =>
    match fuel with
    | O => OutOfFuel
    | S fuel' =>
      let nSets := if keep_list min_size max_size n
                   then N.modulo (nSets + 1) (2 ^ 32) else nSets in
      count_sets fuel' min_size max_size (seek_list n input') nSets
    end
  end.

(** read_inv_list: tools/build_tries.cpp:17-27, tools/build_fastTries.cpp:12-22. *)
Fixpoint read_inv_list (n : nat) (input : list N) : result (list N * list N) :=
  match n with
  | O => Ok ([], input)
  | S n' =>
    let* (x, input) := read_le 4 input in
    let* (l, input) := read_inv_list n' input in
    Ok (x :: l, input)
  end.

(** The second pass: tools/build_tries.cpp:85-180, tools/build_fastTries.cpp:82-127.
    [store i il] is the bytes written for the i-th kept list. *)
Fixpoint build_loop (fuel : nat) (min_size max_size : N) (store : nat -> list N -> result (list N))
         (input : list N) (n_il : nat) (out : list N) : result (list N) :=
  match read_eof 4 input with
  | None => Ok out
  | Some (n, input') =>
    match fuel with
    | O => OutOfFuel
    | S fuel' =>
      if keep_list min_size max_size n then
        let* (il, input') := read_inv_list (N.to_nat n) input' in
        let* bytes := store n_il il in
        build_loop fuel' min_size max_size store input' (S n_il) (out ++ bytes)
      else build_loop fuel' min_size max_size store (seek_list n input') n_il out
    end
  end.

(** buildCollection, common part: tools/build_tries.cpp:48-190,
    tools/build_fastTries.cpp:45-136.  [header nSets] is what is written before
    nSets, _1 and u. *)
Definition build_file (min_size max_size : N) (header : list N)
           (store : N -> nat -> list N -> result (list N)) (input : list N) : result (list N) :=
  let* (one, lists) := read_le 4 input in
  let* (u, lists) := read_le 4 lists in
  let* nSets := count_sets (length lists) min_size max_size lists 0 in
  build_loop (length lists) min_size max_size (store u) lists 0
    (header ++ le_bytes 4 nSets ++ le_bytes 4 one ++ le_bytes 4 u).

(** The class and the formats chosen by --rank and --levelwise:
    tools/build_tries.cpp:102-161 (rank_type 0: rank_support_v, 1: the interleaved
    classes, anything else: rank_support_v5) and the dispatch on the block size,
    tools/build_tries.cpp:286-293. *)
Definition built_variant (rank_type : N) (levelwise : bool) : variant :=
  if levelwise then VLevel (N.eqb rank_type 1) else VFlat (N.eqb rank_type 1).

(** The block size chosen from --rank il: tools/build_tries.cpp:286-293. *)
Definition built_block (block : N) : N :=
  if N.eqb block 512 then 512%N
  else if N.eqb block 256 then 256%N
  else if N.eqb block 128 then 128%N
  else 64%N.

(** The formats of the chosen class: tools/build_tries.cpp:101-167. *)
Definition built_codecs (fm : formats) (rank_type block : N) : codecs :=
  if N.eqb rank_type 0 then fm_v fm
  else if N.eqb rank_type 1 then fm_il fm (built_block block)
  else fm_v5 fm.

(** tools/build_tries.cpp: main and buildCollection. *)
Definition build_tries (fm : formats) (min_size max_size rank_type block : N)
           (runs levelwise : bool) (input : list N) : result (list N) :=
  build_file min_size max_size
    (le_bytes 4 rank_type
     ++ (if N.eqb rank_type 1 then le_bytes 4 block else [])
     ++ [bool_byte runs] ++ [bool_byte levelwise])
    (fun u _ il =>
       let* t := bin_make u (built_variant rank_type levelwise) runs il in
       let* (bytes, _) := bin_serialize (built_codecs fm rank_type block) t in
       Ok bytes)
    input.

(** The object made before load(): tools/intersection_query_log.cpp:45-77.  load()
    overwrites every member.  With a block size other than 128, 256 and 512 the
    pointer stays uninitialised. *)
Definition loaded_object (fm : formats) (rank_type block : N) (levelwise : bool)
  : result (codecs * bin_trie) :=
  let blank il := if levelwise then BLevel (mkLevel il 0 false false [] [])
                  else BFlat (mkFlat 0 0 false false [] [] []) in
  if N.eqb rank_type 0 then Ok (fm_v fm, blank false)
  else if N.eqb rank_type 1 then
    if (N.eqb block 128 || N.eqb block 256 || N.eqb block 512)%bool
    then Ok (fm_il fm block, blank true)
    else UB Indeterminate
  else Ok (fm_v5 fm, blank false).

(** loadSequences: tools/intersection_query_log.cpp:40-82. *)
Fixpoint load_sequences (n : nat) (obj : result (codecs * bin_trie)) (input : list N)
  : result (list bin_trie * list N) :=
  match n with
  | O => Ok ([], input)
  | S n' =>
    let* (c, old) := obj in
    let* (t, input) := bin_load c old input in
    let* (ts, input) := load_sequences n' obj input in
    Ok (t :: ts, input)
  end.

(** main and loadSequences: tools/intersection_query_log.cpp:212-216, 33-82.  The
    result: runs, and the tries. *)
Definition load_collection (fm : formats) (file : list N) : result (bool * list bin_trie) :=
  let* (rank_type, file) := read_le 4 file in
  let* (block, file) := (if N.eqb rank_type 1 then read_le 4 file else Ok (512%N, file)) in
  let* (runs, file) := read_bool file in
  let* (levelwise, file) := read_bool file in
  let* (n, file) := read_le 4 file in
  let* (one, file) := read_le 4 file in
  let* (u, file) := read_le 4 file in
  let* (ts, _) := load_sequences (N.to_nat n) (loaded_object fm rank_type block levelwise) file in
  Ok (runs, ts).

(** The ten repetitions of a query: tools/intersection_query_log.cpp:137-147,
    tools/intersection_querylog_fastTrie.cpp:100-109.  The answer kept is the last
    one.  [answer rep] is the outcome of one call of Intersect. *)
Definition repeat_query (answer : nat -> result (list N)) : result (list N) :=
  for_loop 10 0 (fun rep _ => answer rep) [].

(** The loop over the queries: tools/intersection_query_log.cpp:130-159,
    tools/intersection_querylog_fastTrie.cpp:92-115.  [None] for a query of more than
    16 ids, which is skipped.  [pick i] is the trie with id i. *)
Fixpoint run_queries {T : Type} (pick : N -> result T) (answer : nat -> nat -> list T -> result (list N))
         (nq : nat) (queries : list (list N)) : result (list (option (list N))) :=
  match queries with
  | [] => Ok []
  | q :: queries' =>
    let* ts := each_ok pick q in
    let* a := (if length ts <=? 16 then let* r := repeat_query (fun rep => answer nq rep ts) in Ok (Some r)
               else Ok None) in
    let* rs := run_queries pick answer (S nq) queries' in
    Ok (a :: rs)
  end.

(** tools/intersection_query_log.cpp: performIntersections.  [sched nq rep] gives the
    schedules of the two parallel_for calls of repetition [rep] of query [nq]. *)
Definition query_log (fm : formats) (sched : nat -> nat -> scheduler * scheduler) (hc : N)
           (parallel : bool) (file : list N) (queries : list (list N))
  : result (list (option (list N))) :=
  let* (runs, seqs) := load_collection fm file in
  run_queries (fun i => vgetN seqs i)
    (fun nq rep ts =>
       Intersect Bin (fst (sched nq rep)) (snd (sched nq rep)) hc (map bin_ops ts) runs parallel)
    0 queries.

(** * Fast tries *)

(** What the memory of the i-th fast trie holds in the two members that the constructor does not
    write, as a value of the member and as the bytes that serialize() writes if that value is
    indeterminate.  include/fastBinaryTrie.hpp:21-28, 34-148, 207-210. *)
Record fast_junk := mkJunk {
  j_hwr : option nat;
  j_empty : option bool;
  j_hwr_bytes : N;
  j_empty_byte : N
}.

(** tools/build_fastTries.cpp: main and buildCollection; rank_type 0:
    rank_support_v, anything else: rank_support_v5.  [lw] = log2 of --wsize. *)
Definition fast_codecs (fm : formats) (rank_type : N) : codecs :=
  if N.eqb rank_type 0 then fm_v fm else fm_v5 fm.

(** tools/build_fastTries.cpp:24-136. *)
Definition build_fast_tries (fm : formats) (junk : nat -> fast_junk) (min_size max_size rank_type : N)
           (runs levelwise : bool) (lw : nat) (input : list N) : result (list N) :=
  build_file min_size max_size
    (le_bytes 4 rank_type ++ [bool_byte runs] ++ [bool_byte levelwise] ++ le_bytes 2 (wbits lw))
    (fun u i il =>
       let j := junk i in
       let* t := fast_make u lw (j_hwr j) (j_empty j) runs il in
       Ok (fst (fast_serialize (fast_codecs fm rank_type) (j_hwr_bytes j) (j_empty_byte j) t)))
    input.

(** The header as read by main: tools/intersection_querylog_fastTrie.cpp:157-162.
    rankT, runs, levelwise, wsize and the rest of the file.  A bool read from a byte
    other than 0 and 1 is [None]. *)
Definition read_fast_header (file : list N)
  : result (N * option bool * option bool * N * list N) :=
  let* (rank_type, file) := read_le 4 file in
  let* (block, file) := (if N.eqb rank_type 1 then read_le 4 file else Ok (512%N, file)) in
  let* (runs, file) := read_obool file in
  let* (levelwise, file) := read_obool file in
  let* (wsize, file) := read_le 2 file in
  Ok (rank_type, runs, levelwise, wsize, file).

(** setIndexes, the sorted ids of all queries without repetition:
    tools/intersection_querylog_fastTrie.cpp:46-50. *)
Fixpoint insert_unique (x : N) (l : list N) : list N :=
  match l with
  | [] => [x]
  | y :: l' => if N.ltb x y then x :: l else if N.eqb x y then l else y :: insert_unique x l'
  end.

(** The same for all queries: tools/intersection_querylog_fastTrie.cpp:46-50. *)
Definition set_indexes (queries : list (list N)) : list N :=
  fold_right insert_unique [] (concat queries).

(** The loop of loadTries: tools/intersection_querylog_fastTrie.cpp:61-73; the map is
    the list of its pairs.  A new trie has an empty last level; [lw] is its word. *)
Fixpoint load_tries_loop (c : codecs) (blank : fast) (n : nat) (i : N) (ids : list N) (np : nat)
         (input : list N) (tries : list (N * fast)) : result (list (N * fast)) :=
  match n with
  | O => Ok tries
  | S n' =>
    let* (t, input) := fast_load c blank input in
    let* id := vget ids np in
    if N.eqb i id then
      let tries := tries ++ [(i, t)] in
      if S np =? length ids then Ok tries
      else load_tries_loop c blank n' (i + 1) ids (S np) input tries
    else load_tries_loop c blank n' (i + 1) ids np input tries
  end.

(** loadTries: tools/intersection_querylog_fastTrie.cpp:45-75. *)
Definition load_tries (c : codecs) (blank : fast) (queries : list (list N)) (file : list N)
  : result (list (N * fast)) :=
  let* (n, file) := read_le 4 file in
  let* (one, file) := read_le 4 file in
  let* (u, file) := read_le 4 file in
  load_tries_loop c blank (N.to_nat n) 0 (set_indexes queries) 0 file [].

(** [tries[i]]: tools/intersection_querylog_fastTrie.cpp:96.  A missing id gives a null
    pointer. *)
Definition trie_pointer (tries : list (N * fast)) (i : N) : option fast :=
  option_map snd (find (fun p => N.eqb (fst p) i) tries).

(** [QTries[i]->...].  tools/intersection_query_log.cpp:133, 139,
    tools/intersection_querylog_fastTrie.cpp:96, 102. *)
Definition deref (p : option fast) : result fast :=
  match p with Some t => Ok t | None => UB NullDeref end.

(** The queries over the map: tools/intersection_querylog_fastTrie.cpp:92-115.  Only
    Intersect dereferences the pointers, all of them when it compares the heights
    (src/fastTrieIntersection.cpp:328-334); simplification: before it compares any. *)
Definition map_queries (tries : list (N * fast)) (answer : nat -> nat -> list fast -> result (list N))
           (queries : list (list N)) : result (list (option (list N))) :=
  run_queries (fun i => Ok (trie_pointer tries i))
    (fun nq rep ps => let* ts := each_ok deref ps in answer nq rep ts) 0 queries.

(** The word type chosen from wsize: tools/intersection_querylog_fastTrie.cpp:176-195
    (64, 32, 16, and 8 for anything else). *)
Definition word_log (wsize : N) : nat :=
  if N.eqb wsize 64 then 6 else if N.eqb wsize 32 then 5 else if N.eqb wsize 16 then 4 else 3.

(** tools/intersection_querylog_fastTrie.cpp: main and performIntersections.  [blank lw]
    is a newly made trie. *)
Definition fast_query_log (fm : formats) (blank : nat -> fast)
           (sched : nat -> nat -> scheduler * scheduler) (hc : N)
           (parallel : bool) (file : list N) (queries : list (list N))
  : result (list (option (list N))) :=
  let* (rank_type, runs, levelwise, wsize, file) := read_fast_header file in
  let* runs := oget runs in
  let lw := word_log wsize in
  let* tries := load_tries (fast_codecs fm rank_type) (blank lw) queries file in
  map_queries tries
    (fun nq rep ts =>
       Intersect (Fast lw) (fst (sched nq rep)) (snd (sched nq rep)) hc (map fast_ops ts) runs parallel)
    queries.
