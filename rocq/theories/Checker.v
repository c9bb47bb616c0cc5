(** Model of the project's own checking programs: test/test_intersection.cpp,
    test/test_intersection_fastTrie.cpp, test/test_encoding.cpp, test/test_fastTrie.cpp.

    Files are lists of bytes, all opened successfully; a log is the list of its queries
    (Text.v models its text; CheckerCli.v the main functions).  Not modelled: the messages,
    the times, the sizes that the last two print. *)

From Verif Require Import Base FlatTrie LevelTrie FastTrie ParallelFor Intersection Tries
  Serialize Tools Reference.

(** operator== on vector<uint64_t>.  The comparisons of test/test_encoding.cpp:120 and
    test/test_intersection.cpp:136. *)
Definition same_values (a b : list N) : bool :=
  if list_eq_dec N.eq_dec a b then true else false.

(** * The intersection checkers *)

(** The loop of loadTries: test/test_intersection.cpp:60-101,
    test/test_intersection_fastTrie.cpp:59-67; the map is the list of its pairs.  [load]
    makes an object and loads it.  The test of in.eof() (line 62 of the first) follows a
    failed read, where the model has stopped. *)
Fixpoint load_wanted {T : Type} (load : list N -> result (T * list N)) (n : nat) (i : N)
         (ids : list N) (np : nat) (input : list N) (tries : list (N * T)) : result (list (N * T)) :=
  match n with
  | O => Ok tries
  | S n' =>
    let* (t, input) := load input in
    let* id := vget ids np in
    if N.eqb i id then
      let tries := tries ++ [(i, t)] in
      if S np =? length ids then Ok tries
      else load_wanted load n' (i + 1) ids (S np) input tries
    else load_wanted load n' (i + 1) ids np input tries
  end.

(** [tries[i]->...]: operator[] inserts a null pointer for a missing id.
    test/test_intersection.cpp:126-128, test/test_intersection_fastTrie.cpp:91-93. *)
Definition wanted_trie {T : Type} (tries : list (N * T)) (i : N) : result T :=
  match find (fun p => N.eqb (fst p) i) tries with
  | Some p => Ok (snd p)
  | None => UB NullDeref
  end.

(** The loop printing the first differences: test/test_intersection.cpp:139-146,
    test/test_intersection_fastTrie.cpp:109-116.  [rest] is what is left of the answer
    from position [i] on, [c] the differences printed. *)
Fixpoint show_differences (rest reference : list N) (i c : nat) : result unit :=
  match rest with
  | [] => Ok tt
  | x :: rest' =>
    let* y := vget reference i in
    if N.eqb x y then show_differences rest' reference (S i) c
    else if S c =? 10 then Ok tt
    else show_differences rest' reference (S i) (S c)
  end.

(** The loop over the queries: test/test_intersection.cpp:121-155,
    test/test_intersection_fastTrie.cpp:86-125.  [answer nq] is the call of Intersect for
    the query checked after [nq] others.  The result: whether "Query nq not match" was
    printed, and nq, the number printed at the end. *)
Fixpoint check_queries {T : Type} (pick : N -> result T) (decode : T -> result (list N))
         (answer : nat -> list T -> result (list N)) (sort : list (list N) -> list (list N))
         (nq : nat) (queries : list (list N)) : result (bool * nat) :=
  match queries with
  | [] => Ok (false, nq)
  | q :: queries' =>
    let* both := each_ok (fun i => let* t := pick i in let* l := decode t in Ok (t, l)) q in
    if length both <=? 16 then
      let* r := answer nq (map fst both) in
      let* (fb, _) := forceBruteIntersection sort (map snd both) in
      if same_values r fb then check_queries pick decode answer sort (S nq) queries'
      else
        let* _ := show_differences r fb 0 0 in
        Ok (true, nq)
    else check_queries pick decode answer sort nq queries'
  end.

(** test/test_intersection.cpp: main, loadTries (lines 44-59) and performIntersections.
    [sched nq] gives the schedules of the two parallel_for calls of Intersect, which is
    always called in parallel mode. *)
Definition check_collection (fm : formats) (sched : nat -> scheduler * scheduler) (hc : N)
           (sort : list (list N) -> list (list N)) (file : list N) (queries : list (list N))
  : result (bool * nat) :=
  let* (rank_type, file) := read_le 4 file in
  let* (block, file) := (if N.eqb rank_type 1 then read_le 4 file else Ok (512%N, file)) in
  let* (runs, file) := read_bool file in
  let* (levelwise, file) := read_bool file in
  let* (n, file) := read_le 4 file in
  let* (one, file) := read_le 4 file in
  let* (u, file) := read_le 4 file in
  let load input := let* (c, old) := loaded_object fm rank_type block levelwise in bin_load c old input in
  let* tries := load_wanted load (N.to_nat n) 0 (set_indexes queries) 0 file [] in
  check_queries (wanted_trie tries) (fun t => bin_decode t [])
    (fun nq ts => Intersect Bin (fst (sched nq)) (snd (sched nq)) hc (map bin_ops ts) runs true)
    sort 0 queries.

(** The header as read by test/test_intersection_fastTrie.cpp:152-156, 53-55: the word
    size is not read; it is the initial value 64 of the global wsize (line 18).  The
    result: rankT, runs, n, _1, u and the rest of the file. *)
Definition check_fast_header (file : list N) : result (N * option bool * N * N * N * list N) :=
  let* (rank_type, file) := read_le 4 file in
  let* (block, file) := (if N.eqb rank_type 1 then read_le 4 file else Ok (512%N, file)) in
  let* (runs, file) := read_obool file in
  let* (levelwise, file) := read_obool file in
  let* (n, file) := read_le 4 file in
  let* (one, file) := read_le 4 file in
  let* (u, file) := read_le 4 file in
  Ok (rank_type, runs, n, one, u, file).

(** test/test_intersection_fastTrie.cpp: main, loadTries and performIntersections with
    wordType = uint64_t.  [blank] is a newly made trie. *)
Definition check_fast_collection (fm : formats) (blank : fast)
           (sched : nat -> scheduler * scheduler) (hc : N)
           (sort : list (list N) -> list (list N)) (file : list N) (queries : list (list N))
  : result (bool * nat) :=
  let* (rank_type, runs, n, one, u, file) := check_fast_header file in
  let* runs := oget runs in
  let* tries := load_wanted (fast_load (fast_codecs fm rank_type) blank) (N.to_nat n) 0
                  (set_indexes queries) 0 file [] in
  check_queries (wanted_trie tries) (fun t => fast_decode t [])
    (fun nq ts => Intersect (Fast 6) (fst (sched nq)) (snd (sched nq)) hc (map fast_ops ts) runs true)
    sort 0 queries.

(** * The encoding checkers *)

(** The second pass of verifyEncode: test/test_encoding.cpp:61-134,
    test/test_fastTrie.cpp:58-113; the first pass (lines 38-52, 35-49) only counts.
    [verify i il] tells whether the trie of the list decodes to the list again.  The
    result: the positions of the lists reported, the number of lists and of values. *)
Fixpoint verify_loop (fuel : nat) (min_size : N) (verify : nat -> list N -> result bool)
         (input : list N) (n_il : nat) (total : N) (bad : list nat) : result (list nat * nat * N) :=
  match read_eof 4 input with
  | None => Ok (bad, n_il, total)
  | Some (n, input') =>
    match fuel with
    | O => OutOfFuel
    | S fuel' =>
      if N.ltb min_size n then
        let* (il, input') := read_inv_list (N.to_nat n) input' in
        let* ok := verify n_il il in
        verify_loop fuel' min_size verify input' (S n_il) (total + n)
          (if ok then bad else bad ++ [n_il])
      else verify_loop fuel' min_size verify (seek_list n input') n_il total bad
    end
  end.

(** The same from the start of the file: test/test_encoding.cpp:28-144,
    test/test_fastTrie.cpp:24-124. *)
Definition verify_file (min_size : N) (verify : N -> nat -> list N -> result bool) (input : list N)
  : result (list nat * nat * N) :=
  let* (one, lists) := read_le 4 input in
  let* (u, lists) := read_le 4 lists in
  verify_loop (length lists) min_size (verify u) lists 0 0 [].

(** [uint32_t min_size] from a uint64_t: test/test_encoding.cpp:27, 219. *)
Definition u32 (x : N) : N := N.modulo x (2 ^ 32).

(** test/test_encoding.cpp: verifyEncode as called by main.  Its parameter rank_type is a
    bool (line 27): the values 1 and 2 of rank both become true, which is compared equal
    to 1 (line 88). *)
Definition verify_encode (min_size rank : N) (runs levelwise : bool) (input : list N)
  : result (list nat * nat * N) :=
  let rank_type := if N.eqb rank 0 then 0%N else 1%N in
  verify_file (u32 min_size)
    (fun u _ il =>
       let* t := bin_make u (built_variant rank_type levelwise) runs il in
       let* decoded := bin_decode t [] in
       Ok (same_values decoded il))
    input.

(** The two loops printing ten values: test/test_fastTrie.cpp:82-88. *)
Definition show_ten (l : list N) : result unit :=
  for_loop 10 0 (fun i _ => let* _ := vget l i in Ok tt) tt.

(** test/test_fastTrie.cpp: verifyEncode as called by main; only the branch of
    rank_type 0 prints values (lines 79-90, 100-102).  The copy in the initialisation
    (line 71) is taken to be elided. *)
Definition verify_fast (junk : nat -> fast_junk) (min_size rank : N) (runs : bool) (lw : nat)
           (input : list N) : result (list nat * nat * N) :=
  verify_file (u32 min_size)
    (fun u i il =>
       let* t := fast_make u lw (j_hwr (junk i)) (j_empty (junk i)) runs il in
       let* decoded := fast_decode t [] in
       if same_values decoded il then Ok true
       else if N.eqb rank 0 then
         let* _ := show_ten il in
         let* _ := show_ten decoded in
         Ok false
       else Ok false)
    input.
