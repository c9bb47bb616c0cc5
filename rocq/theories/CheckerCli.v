(** Model of the main functions of the checking programs: test/test_encoding.cpp,
    test/test_fastTrie.cpp, test/test_intersection.cpp and
    test/test_intersection_fastTrie.cpp; and of scripts/test_encoding.sh.

    An execution ends with an exit status (Ok (Some _)), by an uncaught exception (Ok None),
    or is undefined.  None of the programs writes a file: what --out names is only printed.
    Not modelled: the messages other than the verdict, the times and the sizes printed. *)

From Coq Require Import String.
From Verif Require Import Base FlatTrie LevelTrie FastTrie ParallelFor Intersection Tries Serialize
  Tools Text Report Table Cli Reference Checker.

(** The options of the encoding checkers are kept in [build_opts]; b_max and b_verbose are not
    used.  The body of the loop of main: test/test_encoding.cpp:170-204. *)
Definition check_step (argv : list (list N)) (st : nat * build_opts) : result (option (nat * build_opts)) :=
  let? st := when_arg argv "--min_size" (number_arg argv set_min) st in
  let? st := when_arg argv "--rank" (rank_arg argv) st in
  let? st := when_arg argv "--runs" (bool_arg argv set_runs) st in
  let? st := when_arg argv "--out" (text_arg argv set_out) st in
  when_arg argv "--levelwise" (bool_arg argv set_levelwise) st.

(** test/test_encoding.cpp:158-205. *)
Definition check_options (argv : list (list N)) : result (option build_opts) :=
  arg_loop (length argv) (length argv) (check_step argv) 2 build_defaults.

(** [wsize = stoi(argv[i])], a uint16_t: test/test_fastTrie.cpp:138, 176-180. *)
Definition stoi_arg {O : Type} (argv : list (list N)) (set : N -> O -> O) (i : nat) (o : O)
  : result (option (nat * O)) :=
  let* a := arg argv i in
  match stoi32 a with
  | Some v => Ok (Some (i, set (v mod 2 ^ 16)%N o))
  | None => Ok None
  end.

(** The body of the loop of main: test/test_fastTrie.cpp:147-181. *)
Definition fast_check_step (argv : list (list N)) (st : nat * build_opts) : result (option (nat * build_opts)) :=
  let? st := when_arg argv "--min_size" (number_arg argv set_min) st in
  let? st := when_arg argv "--rank" (rank_arg argv) st in
  let? st := when_arg argv "--runs" (bool_arg argv set_runs) st in
  let? st := when_arg argv "--out" (text_arg argv set_out) st in
  when_arg argv "--wsize" (stoi_arg argv set_wsize) st.

(** test/test_fastTrie.cpp:137-181. *)
Definition fast_check_options (argv : list (list N)) : result (option build_opts) :=
  arg_loop (length argv) (length argv) (fast_check_step argv) 2 build_defaults.

(** The exit status and the verdict printed, [None] if nothing was checked.
    test/test_encoding.cpp:30-33, 149-157, 232, test/test_fastTrie.cpp:27-30, 129-135, 207,
    test/test_intersection.cpp:165-170, 199, test/test_intersection_fastTrie.cpp:136-141, 190. *)
Record check_end (V : Type) := mkEnd { e_status : N; e_verdict : option V }.
Arguments mkEnd {V}.
Arguments e_status {V}.
Arguments e_verdict {V}.

(** verifyEncode opens the collection; without it there is a message only.
    test/test_encoding.cpp:28-33, test/test_fastTrie.cpp:25-30. *)
Definition check_file {V} (fs : files) (input : list N) (verify : list N -> result V)
  : result (option (check_end V)) :=
  match fs input with
  | None => Ok (Some (mkEnd 0 None))
  | Some bytes => let* v := verify bytes in Ok (Some (mkEnd 0 (Some v)))
  end.

(** main: test/test_encoding.cpp:146-233.  The block size only selects a template argument,
    which no verdict depends on (lines 223-230). *)
Definition encode_main (argv : list (list N)) (fs : files)
  : result (option (check_end (list nat * nat * N))) :=
  if length argv <? 3 then Ok (Some (mkEnd 1 None))
  else
    let* input := arg argv 1 in
    let? o := check_options argv in
    check_file fs input (verify_encode (b_min o) (b_rank o) (b_runs o) (b_levelwise o)).

(** main: test/test_fastTrie.cpp:126-208.  Words of 8 bits for every size other than 64, 32
    and 16 (lines 198-205). *)
Definition fast_encode_main (junk : nat -> fast_junk) (argv : list (list N)) (fs : files)
  : result (option (check_end (list nat * nat * N))) :=
  if length argv <? 2 then Ok (Some (mkEnd 1 None))
  else
    let* input := arg argv 1 in
    let? o := fast_check_options argv in
    check_file fs input (verify_fast junk (b_min o) (b_rank o) (b_runs o) (word_log (b_wsize o))).

(** [(uint64_t)stoi(s)]: a negative number is counted down from 2^64.
    test/test_intersection.cpp:35, test/test_intersection_fastTrie.cpp:33. *)
Definition stoi64 (s : list N) : option N :=
  match read_number s with
  | (_, None) => None
  | (false, Some v) => if N.ltb v (2 ^ 31) then Some v else None
  | (true, Some v) => if N.leb v (2 ^ 31) then Some ((2 ^ 64 - v) mod 2 ^ 64)%N else None
  end.

(** loadQueryLog: test/test_intersection.cpp:23-42, test/test_intersection_fastTrie.cpp:21-40. *)
Definition check_query_log (file : option (list N)) : option (list (list N)) :=
  match file with
  | None => Some []
  | Some text => each_some (fun line => each_some stoi64 (get_words line [])) (get_lines text [])
  end.

(** main and performIntersections, up to the reading of the header: the log is read before the
    number of tries.  Without the file of the sequences the number of tries stays unset, and is
    printed.  test/test_intersection.cpp:106-115, 163-199,
    test/test_intersection_fastTrie.cpp:71-80, 134-190. *)
Definition intersection_check (argv : list (list N)) (fs : files)
           (check : list N -> list (list N) -> result (bool * nat))
  : result (option (check_end (bool * nat))) :=
  if length argv <? 3 then Ok (Some (mkEnd 1 None))
  else
    let* sequences := arg argv 1 in
    let* log := arg argv 2 in
    match check_query_log (fs log) with
    | None => Ok None
    | Some queries =>
      let* file := oget (fs sequences) in
      let* v := check file queries in
      Ok (Some (mkEnd 0 (Some v)))
    end.

(** test/test_intersection.cpp:163-199. *)
Definition intersection_main (fm : formats) (sched : nat -> scheduler * scheduler) (hc : N)
           (sort : list (list N) -> list (list N)) (argv : list (list N)) (fs : files)
  : result (option (check_end (bool * nat))) :=
  intersection_check argv fs (check_collection fm sched hc sort).

(** test/test_intersection_fastTrie.cpp:134-190; wsize is 64 (line 18). *)
Definition fast_intersection_main (fm : formats) (blank : fast) (sched : nat -> scheduler * scheduler)
           (hc : N) (sort : list (list N) -> list (list N)) (argv : list (list N)) (fs : files)
  : result (option (check_end (bool * nat))) :=
  intersection_check argv fs (check_fast_collection fm blank sched hc sort).

(** One line of scripts/test_encoding.sh:4-30. *)
Definition script_line (prog collection : list N) (rank : list string) (runs levelwise : string)
  : list (list N) :=
  prog :: collection :: map txt (["--min_size"; "4096"; "--rank"]%string ++ rank ++
                                 ["--runs"; runs; "--levelwise"; levelwise]%string).

(** The lines of scripts/test_encoding.sh:4-30 that run the checker, quoting removed. *)
Definition encoding_script (prog collection : list N) : list (list (list N)) :=
  let line := script_line prog collection in
  [ line ["v"] "f" "f"; line ["v"] "t" "f"; line ["v"] "f" "t"; line ["v"] "t" "t";
    line ["v5"] "f" "f"; line ["v5"] "t" "f"; line ["v5"] "f" "t"; line ["v5"] "t" "t";
    line ["il"; "128"] "f" "f"; line ["il"; "256"] "f" "f"; line ["il"; "512"] "f" "f";
    line ["il"; "128"] "t" "f"; line ["il"; "256"] "t" "f"; line ["il"; "512"] "t" "f";
    line ["il"; "128"] "f" "t"; line ["il"; "256"] "f" "t"; line ["il"; "512"] "f" "t";
    line ["il"; "128"] "t" "t"; line ["il"; "256"] "t" "t"; line ["il"; "512"] "t" "t" ]%string.
