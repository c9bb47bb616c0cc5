(** Model of the main functions of the tools that report statistics of a collection:
    tools/measures.cpp, tools/pom.cpp, tools/classic_coders.cpp, tools/cbv_coding.cpp.

    Not modelled: the parsing of the command line, the progress messages, the division
    of the totals by the number of values when they are printed.  Simplification: the
    totals are uint64_t; the model adds without bound. *)

From Verif Require Import Base FlatTrie Serialize Tools Measures.

(** An ifstream opened in binary mode: the bytes after the read position, eofbit and failbit.
    tools/measures.cpp:128-129, tools/pom.cpp:68-69, tools/classic_coders.cpp:49-50,
    tools/cbv_coding.cpp:48-49. *)
Record instream := mkIn { in_bytes : list N; in_eof : bool; in_fail : bool }.

(** [in.open(name)].  [None] is a file that cannot be opened: the tools print a message and go
    on.  tools/measures.cpp:129-132, tools/pom.cpp:69-72, tools/classic_coders.cpp:50-53,
    tools/cbv_coding.cpp:49-52. *)
Definition in_open (file : option (list N)) : instream :=
  match file with
  | Some bytes => mkIn bytes false false
  | None => mkIn [] false true
  end.

(** [in.read(reinterpret_cast<char*>(&v), 4)] for a uint32_t [v] (None: uninitialised). A stream
    that is not good extracts nothing.  With fewer than four bytes left those are stored in the
    low bytes of [v], and both bits are set.  tools/measures.cpp:140-146, 157,
    tools/pom.cpp:80-86, 95, tools/classic_coders.cpp:60-66, 73, tools/cbv_coding.cpp:59-67,
    74. *)
Definition in_read4 (v : option N) (i : instream) : option N * instream :=
  if (in_eof i || in_fail i)%bool then (v, mkIn (in_bytes i) (in_eof i) true)
  else
    let l := in_bytes i in
    if 4 <=? length l then (Some (le_value (firstn 4 l)), mkIn (skipn 4 l) false false)
    else
      let p := (256 ^ N.of_nat (length l))%N in
      (option_map (fun old => le_value l + old / p * p)%N v, mkIn [] true true).

(** [in.seekg(4*n, std::ios::cur)], n a uint32_t: clears eofbit (since C++11), then moves unless
    failbit is set.  tools/measures.cpp:186, tools/pom.cpp:127, tools/classic_coders.cpp:95. *)
Definition in_skip (n : N) (i : instream) : instream :=
  if in_fail i then mkIn (in_bytes i) false true
  else mkIn (seek_list n (in_bytes i)) false false.

(** The loop that reads [n] values with [x] declared outside the loop:
    tools/pom.cpp:94-96, tools/classic_coders.cpp:72-75, tools/cbv_coding.cpp:73-76.
    A failed read leaves [x] and the old value is stored again. *)
Fixpoint in_values (n : nat) (x : option N) (i : instream) (s : list N)
  : result (list N * option N * instream) :=
  match n with
  | O => Ok (s, x, i)
  | S n' =>
    let (x, i) := in_read4 x i in
    let* xv := oget x in
    in_values n' x i (s ++ [xv])
  end.

(** nElements, nSets and the printed columns.  tools/measures.cpp:134-136, tools/pom.cpp:74-79,
    tools/classic_coders.cpp:55-56, tools/cbv_coding.cpp:54-55. *)
Record totals := mkTotals { t_ints : N; t_sets : N; t_cols : list N }.

(** The columns of one list added to the totals: tools/measures.cpp:169-176,
    tools/pom.cpp:99-104, 117-119, tools/classic_coders.cpp:85-87, tools/cbv_coding.cpp:84. *)
Fixpoint add_cols (a b : list N) : list N :=
  match a, b with
  | x :: a', y :: b' => (x + y)%N :: add_cols a' b'
  | _, _ => []
  end.

(** One list counted: tools/measures.cpp:151-152, 169-176, tools/pom.cpp:88-89, 117-119,
    tools/classic_coders.cpp:68-69, 85-87, tools/cbv_coding.cpp:69-70, 84. *)
Definition add_list (t : totals) (n : N) (cols : list N) : totals :=
  mkTotals (t_ints t + n) (t_sets t + 1) (add_cols (t_cols t) cols).

(** The main loop: tools/pom.cpp:82-131, tools/classic_coders.cpp:62-99,
    tools/cbv_coding.cpp:63-93.  [columns s] is what one list adds; [stop] is true in
    cbv_coding, where a short list ends the loop.  The end of the file is tested before
    the length is read. *)
Fixpoint coding_loop (fuel : nat) (stop : bool) (min_length : N)
         (columns : list N -> result (list N)) (n x : option N) (i : instream) (t : totals)
  : result totals :=
  match fuel with
  | O => OutOfFuel
  | S fuel' =>
    if in_eof i then Ok t
    else
      let (n, i) := in_read4 n i in
      let* nv := oget n in
      if N.ltb min_length nv then
        let* (s, x, i) := in_values (N.to_nat nv) x i [] in
        let* cols := columns s in
        coding_loop fuel' stop min_length columns n x i (add_list t nv cols)
      else if stop then Ok t
      else coding_loop fuel' stop min_length columns n x (in_skip nv i) t
  end.

(** The declarations and the two numbers read first.  pom.cpp and classic_coders.cpp
    call the first one [u]; cbv_coding.cpp prints both (lines 61-62).  None of the three
    uses them afterwards. *)
Definition coding_main (fuel : nat) (stop : bool) (min_length : N)
           (columns : list N -> result (list N)) (ncols : nat) (file : option (list N))
  : result totals :=
  let i := in_open file in
  let (a, i) := in_read4 None i in
  let (b, i) := in_read4 None i in
  let* _ := if stop then (let* _ := oget a in oget b) else Ok 0%N in
  coding_loop fuel stop min_length columns None None i (mkTotals 0 0 (repeat 0%N ncols)).

(** tools/classic_coders.cpp:28-107.  [delta], [gamma] and [fib] stand for the sizes in
    bytes of the three sdsl::enc_vector of a list (lines 77-87). *)
Definition classic_coders (fuel : nat) (delta gamma fib : list N -> N) (min_length : N)
           (file : option (list N)) : result totals :=
  coding_main fuel false min_length (fun s => Ok [delta s; gamma s; fib s]) 3 file.

(** std::sort.  No code in /repo: the call at tools/pom.cpp:107. *)
Fixpoint insert (x : N) (l : list N) : list N :=
  match l with
  | [] => [x]
  | y :: l' => if N.leb x y then x :: l else y :: insert x l'
  end.
(** std::sort as called at tools/pom.cpp:107. *)
Definition sort_values (l : list N) : list N := fold_right insert [] l.

(** tools/pom.cpp:47-140.  [delta], [gamma] and [fib] stand for the sizes in bytes of the
    three sdsl::vlc_vector of the sorted suffixes (lines 107-119). *)
Definition pom (fuel : nat) (delta gamma fib : list N -> N) (min_length : N)
           (file : option (list N)) : result totals :=
  coding_main fuel false min_length
    (fun s => let* (sp, bits) := pom_list s in
              Ok [delta (sort_values sp); gamma (sort_values sp); fib (sort_values sp); bits]) 4 file.

(** [for i: bv[s[i]] = 1]: tools/cbv_coding.cpp:79-81. *)
Fixpoint mark (s : list N) (bv : list bool) : result (list bool) :=
  match s with
  | [] => Ok bv
  | x :: s' =>
    let* bv := if N.ltb x (N.of_nat (length bv)) then vset bv (N.to_nat x) true else UB OutOfBounds in
    mark s' bv
  end.

(** The vector of one list: tools/cbv_coding.cpp:77-81. *)
Definition characteristic (s : list N) : result (list bool) :=
  let* max_value := vget s (length s - 1) in
  mark s (bv_make (N.to_nat (max_value + 1))).

(** tools/cbv_coding.cpp:27-101.  [hyb] is the size in bytes of sdsl::hyb_vector<512>;
    the first two columns stay 0. *)
Definition cbv_coding (fuel : nat) (hyb : list bool -> N) (min_length : N)
           (file : option (list N)) : result totals :=
  coding_main fuel true min_length
    (fun s => let* bv := characteristic s in Ok [0%N; 0%N; hyb bv]) 3 file.

(** The totals of tools/measures.cpp. *)
Record measured := mkMeasured {
  m_ints : N; m_sets : N; m_gap : N; m_rle : N; m_trie : N; m_trie_run : N
}.

(** The loop that reads one list, with [x] declared inside it:
    tools/measures.cpp:155-159. *)
Fixpoint in_fresh_values (n : nat) (i : instream) (s : list N) : result (list N * instream) :=
  match n with
  | O => Ok (s, i)
  | S n' =>
    let (x, i) := in_read4 None i in
    let* xv := oget x in
    in_fresh_values n' i (s ++ [xv])
  end.

(** [delta]: tools/measures.cpp:162-168.  [u] is a uint32_t, [first] and [last] are
    uint64_t, the result a uint32_t. *)
Definition list_delta (u first last : N) : N :=
  if N.eqb last 0 then (2 ^ 32 - 1)%N
  else
    let delta := N.modulo (sub64 (N.modulo (sub64 u last + first) (2 ^ 64)) 1) (2 ^ 32) in
    if N.leb delta 0 then 1%N else delta.

(** The main loop: tools/measures.cpp:144-188.  [delta >= 0] (line 170) holds of every
    uint32_t. *)
Fixpoint measures_loop (fuel : nat) (min_length : N) (u : option N) (last : N) (i : instream)
         (m : measured) : result measured :=
  match fuel with
  | O => OutOfFuel
  | S fuel' =>
    let (n, i) := in_read4 None i in
    if in_eof i then Ok m
    else
      let* nv := oget n in
      if N.ltb min_length nv then
        let* (s, i) := in_fresh_values (N.to_nat nv) i [] in
        let* first := vget s 0 in
        let* uv := oget u in
        let delta := list_delta uv first last in
        let* g := Gap s in
        let* d := floor_log2 delta in
        let* r := Rle s in
        let* t := Trie s uv false in
        let* tr := Trie s uv true in
        let* last := vget s (length s - 1) in
        measures_loop fuel' min_length u last i
          (mkMeasured (m_ints m + nv) (m_sets m + 1) (m_gap m + g + (d + 1)) (m_rle m + r)
                      (m_trie m + N.of_nat t) (m_trie_run m + N.of_nat tr))
      else measures_loop fuel' min_length u last (in_skip nv i) m
  end.

(** main: tools/measures.cpp:107-198.  Line 142 prints the universe. *)
Definition measures (fuel : nat) (min_length : N) (file : option (list N)) : result measured :=
  let i := in_open file in
  let (one, i) := in_read4 None i in
  let (u, i) := in_read4 None i in
  let* _ := oget u in
  measures_loop fuel min_length u 0 i (mkMeasured 0 0 0 0 0 0).
