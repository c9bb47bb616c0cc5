(** Model of serialize() and load(): include/flatBinTrie.hpp:230-267,
    include/flatBinTrie_il.hpp:239-276, include/binTrie.hpp:173-230,
    include/binTrie_il.hpp:159-213, include/fastBinaryTrie.hpp:194-243.

    A stream is the list of its remaining bytes.  The formats of the sdsl
    structures are not part of /repo: a [bv_codec] and a [rank_codec] stand for
    them, and the theorems hold for every pair that reads back what it wrote. *)

From Verif Require Import Base FlatTrie LevelTrie FastTrie Tries.

(** [out.write(reinterpret_cast<char*>(&x), k)] on a little-endian machine.
    include/flatBinTrie.hpp:243-246, 259-262, include/binTrie.hpp:197-200,
    include/fastBinaryTrie.hpp:207-210. *)
Fixpoint le_bytes (k : nat) (x : N) : list N :=
  match k with
  | O => []
  | S k' => N.modulo x 256 :: le_bytes k' (N.div x 256)
  end.

(** The number that little-endian bytes stand for, the inverse:
    include/flatBinTrie.hpp:259-262. *)
Fixpoint le_value (l : list N) : N :=
  match l with
  | [] => 0
  | b :: l' => b + 256 * le_value l'
  end.

(** [in.read(p, k)].  Simplification: a stream that is too short would leave part of the
    variable unwritten; the model stops.  include/flatBinTrie.hpp:259-262,
    tools/build_tries.cpp:23, 52-58, tools/intersection_query_log.cpp:34-36, 212-216. *)
Fixpoint read_bytes (k : nat) (input : list N) : result (list N * list N) :=
  match k with
  | O => Ok ([], input)
  | S k' =>
    match input with
    | [] => UB Unmodelled
    | b :: input' =>
      let* (l, rest) := read_bytes k' input' in Ok (b :: l, rest)
    end
  end.

(** Reading a k-byte unsigned integer.  include/flatBinTrie.hpp:259-262,
    tools/build_tries.cpp:23, 52-58, tools/intersection_query_log.cpp:34-36, 212-216. *)
Definition read_le (k : nat) (input : list N) : result (N * list N) :=
  let* (l, rest) := read_bytes k input in Ok (le_value l, rest).

(** A bool occupies one byte; any byte but 0 and 1 is not a value of the type, and using it is
    undefined: [None].  include/flatBinTrie.hpp:245-246, tools/build_tries.cpp:75-76. *)
Definition bool_byte (b : bool) : N := if b then 1%N else 0%N.
(** The value of the byte of a bool: include/flatBinTrie.hpp:261-262,
    tools/intersection_query_log.cpp:215-216. *)
Definition byte_bool (x : N) : option bool :=
  if N.eqb x 0 then Some false else if N.eqb x 1 then Some true else None.

(** Reading a bool, before its first use: include/flatBinTrie.hpp:261-262,
    tools/intersection_query_log.cpp:215-216. *)
Definition read_obool (input : list N) : result (option bool * list N) :=
  let* (x, rest) := read_le 1 input in Ok (byte_bool x, rest).

(** Reading a bool that is used: include/flatBinTrie.hpp:261-262,
    tools/intersection_query_log.cpp:215-216. *)
Definition read_bool (input : list N) : result (bool * list N) :=
  let* (o, rest) := read_obool input in let* b := oget o in Ok (b, rest).

(** An sdsl bit vector: the bytes serialize() writes (it returns their number), and load().  No
    code in /repo: sdsl, whose serialize() and load() are called at
    include/flatBinTrie.hpp:249-250, 264-266. *)
Record bv_codec := mkBvCodec {
  bv_ser : list bool -> list N;
  bv_load : list N -> result (list bool * list N)
}.

(** An sdsl rank structure over a bit vector: the bytes serialize() writes, and load(in, &v),
    which gives the sequence that rank queries count in.  No code in /repo: sdsl, whose
    serialize() and load() are called at include/flatBinTrie.hpp:249-250, 264-266. *)
Record rank_codec := mkRankCodec {
  rk_ser : list bool -> list N;
  rk_load : list N -> list bool -> result (list bool * list N)
}.

(** What the theorems assume of sdsl.  No code in /repo: sdsl, whose serialize() and load() are
    called at include/flatBinTrie.hpp:249-250, 264-266. *)
Definition bv_codec_ok (c : bv_codec) : Prop :=
  forall v rest, (N.of_nat (length v) < 2 ^ 64)%N -> bv_load c (bv_ser c v ++ rest) = Ok (v, rest).

(** load() reads back what serialize() wrote. No code in /repo: sdsl, whose serialize() and
    load() are called at include/flatBinTrie.hpp:249-250, 264-266. *)
Definition rank_codec_ok (c : rank_codec) : Prop :=
  forall v rest, (N.of_nat (length v) < 2 ^ 64)%N -> rk_load c (rk_ser c v ++ rest) v = Ok (v, rest).

(** The formats used by one trie class: of bTrie, of lastLevel, of the rank
    structures.  (flatBinTrie_il keeps bTrie in a bit_vector_il and lastLevel in a
    bit_vector, include/flatBinTrie_il.hpp:18-20.) *)
Record codecs := mkCodecs {
  c_bv : bv_codec;
  c_last : bv_codec;
  c_rank : rank_codec
}.

(** The same for the formats of one class. No code in /repo: sdsl, whose serialize() and load()
    are called at include/flatBinTrie.hpp:249-250, 264-266. *)
Definition codecs_ok (c : codecs) : Prop :=
  bv_codec_ok (c_bv c) /\ bv_codec_ok (c_last c) /\ rank_codec_ok (c_rank c).

(** The four scalars every class writes first: height and height_with_runs (uint16_t),
    empty_trie and runs_encoded (bool).  include/flatBinTrie.hpp:243-246,
    include/binTrie.hpp:197-200, include/fastBinaryTrie.hpp:207-210. *)
Definition ser_scalars (height hwr : nat) (empty runs : bool) : list N :=
  le_bytes 2 (N.of_nat height) ++ le_bytes 2 (N.of_nat hwr)
  ++ [bool_byte empty] ++ [bool_byte runs].

(** The four scalars read back: include/flatBinTrie.hpp:259-262, include/binTrie.hpp:218-221,
    include/fastBinaryTrie.hpp:228-231. *)
Definition load_scalars (input : list N) : result (nat * nat * bool * bool * list N) :=
  let* (h, input) := read_le 2 input in
  let* (hwr, input) := read_le 2 input in
  let* (e, input) := read_bool input in
  let* (r, input) := read_bool input in
  Ok (N.to_nat h, N.to_nat hwr, e, r, input).

(** flatBinTrie::serialize: include/flatBinTrie.hpp:241-255,
    flatBinTrie_il.hpp:250-264.  The bytes and the returned value. *)
Definition flat_serialize (c : codecs) (t : flat) : list N * N :=
  let b := bv_ser (c_bv c) (f_bTrie t) in
  let l := bv_ser (c_last c) (f_lastLevel t) in
  let r := rk_ser (c_rank c) (f_rank t) in
  (ser_scalars (f_height t) (f_height_with_runs t) (f_empty_trie t) (f_runs_encoded t)
     ++ b ++ l ++ r,
   N.of_nat (length b) + N.of_nat (length l) + N.of_nat (length r) + 2 + 2 + 1 + 1)%N.

(** flatBinTrie::load: include/flatBinTrie.hpp:258-267, flatBinTrie_il.hpp:267-276.
    [old] is the receiving object. *)
Definition flat_load (c : codecs) (old : flat) (input : list N) : result (flat * list N) :=
  let* (h, hwr, e, r, input) := load_scalars input in
  let* (bt, input) := bv_load (c_bv c) input in
  let* (ll, input) := bv_load (c_last c) input in
  let* (rk, input) := rk_load (c_rank c) input bt in
  Ok (mkFlat h hwr e r bt ll rk, input).

(** flatBinTrie::size_in_bytes: include/flatBinTrie.hpp:230-239,
    flatBinTrie_il.hpp:239-248.  sdsl::size_in_bytes is the number of bytes
    serialize() writes; the scalars are counted as two bools and two uint8_t. *)
Definition flat_size_in_bytes (c : codecs) (t : flat) : N :=
  (N.of_nat (length (bv_ser (c_bv c) (f_bTrie t)))
   + N.of_nat (length (rk_ser (c_rank c) (f_rank t)))
   + N.of_nat (length (bv_ser (c_last c) (f_lastLevel t))) + 2 * 1 + 2 * 1)%N.

(** Loops [for (lvl = 0; lvl < n; ++lvl)] loading one structure per level.
    include/binTrie.hpp:226-227, include/binTrie_il.hpp:207-208. *)
Fixpoint load_bvs (c : bv_codec) (n : nat) (input : list N)
  : result (list (list bool) * list N) :=
  match n with
  | O => Ok ([], input)
  | S n' =>
    let* (v, input) := bv_load c input in
    let* (vs, input) := load_bvs c n' input in
    Ok (v :: vs, input)
  end.

(** The loop over the rank structures: include/binTrie.hpp:228-229,
    include/binTrie_il.hpp:209-210. *)
Fixpoint load_ranks (c : rank_codec) (vs : list (list bool)) (input : list N)
  : result (list (list bool) * list N) :=
  match vs with
  | [] => Ok ([], input)
  | v :: vs' =>
    let* (r, input) := rk_load c input v in
    let* (rs, input) := load_ranks c vs' input in
    Ok (r :: rs, input)
  end.

(** The sums of sizes in include/binTrie.hpp:178-191, 204-209. *)
Definition total_length (bs : list (list N)) : N :=
  fold_right (fun b n => N.of_nat (length b) + n)%N 0%N bs.

(** binTrie::serialize: include/binTrie.hpp:194-213; binTrie_il::serialize:
    include/binTrie_il.hpp:176-194, whose first write takes the value of height as
    the address of the bytes to write. *)
Definition level_serialize (c : codecs) (t : level_trie) : result (list N * N) :=
  if l_il t then UB NullDeref
  else
    let bs := map (bv_ser (c_bv c)) (l_bTrie t) in
    let rs := map (rk_ser (c_rank c)) (firstn (length (l_bTrie t) - 1) (l_rank t)) in
    Ok (ser_scalars (length (l_bTrie t)) (l_height_with_runs t) (l_empty_trie t)
                    (l_runs_encoded t) ++ concat bs ++ concat rs,
        total_length bs + total_length rs + 2 + 2 + 1 + 1)%N.

(** The loop of binTrie_il::load: include/binTrie_il.hpp:207-211. *)
Fixpoint load_il (c : codecs) (n : nat) (input : list N)
  : result (list (list bool) * list N) :=
  match n with
  | O => Ok ([], input)
  | S n' =>
    let* (v, input) := bv_load (c_bv c) input in
    let* input :=
      (if n' =? 0 then Ok input
       else let* (_, input) := rk_load (c_rank c) input v in Ok input) in
    let* (vs, input) := load_il c n' input in
    Ok (v :: vs, input)
  end.

(** binTrie::load: include/binTrie.hpp:216-230; binTrie_il::load:
    include/binTrie_il.hpp:197-213, which calls [bv_rank[lvl].load(in)] without the
    address of the bit vector.  A rank structure with a null vector pointer cannot
    be queried: here l_rank = [], so that a query is undefined ([OutOfBounds]).
    With height = 0 both construct a vector of height-1 = 2^64-1 rank structures,
    which throws; the model stops. *)
Definition level_load (c : codecs) (old : level_trie) (input : list N)
  : result (level_trie * list N) :=
  let* (h, hwr, e, r, input) := load_scalars input in
  if h =? 0 then UB Unmodelled
  else if l_il old then
    let* (bts, input) := load_il c h input in
    Ok (mkLevel true hwr e r bts [], input)
  else
    let* (bts, input) := load_bvs (c_bv c) h input in
    let* (rks, input) := load_ranks (c_rank c) (firstn (h - 1) bts) input in
    Ok (mkLevel false hwr e r bts rks, input).

(** What binTrie_il::serialize would write if its first write took [&height].
    include/binTrie_il.hpp:176-194; the write in question is line 179. *)
Fixpoint ser_il (c : codecs) (bts : list (list bool)) : list N :=
  match bts with
  | [] => []
  | [v] => bv_ser (c_bv c) v
  | v :: bts' => bv_ser (c_bv c) v ++ rk_ser (c_rank c) v ++ ser_il c bts'
  end.

(** The same of an object: include/binTrie_il.hpp:176-194. *)
Definition level_il_intended (c : codecs) (t : level_trie) : list N :=
  ser_scalars (length (l_bTrie t)) (l_height_with_runs t) (l_empty_trie t) (l_runs_encoded t)
  ++ ser_il c (l_bTrie t).

(** binTrie::size_in_bytes: include/binTrie.hpp:177-192 (two bools and two
    uint8_t); binTrie_il: include/binTrie_il.hpp:159-173 (two bools and a
    uint16_t). *)
Definition level_size_in_bytes (c : codecs) (t : level_trie) : N :=
  (total_length (map (bv_ser (c_bv c)) (l_bTrie t))
   + total_length (map (rk_ser (c_rank c)) (firstn (length (l_bTrie t) - 1) (l_rank t)))
   + 2 + 2)%N.

(** sizeof(wordType).  include/fastBinaryTrie.hpp:197, 219, 241. *)
Definition wbytes (lw : nat) : nat := 2 ^ (lw - 3).

(** fastBinaryTrie::serialize: include/fastBinaryTrie.hpp:206-224.  The bytes of an
    indeterminate height_with_runs or empty_trie are whatever the memory held:
    [junk_hwr], [junk_empty].  The returned value counts [sizeof(lastLevel)] = 24
    for the length and the words of the last level. *)
Definition fast_serialize (c : codecs) (junk_hwr junk_empty : N) (t : fast) : list N * N :=
  let b := bv_ser (c_bv c) (x_bTrie t) in
  let r := rk_ser (c_rank c) (x_rank t) in
  (le_bytes 2 (N.of_nat (x_height t))
   ++ le_bytes 2 (match x_height_with_runs t with Some h => N.of_nat h | None => junk_hwr end)
   ++ le_bytes 1 (match x_empty_trie t with Some e => bool_byte e | None => junk_empty end)
   ++ [bool_byte (x_runs_encoded t)]
   ++ b ++ r
   ++ le_bytes 8 (N.of_nat (length (x_lastLevel t)))
   ++ concat (map (le_bytes (wbytes (x_lw t))) (x_lastLevel t)),
   N.of_nat (length b) + N.of_nat (length r) + 24 + 2 + 2 + 1 + 1)%N.

(** The loop reading the words: include/fastBinaryTrie.hpp:237-241. *)
Fixpoint load_words (k n : nat) (input : list N) : result (list N * list N) :=
  match n with
  | O => Ok ([], input)
  | S n' =>
    let* (x, input) := read_le k input in
    let* (xs, input) := load_words k n' input in
    Ok (x :: xs, input)
  end.

(** fastBinaryTrie::load: include/fastBinaryTrie.hpp:227-243.  The words are pushed
    at the end of what lastLevel already holds. *)
Definition fast_load (c : codecs) (old : fast) (input : list N) : result (fast * list N) :=
  let lw := x_lw old in
  let* (h, input) := read_le 2 input in
  let* (hwr, input) := read_le 2 input in
  let* (e, input) := read_obool input in
  let* (r, input) := read_bool input in
  let* (bt, input) := bv_load (c_bv c) input in
  let* (rk, input) := rk_load (c_rank c) input bt in
  let* (n, input) := read_le 8 input in
  if N.ltb (N.of_nat (length input)) n then UB Unmodelled
  else
    let* (ws, input) := load_words (wbytes lw) (N.to_nat n) input in
    Ok (mkFast lw (N.to_nat h) (Some (N.to_nat hwr)) (N.to_nat h + lw - 1) r e bt
               (x_lastLevel old ++ ws) rk, input).

(** A default-constructed fast trie: include/fastBinaryTrie.hpp:31. *)
Definition fast_default (lw junk_h junk_hu : nat) (junk_hwr : option nat) (junk_runs : bool)
           (junk_empty : option bool) : fast :=
  mkFast lw junk_h junk_hwr junk_hu junk_runs junk_empty [] [] [].

(** fastBinaryTrie::size_in_bytes: include/fastBinaryTrie.hpp:194-204. *)
Definition fast_size_in_bytes (c : codecs) (t : fast) : N :=
  (N.of_nat (length (bv_ser (c_bv c) (x_bTrie t)))
   + N.of_nat (length (rk_ser (c_rank c) (x_rank t)))
   + (24 + N.of_nat (wbytes (x_lw t)) * N.of_nat (length (x_lastLevel t))) + 2 * 1 + 2 * 1)%N.

(** Virtual dispatch: include/binaryTrie.hpp:25-26. *)
Definition bin_serialize (c : codecs) (t : bin_trie) : result (list N * N) :=
  match t with
  | BFlat t => Ok (flat_serialize c t)
  | BLevel t => level_serialize c t
  end.

(** Virtual dispatch of load: include/binaryTrie.hpp:26. *)
Definition bin_load (c : codecs) (old : bin_trie) (input : list N)
  : result (bin_trie * list N) :=
  match old with
  | BFlat t => let* (t', rest) := flat_load c t input in Ok (BFlat t', rest)
  | BLevel t => let* (t', rest) := level_load c t input in Ok (BLevel t', rest)
  end.

(** Virtual dispatch of size_in_bytes: include/binaryTrie.hpp:24. *)
Definition bin_size_in_bytes (c : codecs) (t : bin_trie) : N :=
  match t with
  | BFlat t => flat_size_in_bytes c t
  | BLevel t => level_size_in_bytes c t
  end.

(** A pair of formats for concrete examples.  Bit vector (sdsl int_vector<1>): the number of
    bits on 8 bytes, then the bits in 8-byte words.  Rank structure: for each 64-bit word, the
    number of ones before it, on 8 bytes; load() needs the same directory.  Only for examples;
    no code in /repo: sdsl, called at include/flatBinTrie.hpp:249-250, 264-266. *)
Fixpoint bits_value (v : list bool) : N :=
  match v with
  | [] => 0
  | b :: v' => b2N b + 2 * bits_value v'
  end.

(** The bits of a number of [k] bits. Only for examples; no code in /repo: sdsl, called at
    include/flatBinTrie.hpp:249-250, 264-266. *)
Fixpoint value_bits (k : nat) (x : N) : list bool :=
  match k with
  | O => []
  | S k' => N.odd x :: value_bits k' (N.div x 2)
  end.

(** The bits in 64-bit words, as bytes. Only for examples; no code in /repo: sdsl, called at
    include/flatBinTrie.hpp:249-250, 264-266. *)
Fixpoint bits_bytes (fuel : nat) (v : list bool) : list N :=
  match fuel with
  | O => []
  | S fuel' =>
    match v with
    | [] => []
    | _ => le_bytes 8 (bits_value (firstn 64 v)) ++ bits_bytes fuel' (skipn 64 v)
    end
  end.

(** The inverse of [bits_bytes]. Only for examples; no code in /repo: sdsl, called at
    include/flatBinTrie.hpp:249-250, 264-266. *)
Fixpoint load_bits (fuel : nat) (n : N) (input : list N) : result (list bool * list N) :=
  match fuel with
  | O => if N.eqb n 0 then Ok ([], input) else UB Unmodelled
  | S fuel' =>
    if N.eqb n 0 then Ok ([], input)
    else
      let* (x, input) := read_le 8 input in
      let k := N.min 64 n in
      let* (v, input) := load_bits fuel' (n - k) input in
      Ok (value_bits (N.to_nat k) x ++ v, input)
  end.

(** The bit vector. Only for examples; no code in /repo: sdsl, called at
    include/flatBinTrie.hpp:249-250, 264-266. *)
Definition sdsl_bv : bv_codec := mkBvCodec
  (fun v => le_bytes 8 (N.of_nat (length v)) ++ bits_bytes (length v) v)
  (fun input => let* (n, input) := read_le 8 input in load_bits (length input) n input).

(** A count for each block of bits. Only for examples; no code in /repo: sdsl, called at
    include/flatBinTrie.hpp:249-250, 264-266. *)
Fixpoint directory (fuel : nat) (v : list bool) (acc : N) : list N :=
  match fuel with
  | O => []
  | S fuel' =>
    match v with
    | [] => []
    | _ => le_bytes 8 acc
           ++ directory fuel' (skipn 64 v) (acc + N.of_nat (count_true (firstn 64 v)))
    end
  end.

(** Reading back a known text. Only for examples; no code in /repo: sdsl, called at
    include/flatBinTrie.hpp:249-250, 264-266. *)
Fixpoint strip (prefix input : list N) : result (list N) :=
  match prefix, input with
  | [], _ => Ok input
  | p :: prefix', x :: input' => if N.eqb p x then strip prefix' input' else UB Unmodelled
  | _ :: _, [] => UB Unmodelled
  end.

(** The rank structure. Only for examples; no code in /repo: sdsl, called at
    include/flatBinTrie.hpp:249-250, 264-266. *)
Definition dir_rank : rank_codec := mkRankCodec
  (fun v => directory (length v) v 0)
  (fun input v => let* rest := strip (directory (length v) v 0) input in Ok (v, rest)).

(** The two together. Only for examples; no code in /repo: sdsl, called at
    include/flatBinTrie.hpp:249-250, 264-266. *)
Definition plain_codecs : codecs := mkCodecs sdsl_bv sdsl_bv dir_rank.
