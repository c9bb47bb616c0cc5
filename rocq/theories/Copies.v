(** Objects and their copies.  The classes of include/ have no copy constructor of
    their own (include/flatBinTrie.hpp:25-26, flatBinTrie_il.hpp:24-25,
    include/binTrie.hpp:24-26, binTrie_il.hpp:23-24,
    include/fastBinaryTrie.hpp:31-32), so a copy is made member by member.  The bit
    vectors are copied with their bits; a rank structure is copied with its counts and
    its pointer to the bit vector, which still is the one of the original.  As the
    destructor is declared there is no move constructor either: a
    std::vector of tries that grows copies its elements and destroys the originals.

    Simplification: a rank query through a pointer to a bit vector that no longer
    exists, or whose bits have changed since the counts were made, is undefined (in
    the second case the real code returns some number or reads outside the new
    vector). *)

From Verif Require Import Base FlatTrie LevelTrie FastTrie ParallelFor Intersection Tries.

(** An object of one of the classes of include/flatBinTrie.hpp:17, include/binTrie.hpp:17,
    include/fastBinaryTrie.hpp:19 and their _il variants. *)
Inductive any_trie := ABin (t : bin_trie) | AFast (t : fast).

(** The bit vectors that rank structures can point to.  bTrie: include/flatBinTrie.hpp:20,
    include/binTrie.hpp:20, include/fastBinaryTrie.hpp:26. *)
Definition any_bits (t : any_trie) : list (list bool) :=
  match t with
  | ABin (BFlat t) => [f_bTrie t]
  | ABin (BLevel t) => l_bTrie t
  | AFast t => [x_bTrie t]
  end.

(** The sequences whose counts the rank structures hold.  b_rank, bv_rank:
    include/flatBinTrie.hpp:22, include/binTrie.hpp:21, include/fastBinaryTrie.hpp:28. *)
Definition any_rank (t : any_trie) : list (list bool) :=
  match t with
  | ABin (BFlat t) => [f_rank t]
  | ABin (BLevel t) => l_rank t
  | AFast t => [x_rank t]
  end.

(** The same object with every rank query undefined.  Used where a rank structure has a stale
    pointer; rank is called at include/flatBinTrie.hpp:213, 225, include/binTrie.hpp:166, 174,
    include/fastBinaryTrie.hpp:181, 189. *)
Definition unranked (t : any_trie) : any_trie :=
  match t with
  | ABin (BFlat t) =>
    ABin (BFlat (mkFlat (f_height t) (f_height_with_runs t) (f_empty_trie t) (f_runs_encoded t)
                        (f_bTrie t) (f_lastLevel t) []))
  | ABin (BLevel t) =>
    ABin (BLevel (mkLevel (l_il t) (l_height_with_runs t) (l_empty_trie t) (l_runs_encoded t)
                          (l_bTrie t) []))
  | AFast t =>
    AFast (mkFast (x_lw t) (x_height t) (x_height_with_runs t) (x_height_u t) (x_runs_encoded t)
                  (x_empty_trie t) (x_bTrie t) (x_lastLevel t) [])
  end.

(** An object, and the address of the object whose bit vectors its rank structures point to.
    The pointer is set by rankType(&bTrie) at include/flatBinTrie.hpp:140 and by load(in,
    &bTrie) at include/flatBinTrie.hpp:266. *)
Record obj := mkObj { o_trie : any_trie; o_src : nat }.

(** Addresses are positions; destroyed objects are [None].  No code of its own: the objects of a
    program, e.g. tools/build_tries.cpp:103, tools/intersection_query_log.cpp:45-79. *)
Definition memory := list (option obj).

(** The use of an object that exists, e.g. tools/intersection_query_log.cpp:78. *)
Definition at_address (m : memory) (a : nat) : result obj :=
  match nth_error m a with
  | Some (Some o) => Ok o
  | _ => UB Dangling
  end.

(** No code of its own: whether the pointer set at include/flatBinTrie.hpp:140 still leads to
    the bits that were counted. *)
Definition rank_valid (m : memory) (o : obj) : bool :=
  match nth_error m (o_src o) with
  | Some (Some p) =>
    if list_eq_dec (list_eq_dec Bool.bool_dec)
         (firstn (length (any_rank (o_trie o))) (any_bits (o_trie p))) (any_rank (o_trie o))
    then true else false
  | _ => false
  end.

(** The object as its methods see it.  What include/flatBinTrie.hpp:206-227,
    include/binTrie.hpp:162-175 and include/fastBinaryTrie.hpp:172-191 compute. *)
Definition view (m : memory) (a : nat) : result any_trie :=
  let* o := at_address m a in
  Ok (if rank_valid m o then o_trie o else unranked (o_trie o)).

(** Which constructor is called, e.g. tools/build_tries.cpp:103-159,
    tools/build_fastTries.cpp:98, 107. *)
Inductive maker :=
| MakeBin (v : variant)
| MakeFast (lw : nat) (jh : option nat) (je : option bool).

(** The constructors: include/flatBinTrie.hpp:28-141, include/binTrie.hpp:28-128,
    include/fastBinaryTrie.hpp:34-148. *)
Definition any_make (k : maker) (s : list N) (u : N) : result any_trie :=
  match k with
  | MakeBin v => let* t := bin_build v s u in Ok (ABin t)
  | MakeFast lw jh je => let* t := fast_build lw jh je s u in Ok (AFast t)
  end.

(** encodeRuns: include/flatBinTrie.hpp:376-384, include/binTrie.hpp:329-339,
    include/fastBinaryTrie.hpp:334-347. *)
Definition any_encodeRuns (t : any_trie) : result any_trie :=
  match t with
  | ABin t => let* t' := bin_encodeRuns t in Ok (ABin t')
  | AFast t => let* t' := fast_encodeRuns t in Ok (AFast t')
  end.

(** decode: include/flatBinTrie.hpp:446-458, include/binTrie.hpp:401-415,
    include/fastBinaryTrie.hpp:415-427. *)
Definition any_decode (t : any_trie) (v : list N) : result (list N) :=
  match t with
  | ABin t => bin_decode t v
  | AFast t => fast_decode t v
  end.

(** Operations on objects.  [Load a t]: load() of a stored trie [t] into [a]; like encodeRuns it
    attaches the rank structures to the object's own bits.  The implicit copy operations
    (include/flatBinTrie.hpp:25-26, include/binTrie.hpp:24-26,
    include/fastBinaryTrie.hpp:31-32), and include/flatBinTrie.hpp:28-141, 258-267, 376-384. *)
Inductive event :=
| Make (k : maker) (s : list N) (u : N)
| Copy (a : nat)
| Assign (a b : nat)
| Destroy (a : nat)
| Encode (a : nat)
| Load (a : nat) (t : any_trie)
| Decode (a : nat).

(** An assignment to an object, e.g. trie_v = ...: tools/build_tries.cpp:103. *)
Definition put (m : memory) (a : nat) (o : option obj) : result memory :=
  let* _ := at_address m a in vset m a o.

(** The implicit copy operations (include/flatBinTrie.hpp:25-26, include/binTrie.hpp:24-26,
    include/fastBinaryTrie.hpp:31-32), the constructors, encodeRuns and load:
    include/flatBinTrie.hpp:28-141, 258-267, 376-384, include/binTrie.hpp:28-128, 216-230,
    329-339, include/fastBinaryTrie.hpp:34-148, 227-245, 334-347. *)
Definition step (m : memory) (e : event) : result memory :=
  match e with
  | Make k s u => let* t := any_make k s u in Ok (m ++ [Some (mkObj t (length m))])
  | Copy a => let* o := at_address m a in Ok (m ++ [Some o])
  | Assign a b => let* o := at_address m b in put m a (Some o)
  | Destroy a => put m a None
  | Encode a => let* t := view m a in let* t' := any_encodeRuns t in put m a (Some (mkObj t' a))
  | Load a t => put m a (Some (mkObj t a))
  | Decode a => let* t := view m a in let* _ := any_decode t [] in Ok m
  end.

(** No code of its own: the operations of a program in order, e.g.
    tools/build_tries.cpp:103-107. *)
Fixpoint run (m : memory) (es : list event) : result memory :=
  match es with
  | [] => Ok m
  | e :: es' => let* m' := step m e in run m' es'
  end.

(** The object at address [a] decoded.  include/binaryTrie.hpp:28. *)
Definition decode_at (m : memory) (a : nat) : result (list N) :=
  let* t := view m a in any_decode t [].
