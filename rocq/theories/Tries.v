(** The abstract class of include/binaryTrie.hpp and its four implementations:
    virtual dispatch. *)

From Verif Require Import Base FlatTrie LevelTrie FastTrie ParallelFor Intersection.

(** flatBinTrie ([VFlat false]), flatBinTrie_il ([VFlat true]), binTrie
    ([VLevel false]), binTrie_il ([VLevel true]): the classes derived from
    binaryTrie, include/binaryTrie.hpp:7-30. *)
Inductive variant := VFlat (il : bool) | VLevel (il : bool).

(** A binaryTrie pointer: an object of one of the four classes.  include/binaryTrie.hpp:7-29. *)
Inductive bin_trie := BFlat (t : flat) | BLevel (t : level_trie).

(** The two-argument constructors.  The two flat classes build the same bits; they differ in the
    rank structure and in methods that are not virtual.  include/flatBinTrie.hpp:28-141,
    include/flatBinTrie_il.hpp:27-143, include/binTrie.hpp:28-128,
    include/binTrie_il.hpp:31-124. *)
Definition bin_build (v : variant) (s : list N) (u : N) : result bin_trie :=
  match v with
  | VFlat _ => let* t := flat_build s u in Ok (BFlat t)
  | VLevel il => let* t := level_build il s u in Ok (BLevel t)
  end.

(** encodeRuns: include/binaryTrie.hpp:27. *)
Definition bin_encodeRuns (t : bin_trie) : result bin_trie :=
  match t with
  | BFlat t => let* t' := flat_encodeRuns t in Ok (BFlat t')
  | BLevel t => let* t' := level_encodeRuns t in Ok (BLevel t')
  end.

(** decode: include/binaryTrie.hpp:28. *)
Definition bin_decode (t : bin_trie) (v : list N) : result (list N) :=
  match t with
  | BFlat t => flat_decode t v
  | BLevel t => level_decode t v
  end.

(** getHeight, getNode, getLeftChild, getRightChild: include/binaryTrie.hpp:20-23. *)
Definition bin_ops (t : bin_trie) : trie_ops :=
  match t with
  | BFlat t => flat_ops t
  | BLevel t => level_ops t
  end.

(** Building one trie and run-encoding it or not, as tools/build_tries.cpp:103-161
    does for each posting list. *)
Definition bin_make (u : N) (v : variant) (enc : bool) (s : list N) : result bin_trie :=
  let* t := bin_build v s u in
  if enc then bin_encodeRuns t else Ok t.

(** The same for a fast trie: tools/build_fastTries.cpp:97-114. *)
Definition fast_make (u : N) (lw : nat) (jh : option nat) (je : option bool) (enc : bool)
           (s : list N) : result fast :=
  let* t := fast_build lw jh je s u in
  if enc then fast_encodeRuns t else Ok t.

(** A loop that computes one result per element.  No code of its own: such as
    tools/intersection_query_log.cpp:41-81, 130-158. *)
Fixpoint each_ok {X Y} (f : X -> result Y) (l : list X) : result (list Y) :=
  match l with
  | [] => Ok []
  | x :: l' => let* y := f x in let* ys := each_ok f l' in Ok (y :: ys)
  end.
