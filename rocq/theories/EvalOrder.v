(** flatBinTrie::serialize for both orders in which a compiler may evaluate
    [bTrie.serialize(out) + lastLevel.serialize(out)].

    C++ leaves the order of the operands of [+] unspecified, and here each operand writes to the
    stream.  Serialize.v takes them from left to right. *)

From Verif Require Import Base FlatTrie Serialize.

(** The bytes and the returned value: include/flatBinTrie.hpp:241-255,
    include/flatBinTrie_il.hpp:250-264.  The expression is on line 249 (258). *)
Definition flat_serialize_order (c : codecs) (right_first : bool) (t : flat) : list N * N :=
  let b := bv_ser (c_bv c) (f_bTrie t) in
  let l := bv_ser (c_last c) (f_lastLevel t) in
  let r := rk_ser (c_rank c) (f_rank t) in
  (ser_scalars (f_height t) (f_height_with_runs t) (f_empty_trie t) (f_runs_encoded t)
     ++ (if right_first then l ++ b else b ++ l) ++ r,
   N.of_nat (length b) + N.of_nat (length l) + N.of_nat (length r) + 2 + 2 + 1 + 1)%N.
