(** The decoders with a record of the calls made, in order.  Each call is its curr_level and
    partial_int.  Apart from the record the text is that of FlatTrie.v, LevelTrie.v and
    FastTrie.v; DecodeCallsThms.v proves that without it the two compute the same. *)

From Verif Require Import Base FlatTrie LevelTrie FastTrie Tries Calls.

Section DecodeCalls.
  Variable height : nat.
  Variable stop : nat.
  Variable getNode : nat -> nat -> result N.
  Variable getLeftChild getRightChild : nat -> nat -> result nat.

  (** recursiveDecode: include/flatBinTrie.hpp:387-409, flatBinTrie_il.hpp:398-420,
      include/binTrie.hpp:342-364, binTrie_il.hpp:328-350. *)
  Fixpoint recursiveDecode_calls (fuel : nat) (decoded : list N) (partial_int : N)
           (node_id curr_level : nat) (c : calls) : result (list N * calls) :=
    let c := c ++ [(curr_level, partial_int)] in
    if curr_level =? stop then Ok (decoded ++ [partial_int], c)
    else
      match fuel with
      | O => OutOfFuel
      | S fuel' =>
        let* node := getNode node_id curr_level in
        let* (decoded, c) :=
          (if (N.eqb node 2 || N.eqb node 3)%bool then
             let* n := getLeftChild node_id curr_level in
             recursiveDecode_calls fuel' decoded partial_int n (S curr_level) c
           else Ok (decoded, c)) in
        if (N.eqb node 1 || N.eqb node 3)%bool then
          let* b := shl1 (height - curr_level - 1) in
          let* n := getRightChild node_id curr_level in
          recursiveDecode_calls fuel' decoded (N.lor partial_int b) n (S curr_level) c
        else Ok (decoded, c)
      end.

  (** runsRecursiveDecode: include/flatBinTrie.hpp:412-443, flatBinTrie_il.hpp:423-454,
      include/binTrie.hpp:367-398, binTrie_il.hpp:353-384. *)
  Fixpoint runsRecursiveDecode_calls (fuel : nat) (decoded : list N) (partial_int : N)
           (node_id curr_level : nat) (c : calls) : result (list N * calls) :=
    let c := c ++ [(curr_level, partial_int)] in
    if curr_level =? stop then Ok (decoded ++ [partial_int], c)
    else
      match fuel with
      | O => OutOfFuel
      | S fuel' =>
        let* node := getNode node_id curr_level in
        if N.eqb node 0 then
          let* b := shl1 (height - curr_level) in
          Ok (push_range decoded partial_int (N.lor partial_int (b - 1)), c)
        else
          let* (decoded, c) :=
            (if (N.eqb node 2 || N.eqb node 3)%bool then
               let* n := getLeftChild node_id curr_level in
               runsRecursiveDecode_calls fuel' decoded partial_int n (S curr_level) c
             else Ok (decoded, c)) in
          if (N.eqb node 1 || N.eqb node 3)%bool then
            let* b := shl1 (height - curr_level - 1) in
            let* n := getRightChild node_id curr_level in
            runsRecursiveDecode_calls fuel' decoded (N.lor partial_int b) n (S curr_level) c
          else Ok (decoded, c)
      end.
End DecodeCalls.

(** decode: include/flatBinTrie.hpp:446-458, flatBinTrie_il.hpp:457-471. *)
Definition flat_decode_calls (t : flat) (decoded : list N) : result (list N * calls) :=
  if f_runs_encoded t then
    if f_empty_trie t then Ok (decoded, [])
    else runsRecursiveDecode_calls (f_height t) (f_height t) (flat_getNode t)
           (flat_getLeftChild t) (flat_getRightChild t) (S (f_height t)) decoded 0 0 0 []
  else
    recursiveDecode_calls (f_height t) (f_height t) (flat_getNode t)
      (flat_getLeftChild t) (flat_getRightChild t) (S (f_height t)) decoded 0 0 0 [].

(** decode: include/binTrie.hpp:401-415, include/binTrie_il.hpp:387-401. *)
Definition level_decode_calls (t : level_trie) (decoded : list N) : result (list N * calls) :=
  let h := level_getHeight t in
  if l_runs_encoded t then
    if l_empty_trie t then Ok (decoded, [])
    else runsRecursiveDecode_calls h (l_height_with_runs t) (level_getNode t)
           (level_getLeftChild t) (level_getRightChild t) (S h) decoded 0 0 0 []
  else
    recursiveDecode_calls h h (level_getNode t)
      (level_getLeftChild t) (level_getRightChild t) (S h) decoded 0 0 0 [].

(** Virtual dispatch: include/binaryTrie.hpp:28. *)
Definition bin_decode_calls (t : bin_trie) (v : list N) : result (list N * calls) :=
  match t with
  | BFlat t => flat_decode_calls t v
  | BLevel t => level_decode_calls t v
  end.

(** recursiveDecode: include/fastBinaryTrie.hpp:350-374. *)
Fixpoint fast_recursiveDecode_calls (fuel : nat) (t : fast) (decoded : list N)
         (partial_int : N) (node_id curr_level : nat) (c : calls) : result (list N * calls) :=
  let c := c ++ [(curr_level, partial_int)] in
  if S curr_level =? x_height t then
    let* w := fast_getWord t node_id in
    let* decoded := word_bits (word_fuel (x_lw t)) (x_lw t) w partial_int decoded in
    Ok (decoded, c)
  else
    match fuel with
    | O => OutOfFuel
    | S fuel' =>
      let* node := fast_getNode t node_id curr_level in
      let* (decoded, c) :=
        (if (N.eqb node 2 || N.eqb node 3)%bool then
           let* n := fast_getLeftChild t node_id curr_level in
           fast_recursiveDecode_calls fuel' t decoded partial_int n (S curr_level) c
         else Ok (decoded, c)) in
      if (N.eqb node 1 || N.eqb node 3)%bool then
        let* b := shl1 (x_height_u t - curr_level - 1) in
        let* n := fast_getRightChild t node_id curr_level in
        fast_recursiveDecode_calls fuel' t decoded (N.lor partial_int b) n (S curr_level) c
      else Ok (decoded, c)
    end.

(** runsRecursiveDecode: include/fastBinaryTrie.hpp:377-412. *)
Fixpoint fast_runsRecursiveDecode_calls (fuel : nat) (t : fast) (decoded : list N)
         (partial_int : N) (node_id curr_level : nat) (c : calls) : result (list N * calls) :=
  let c := c ++ [(curr_level, partial_int)] in
  if S curr_level =? x_height t then
    let* w := fast_getWord t node_id in
    let* decoded := word_bits (word_fuel (x_lw t)) (x_lw t) w partial_int decoded in
    Ok (decoded, c)
  else
    match fuel with
    | O => OutOfFuel
    | S fuel' =>
      let* node := fast_getNode t node_id curr_level in
      if N.eqb node 0 then
        let* b := shl1 (x_height_u t - curr_level) in
        Ok (push_range decoded partial_int (N.lor partial_int (b - 1)), c)
      else
        let* (decoded, c) :=
          (if (N.eqb node 2 || N.eqb node 3)%bool then
             let* n := fast_getLeftChild t node_id curr_level in
             fast_runsRecursiveDecode_calls fuel' t decoded partial_int n (S curr_level) c
           else Ok (decoded, c)) in
        if (N.eqb node 1 || N.eqb node 3)%bool then
          let* b := shl1 (x_height_u t - curr_level - 1) in
          let* n := fast_getRightChild t node_id curr_level in
          fast_runsRecursiveDecode_calls fuel' t decoded (N.lor partial_int b) n (S curr_level) c
        else Ok (decoded, c)
    end.

(** decode: include/fastBinaryTrie.hpp:415-427. *)
Definition fast_decode_calls (t : fast) (decoded : list N) : result (list N * calls) :=
  if x_runs_encoded t then
    let* e := oget (x_empty_trie t) in
    if e then Ok (decoded, [])
    else fast_runsRecursiveDecode_calls (S (x_height t)) t decoded 0 0 0 []
  else fast_recursiveDecode_calls (S (x_height t)) t decoded 0 0 0 [].
