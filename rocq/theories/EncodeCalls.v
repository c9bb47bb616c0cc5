(** encodeRuns with a record of the calls made, in order.  Each call is its curr_level and the
    prefix that its node stands for, as in Calls.v.  The code does not compute the prefix: the
    argument [p] is there for the record only.  Apart from the record the text is that of
    FlatTrie.v, LevelTrie.v and FastTrie.v; EncodeCallsThms.v proves that without it the two
    compute the same. *)

From Verif Require Import Base FlatTrie LevelTrie FastTrie Tries Calls.

Section EncodeCalls.
  Variable height : nat.
  Variable getNode : nat -> nat -> result N.
  Variable getLeftChild getRightChild : nat -> nat -> result nat.

  (** writeCompressTrie: include/flatBinTrie.hpp:270-337,
      include/flatBinTrie_il.hpp:279-346, include/binTrie.hpp:233-300,
      include/binTrie_il.hpp:215-282. *)
  Fixpoint writeCompressTrie_calls (fuel : nat) (st : wc_state) (curr_level node_id : nat)
           (its11 : bool) (p : N) (c : calls) : result (wc_state * bool * calls) :=
    match fuel with
    | O => OutOfFuel
    | S fuel' =>
      let c := c ++ [(curr_level, p)] in
      let right := (p + 2 ^ N.of_nat (height - curr_level - 1))%N in
      let* node := getNode node_id curr_level in
      if S curr_level =? height then
        let* (st, its11) := wc_leaf st curr_level node its11 in Ok (st, its11, c)
      else
        let next := S curr_level in
        let* _ := vget (snd st) next in
        if N.eqb node 3 then
          let* l_child := getLeftChild node_id curr_level in
          let r_child := l_child + 1 in
          let* (st, its11_l, c) := writeCompressTrie_calls fuel' st next l_child false p c in
          let* (st, its11_r, c) := writeCompressTrie_calls fuel' st next r_child false right c in
          let its11 := its11_l && its11_r in
          let* st :=
            (if its11 then
               let* st := sub4_pos st next in
               if S (S curr_level) =? height then pop_ones 4 st next else Ok st
             else
               let* p := vget (snd st) curr_level in
               let* st := push_one st curr_level p in
               push_one st curr_level (p + 1)) in
          let* st := add_pos st curr_level 2 in
          Ok (st, its11, c)
        else if N.eqb node 2 then
          let* l_child := getLeftChild node_id curr_level in
          let* pos := vget (snd st) curr_level in
          let* st := push_one st curr_level pos in
          let* (st, _, c) := writeCompressTrie_calls fuel' st next l_child false p c in
          let* st := add_pos st curr_level 1 in
          let* st := add_pos st curr_level 1 in
          Ok (st, its11, c)
        else if N.eqb node 1 then
          let* st := add_pos st curr_level 1 in
          let* r_child := getRightChild node_id curr_level in
          let* pos := vget (snd st) curr_level in
          let* st := push_one st curr_level pos in
          let* (st, _, c) := writeCompressTrie_calls fuel' st next r_child false right c in
          let* st := add_pos st curr_level 1 in
          Ok (st, its11, c)
        else Ok (st, its11, c)
    end.

  (** include/flatBinTrie.hpp:378-382, include/binTrie.hpp:333-337. *)
  Definition compress_run_calls : result (wc_state * calls) :=
    let* (st, _, c) :=
      writeCompressTrie_calls (S height) (repeat [] height, repeat 0 height) 0 0 false 0 [] in
    Ok (st, c).
End EncodeCalls.

(** include/flatBinTrie.hpp:376-384, flatBinTrie_il.hpp:388-395. *)
Definition flat_encodeRuns_calls (t : flat) : result (flat * calls) :=
  let* (st, c) := compress_run_calls (f_height t) (flat_getNode t)
                          (flat_getLeftChild t) (flat_getRightChild t) in
  let* t' := flat_writeOnes t st in Ok (t', c).

(** include/binTrie.hpp:329-339, include/binTrie_il.hpp:316-325. *)
Definition level_encodeRuns_calls (t : level_trie) : result (level_trie * calls) :=
  let* (st, c) := compress_run_calls (level_getHeight t) (level_getNode t)
                          (level_getLeftChild t) (level_getRightChild t) in
  let* t' := level_writeOnes t st in Ok (t', c).

(** Virtual dispatch: include/binaryTrie.hpp:27. *)
Definition bin_encodeRuns_calls (t : bin_trie) : result (bin_trie * calls) :=
  match t with
  | BFlat t => let* (t', c) := flat_encodeRuns_calls t in Ok (BFlat t', c)
  | BLevel t => let* (t', c) := level_encodeRuns_calls t in Ok (BLevel t', c)
  end.

(** writeCompressTrie: include/fastBinaryTrie.hpp:248-306. *)
Fixpoint fast_writeCompress_calls (fuel : nat) (t : fast) (st : wc_state) (ws : list N)
         (curr_level node_id : nat) (its11 : bool) (p : N) (c : calls)
  : result (wc_state * list N * bool * calls) :=
  match fuel with
  | O => OutOfFuel
  | S fuel' =>
    let c := c ++ [(curr_level, p)] in
    let right := (p + 2 ^ N.of_nat (x_height_u t - curr_level - 1))%N in
    if S curr_level =? x_height t then
      let* w := fast_getWord t node_id in
      let its11 := if N.eqb w (wmax (x_lw t)) then true else its11 in
      let* pos := vget (snd st) curr_level in
      let* st := push_one st curr_level pos in
      Ok (st, ws ++ [w], its11, c)
    else
      let* node := fast_getNode t node_id curr_level in
      let next := S curr_level in
      let* _ := vget (snd st) next in
      if N.eqb node 3 then
        let* l_child := fast_getLeftChild t node_id curr_level in
        let r_child := l_child + 1 in
        let* (st, ws, its11_l, c) := fast_writeCompress_calls fuel' t st ws next l_child false p c in
        let* (st, ws, its11_r, c) := fast_writeCompress_calls fuel' t st ws next r_child false right c in
        let its11 := its11_l && its11_r in
        let* (st, ws) :=
          (if its11 then
             let* ws :=
               (if S (S curr_level) =? x_height t
                then for_loop 2 0 (fun _ ws => vpop ws) ws else Ok ws) in
             let* st := xc_sub4 st next in
             Ok (st, ws)
           else
             let* pos := vget (snd st) curr_level in
             let* st := push_one st curr_level pos in
             let* st := push_one st curr_level (pos + 1) in
             Ok (st, ws)) in
        let* st := add_pos st curr_level 2 in
        Ok (st, ws, its11, c)
      else if N.eqb node 2 then
        let* l_child := fast_getLeftChild t node_id curr_level in
        let* pos := vget (snd st) curr_level in
        let* st := push_one st curr_level pos in
        let* (st, ws, _, c) := fast_writeCompress_calls fuel' t st ws next l_child false p c in
        let* st := add_pos st curr_level 1 in
        let* st := add_pos st curr_level 1 in
        Ok (st, ws, its11, c)
      else if N.eqb node 1 then
        let* st := add_pos st curr_level 1 in
        let* r_child := fast_getRightChild t node_id curr_level in
        let* pos := vget (snd st) curr_level in
        let* st := push_one st curr_level pos in
        let* (st, ws, _, c) := fast_writeCompress_calls fuel' t st ws next r_child false right c in
        let* st := add_pos st curr_level 1 in
        Ok (st, ws, its11, c)
      else Ok (st, ws, its11, c)
  end.

(** include/fastBinaryTrie.hpp:334-347. *)
Definition fast_encodeRuns_calls (t : fast) : result (fast * calls) :=
  let h := x_height t in
  let* (st, ws, _, c) :=
    fast_writeCompress_calls (S h) t (repeat [] h, repeat 0 h) [] 0 0 false 0 [] in
  let* t' := fast_writeOnes t st ws in Ok (t', c).
