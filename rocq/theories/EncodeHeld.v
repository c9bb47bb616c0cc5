(** encodeRuns with a record of what is held for the new trie: each time positions are put into
    ones_to_write[] or taken out of it, and when a call ends, the number of positions then in
    all its vectors together; for fast tries also the number of words in newLastLevel.  Apart
    from the record the text is that of FlatTrie.v, LevelTrie.v and FastTrie.v;
    EncodeHeldThms.v proves that without it the two compute the same. *)

From Verif Require Import Base FlatTrie LevelTrie FastTrie Tries.

(** The positions in all vectors of ones_to_write[]: include/flatBinTrie.hpp:378. *)
Definition held (st : wc_state) : nat := length (concat (fst st)).

Section EncodeHeld.
  Variable height : nat.
  Variable getNode : nat -> nat -> result N.
  Variable getLeftChild getRightChild : nat -> nat -> result nat.

  (** writeCompressTrie: include/flatBinTrie.hpp:270-337,
      include/flatBinTrie_il.hpp:279-346, include/binTrie.hpp:233-300,
      include/binTrie_il.hpp:215-282.  The two positions of a node at the last level, and
      those of a node with two children, are put in without a record between them. *)
  Fixpoint writeCompressTrie_held (fuel : nat) (st : wc_state) (curr_level node_id : nat)
           (its11 : bool) (ms : list nat) : result (wc_state * bool * list nat) :=
    match fuel with
    | O => OutOfFuel
    | S fuel' =>
      let* node := getNode node_id curr_level in
      if S curr_level =? height then
        let* (st, its11) := wc_leaf st curr_level node its11 in Ok (st, its11, ms ++ [held st])
      else
        let next := S curr_level in
        let* _ := vget (snd st) next in
        if N.eqb node 3 then
          let* l_child := getLeftChild node_id curr_level in
          let r_child := l_child + 1 in
          let* (st, its11_l, ms) := writeCompressTrie_held fuel' st next l_child false ms in
          let* (st, its11_r, ms) := writeCompressTrie_held fuel' st next r_child false ms in
          let its11 := its11_l && its11_r in
          let* st :=
            (if its11 then
               let* st := sub4_pos st next in
               if S (S curr_level) =? height then pop_ones 4 st next else Ok st
             else
               let* p := vget (snd st) curr_level in
               let* st := push_one st curr_level p in
               push_one st curr_level (p + 1)) in
          let* st := add_pos st curr_level 2 in
          Ok (st, its11, ms ++ [held st])
        else if N.eqb node 2 then
          let* l_child := getLeftChild node_id curr_level in
          let* p := vget (snd st) curr_level in
          let* st := push_one st curr_level p in
          let* (st, _, ms) := writeCompressTrie_held fuel' st next l_child false (ms ++ [held st]) in
          let* st := add_pos st curr_level 1 in
          let* st := add_pos st curr_level 1 in
          Ok (st, its11, ms ++ [held st])
        else if N.eqb node 1 then
          let* st := add_pos st curr_level 1 in
          let* r_child := getRightChild node_id curr_level in
          let* p := vget (snd st) curr_level in
          let* st := push_one st curr_level p in
          let* (st, _, ms) := writeCompressTrie_held fuel' st next r_child false (ms ++ [held st]) in
          let* st := add_pos st curr_level 1 in
          Ok (st, its11, ms ++ [held st])
        else Ok (st, its11, ms ++ [held st])
    end.

  (** include/flatBinTrie.hpp:378-382, include/binTrie.hpp:333-337. *)
  Definition compress_run_held : result (wc_state * list nat) :=
    let* (st, _, ms) :=
      writeCompressTrie_held (S height) (repeat [] height, repeat 0 height) 0 0 false [] in
    Ok (st, ms).
End EncodeHeld.

(** include/flatBinTrie.hpp:376-384, flatBinTrie_il.hpp:388-395. *)
Definition flat_encodeRuns_held (t : flat) : result (flat * list nat) :=
  let* (st, ms) := compress_run_held (f_height t) (flat_getNode t)
                          (flat_getLeftChild t) (flat_getRightChild t) in
  let* t' := flat_writeOnes t st in Ok (t', ms).

(** include/binTrie.hpp:329-339, include/binTrie_il.hpp:316-325. *)
Definition level_encodeRuns_held (t : level_trie) : result (level_trie * list nat) :=
  let* (st, ms) := compress_run_held (level_getHeight t) (level_getNode t)
                          (level_getLeftChild t) (level_getRightChild t) in
  let* t' := level_writeOnes t st in Ok (t', ms).

(** writeCompressTrie: include/fastBinaryTrie.hpp:248-306.  Each record is the number of
    positions and the number of words. *)
Fixpoint fast_writeCompress_held (fuel : nat) (t : fast) (st : wc_state) (ws : list N)
         (curr_level node_id : nat) (its11 : bool) (ms : list (nat * nat))
  : result (wc_state * list N * bool * list (nat * nat)) :=
  match fuel with
  | O => OutOfFuel
  | S fuel' =>
    if S curr_level =? x_height t then
      let* w := fast_getWord t node_id in
      let its11 := if N.eqb w (wmax (x_lw t)) then true else its11 in
      let* pos := vget (snd st) curr_level in
      let* st := push_one st curr_level pos in
      let ws := ws ++ [w] in
      Ok (st, ws, its11, ms ++ [(held st, length ws)])
    else
      let* node := fast_getNode t node_id curr_level in
      let next := S curr_level in
      let* _ := vget (snd st) next in
      if N.eqb node 3 then
        let* l_child := fast_getLeftChild t node_id curr_level in
        let r_child := l_child + 1 in
        let* (st, ws, its11_l, ms) := fast_writeCompress_held fuel' t st ws next l_child false ms in
        let* (st, ws, its11_r, ms) := fast_writeCompress_held fuel' t st ws next r_child false ms in
        let its11 := its11_l && its11_r in
        let* (st, ws) :=
          (if its11 then
             let* ws :=
               (if S (S curr_level) =? x_height t
                then for_loop 2 0 (fun _ ws => vpop ws) ws else Ok ws) in
             let* st := xc_sub4 st next in
             Ok (st, ws)
           else
             let* pos := vget (snd st) curr_level in
             let* st := push_one st curr_level pos in
             let* st := push_one st curr_level (pos + 1) in
             Ok (st, ws)) in
        let* st := add_pos st curr_level 2 in
        Ok (st, ws, its11, ms ++ [(held st, length ws)])
      else if N.eqb node 2 then
        let* l_child := fast_getLeftChild t node_id curr_level in
        let* pos := vget (snd st) curr_level in
        let* st := push_one st curr_level pos in
        let* (st, ws, _, ms) :=
          fast_writeCompress_held fuel' t st ws next l_child false (ms ++ [(held st, length ws)]) in
        let* st := add_pos st curr_level 1 in
        let* st := add_pos st curr_level 1 in
        Ok (st, ws, its11, ms ++ [(held st, length ws)])
      else if N.eqb node 1 then
        let* st := add_pos st curr_level 1 in
        let* r_child := fast_getRightChild t node_id curr_level in
        let* pos := vget (snd st) curr_level in
        let* st := push_one st curr_level pos in
        let* (st, ws, _, ms) :=
          fast_writeCompress_held fuel' t st ws next r_child false (ms ++ [(held st, length ws)]) in
        let* st := add_pos st curr_level 1 in
        Ok (st, ws, its11, ms ++ [(held st, length ws)])
      else Ok (st, ws, its11, ms ++ [(held st, length ws)])
  end.

(** include/fastBinaryTrie.hpp:334-347. *)
Definition fast_encodeRuns_held (t : fast) : result (fast * list (nat * nat)) :=
  let h := x_height t in
  let* (st, ws, _, ms) :=
    fast_writeCompress_held (S h) t (repeat [] h, repeat 0 h) [] 0 0 false [] in
  let* t' := fast_writeOnes t st ws in Ok (t', ms).
