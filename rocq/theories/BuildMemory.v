(** The constructors with a record of what they hold: how many segments are in the queue and how
    many bits the bit vectors have, before the loop and after each of its iterations.  Apart from
    the record the text is that of FlatTrie.v, LevelTrie.v and FastTrie.v; BuildMemoryThms.v
    proves that without it the two compute the same.  What the allocator adds, the capacity that
    a vector or a queue keeps in reserve and the copy of the values that the level-wise
    constructors take as their argument are left out. *)

From Verif Require Import Base Split FlatTrie LevelTrie FastTrie.

(** What a construction holds: segments in its queue, bits in its bit vectors, words in its last
    level.  include/flatBinTrie.hpp:38-52, include/binTrie.hpp:31-48,
    include/fastBinaryTrie.hpp:40-56. *)
Record held := mkHeld { held_segments : nat; held_bits : nat; held_words : nat }.

(** The queue, bTrie and lastLevel of the flat constructors: include/flatBinTrie.hpp:35-44. *)
Definition fb_held (st : fb_state) : held :=
  mkHeld (length (fb_q st)) (length (fb_bTrie st) + length (fb_last st)) 0.

(** include/flatBinTrie.hpp:54-136. *)
Fixpoint fb_loop_held (fuel : nat) (set : list N) (h : nat) (st : fb_state)
  : result (fb_state * list held) :=
  match fb_q st with
  | [] => Ok (st, [])
  | sg :: q =>
    match fuel with
    | O => OutOfFuel
    | S fuel' =>
      let* st' := fb_step set h sg q st in
      if fb_level st' =? h then Ok (st', [fb_held st'])
      else
        let* (st'', ms) := fb_loop_held fuel' set h st' in
        Ok (st'', fb_held st' :: ms)
    end
  end.

(** include/flatBinTrie.hpp:28-141, include/flatBinTrie_il.hpp:27-143. *)
Definition flat_build_held (set : list N) (u : N) : result (flat * list held) :=
  let* h := height_of u in
  let* (st, ms) := fb_loop_held (fb_fuel set h) set h (fb_init set h) in
  let bt := bv_resize (fb_bTrie st) (fb_total st - 2 * fb_nodes_last st) in
  Ok (mkFlat h 0 false false bt
             (bv_resize (fb_last st) (2 * fb_nodes_last st)) bt, fb_held (fb_init set h) :: ms).

(** The queue and the bit vectors of the levels: include/binTrie.hpp:31-48,
    include/binTrie_il.hpp:33-50. *)
Definition lb_held (st : lb_state) : held :=
  mkHeld (length (lb_q st)) (list_sum (map (@length bool) (lb_bTrie st))) 0.

(** include/binTrie.hpp:50-122, include/binTrie_il.hpp:52-115. *)
Fixpoint lb_loop_held (fuel : nat) (set : list N) (h : nat) (st : lb_state)
  : result (lb_state * list held) :=
  match lb_q st with
  | [] => Ok (st, [])
  | sg :: q =>
    match fuel with
    | O => OutOfFuel
    | S fuel' =>
      let* st' := lb_step set h sg q st in
      if lb_level st' =? h then Ok (st', [lb_held st'])
      else
        let* (st'', ms) := lb_loop_held fuel' set h st' in
        Ok (st'', lb_held st' :: ms)
    end
  end.

(** include/binTrie.hpp:28-128, include/binTrie_il.hpp:31-124. *)
Definition level_build_held (il : bool) (set : list N) (u : N) : result (level_trie * list held) :=
  let* h := height_of u in
  let* (st, ms) := lb_loop_held (fb_fuel set h) set h (lb_init set h) in
  Ok (mkLevel il 0 false false (lb_bTrie st) (firstn (h - 1) (lb_bTrie st)),
      lb_held (lb_init set h) :: ms).

(** The queue, bTrie and the words of lastLevel: include/fastBinaryTrie.hpp:40-56, 71. *)
Definition xb_held (st : xb_state) : held :=
  mkHeld (length (xb_q st)) (length (xb_bTrie st)) (length (xb_last st)).

(** include/fastBinaryTrie.hpp:57-144. *)
Fixpoint xb_loop_held (fuel : nat) (lw : nat) (set : list N) (height height_u : nat)
         (st : xb_state) : result (xb_state * list held) :=
  match xb_q st with
  | [] => Ok (st, [])
  | sg :: q =>
    match fuel with
    | O => OutOfFuel
    | S fuel' =>
      let* (st', brk) := xb_step lw set height height_u sg q st in
      if brk then Ok (st', [xb_held st'])
      else if xb_level st' =? height then Ok (st', [xb_held st'])
      else
        let* (st'', ms) := xb_loop_held fuel' lw set height height_u st' in
        Ok (st'', xb_held st' :: ms)
    end
  end.

(** include/fastBinaryTrie.hpp:34-148. *)
Definition fast_build_held (lw : nat) (junk_hwr : option nat) (junk_empty : option bool)
           (set : list N) (u : N) : result (fast * list held) :=
  let* height_u := height_of u in
  if height_u + 1 <? lw then UB BadCast
  else
    let height := height_u + 1 - lw in
    let* (st, ms) := xb_loop_held (S height_u * S (length set)) lw set height height_u
                       (xb_init set height_u) in
    let bt := bv_resize (xb_bTrie st) (xb_index st) in
    Ok (mkFast lw height junk_hwr height_u false junk_empty bt (xb_last st) bt,
        xb_held (xb_init set height_u) :: ms).
