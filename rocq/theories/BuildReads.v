(** The constructors with a record of the positions of the input that are read: one list for
    each iteration of the construction loop, in order.  Apart from the record the text is that
    of Split.v, FlatTrie.v, LevelTrie.v and FastTrie.v; BuildReadsThms.v proves that without it
    the two compute the same. *)

From Verif Require Import Base Split FlatTrie LevelTrie FastTrie.

(** include/flatBinTrie.hpp:68-82, include/flatBinTrie_il.hpp:66-80,
    include/binTrie.hpp:64-78, include/binTrie_il.hpp:66-80,
    include/fastBinaryTrie.hpp:81-95. *)
Fixpoint split_loop_reads (fuel : nat) (set : list N) (sh : nat) (l r i : N)
         (o : split_out) (c : list N) : result (split_out * list N) :=
  if N.ltb i (wrap64 (r + 1)) then
    match fuel with
    | O => OutOfFuel
    | S fuel' =>
      let* x := vgetN set i in
      let c := c ++ [i] in
      if N.testbit x (N.of_nat sh) then
        Ok (mkSplit (so_left o) (r - i + 1) (so_ll o) (so_lr o) (Some i) (Some r), c)
      else
        split_loop_reads fuel' set sh l r (i + 1)
          (mkSplit (so_left o + 1) (so_right o)
                   (if N.eqb i l then Some l else so_ll o) (Some i)
                   (so_rl o) (so_rr o)) c
    end
  else Ok (o, c).

(** The splitting loop with the check of the shift count: include/flatBinTrie.hpp:66-82,
    include/binTrie.hpp:62-78, include/fastBinaryTrie.hpp:78-95. *)
Definition split_reads (set : list N) (j : nat) (l r : N) : result (split_out * list N) :=
  if (j =? 0) || (64 <? j) then UB BadShift
  else split_loop_reads (S (length set)) set (j - 1) l r l split_init [].

(** include/flatBinTrie.hpp:55-134. *)
Definition fb_step_reads (set : list N) (h : nat) (sg : seg) (q : list seg) (st : fb_state)
  : result (fb_state * list N) :=
  let '(l, r, _) := sg in
  let* (o, c) := split_reads set (h - fb_level st) l r in
  let st0 := mkFB q (fb_level st) (fb_nodes_curr st) (S (fb_count st))
                  (fb_nodes_next st) (fb_index st) (fb_total st)
                  (fb_nodes_last st) (fb_bTrie st) (fb_last st) in
  let* st1 := fb_child h (N.ltb 0 (so_left o)) (left_seg o) st0 in
  let* st2 := fb_child h (N.ltb 0 (so_right o)) (right_seg o) st1 in
  Ok (fb_end_level h st2, c).

(** include/flatBinTrie.hpp:54-136. *)
Fixpoint fb_loop_reads (fuel : nat) (set : list N) (h : nat) (st : fb_state) (cs : list (list N))
  : result (fb_state * list (list N)) :=
  match fb_q st with
  | [] => Ok (st, cs)
  | sg :: q =>
    match fuel with
    | O => OutOfFuel
    | S fuel' =>
      let* (st', c) := fb_step_reads set h sg q st in
      let cs := cs ++ [c] in
      if fb_level st' =? h then Ok (st', cs) else fb_loop_reads fuel' set h st' cs
    end
  end.

(** include/flatBinTrie.hpp:28-141, include/flatBinTrie_il.hpp:27-143. *)
Definition flat_build_reads (set : list N) (u : N) : result (flat * list (list N)) :=
  let* h := height_of u in
  let* (st, cs) := fb_loop_reads (fb_fuel set h) set h (fb_init set h) [] in
  let bt := bv_resize (fb_bTrie st) (fb_total st - 2 * fb_nodes_last st) in
  Ok (mkFlat h 0 false false bt
             (bv_resize (fb_last st) (2 * fb_nodes_last st)) bt, cs).

(** include/binTrie.hpp:51-118. *)
Definition lb_step_reads (set : list N) (h : nat) (sg : seg) (q : list seg) (st : lb_state)
  : result (lb_state * list N) :=
  let '(l, r, _) := sg in
  let* (o, c) := split_reads set (h - lb_level st) l r in
  let st0 := mkLB q (lb_level st) (lb_nodes_curr st) (S (lb_count st))
                  (lb_nodes_next st) (lb_index st) (lb_bTrie st) in
  let* st1 := lb_child (N.ltb 0 (so_left o)) (left_seg o) st0 in
  let* st2 := lb_child (N.ltb 0 (so_right o)) (right_seg o) st1 in
  let* st3 := lb_end_level st2 in
  Ok (st3, c).

(** include/binTrie.hpp:50-122, include/binTrie_il.hpp:52-115. *)
Fixpoint lb_loop_reads (fuel : nat) (set : list N) (h : nat) (st : lb_state) (cs : list (list N))
  : result (lb_state * list (list N)) :=
  match lb_q st with
  | [] => Ok (st, cs)
  | sg :: q =>
    match fuel with
    | O => OutOfFuel
    | S fuel' =>
      let* (st', c) := lb_step_reads set h sg q st in
      let cs := cs ++ [c] in
      if lb_level st' =? h then Ok (st', cs) else lb_loop_reads fuel' set h st' cs
    end
  end.

(** include/binTrie.hpp:28-128, include/binTrie_il.hpp:31-124. *)
Definition level_build_reads (il : bool) (set : list N) (u : N) : result (level_trie * list (list N)) :=
  let* h := height_of u in
  let* (st, cs) := lb_loop_reads (fb_fuel set h) set h (lb_init set h) [] in
  Ok (mkLevel il 0 false false (lb_bTrie st) (firstn (h - 1) (lb_bTrie st)), cs).

(** include/fastBinaryTrie.hpp:66-70. *)
Fixpoint word_loop_reads (fuel : nat) (lw : nat) (set : list N) (r i : N) (word : N) (c : list N)
  : result (N * list N) :=
  if N.ltb i (wrap64 (r + 1)) then
    match fuel with
    | O => OutOfFuel
    | S fuel' =>
      let* x := vgetN set i in
      let element := N.land x (N.ones (N.of_nat lw)) in
      word_loop_reads fuel' lw set r (i + 1)
                (N.land (N.lor word (N.shiftl 1 element)) (wmax lw)) (c ++ [i])
    end
  else Ok (word, c).

(** include/fastBinaryTrie.hpp:58-142. *)
Definition xb_step_reads (lw : nat) (set : list N) (height height_u : nat) (sg : seg)
           (q : list seg) (st : xb_state) : result (xb_state * bool * list N) :=
  let '(l, r, _) := sg in
  let st0 := mkXB q (xb_level st) (xb_nodes_curr st) (S (xb_count st))
                  (xb_nodes_next st) (xb_index st) (xb_bTrie st) (xb_last st) in
  if S (xb_level st) =? height then
    let* (w, c) := word_loop_reads (S (length set)) lw set r l 0 [] in
    let st1 := mkXB q (xb_level st) (xb_nodes_curr st) (S (xb_count st))
                    (xb_nodes_next st) (xb_index st) (xb_bTrie st)
                    (xb_last st ++ [w]) in
    Ok (st1, xb_count st1 =? xb_nodes_curr st1, c)
  else
    let* (o, c) := split_reads set (height_u - xb_level st) l r in
    let* st1 := xb_child (N.ltb 0 (so_left o)) (left_seg o) st0 in
    let* st2 := xb_child (N.ltb 0 (so_right o)) (right_seg o) st1 in
    Ok (xb_end_level st2, false, c).

(** include/fastBinaryTrie.hpp:57-144. *)
Fixpoint xb_loop_reads (fuel : nat) (lw : nat) (set : list N) (height height_u : nat)
         (st : xb_state) (cs : list (list N)) : result (xb_state * list (list N)) :=
  match xb_q st with
  | [] => Ok (st, cs)
  | sg :: q =>
    match fuel with
    | O => OutOfFuel
    | S fuel' =>
      let* (st', brk, c) := xb_step_reads lw set height height_u sg q st in
      let cs := cs ++ [c] in
      if brk then Ok (st', cs)
      else if xb_level st' =? height then Ok (st', cs)
      else xb_loop_reads fuel' lw set height height_u st' cs
    end
  end.

(** include/fastBinaryTrie.hpp:34-148. *)
Definition fast_build_reads (lw : nat) (junk_hwr : option nat) (junk_empty : option bool)
           (set : list N) (u : N) : result (fast * list (list N)) :=
  let* height_u := height_of u in
  if height_u + 1 <? lw then UB BadCast
  else
    let height := height_u + 1 - lw in
    let* (st, cs) := xb_loop_reads (S height_u * S (length set)) lw set height height_u
                       (xb_init set height_u) [] in
    let bt := bv_resize (xb_bTrie st) (xb_index st) in
    Ok (mkFast lw height junk_hwr height_u false junk_empty bt (xb_last st) bt, cs).
