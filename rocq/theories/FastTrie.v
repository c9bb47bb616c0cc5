(** Model of include/fastBinaryTrie.hpp.  [lw] is log2 of the word width
    (3, 4, 5 or 6 for uint8_t, uint16_t, uint32_t, uint64_t). *)

From Verif Require Import Base Split FlatTrie.

(** sizeof(wordType)*8.  include/fastBinaryTrie.hpp:39, src/fastTrieIntersection.cpp:85. *)
Definition wbits (lw : nat) : N := 2 ^ N.of_nat lw.
(** The word with all bits set: src/fastTrieIntersection.cpp:46, 143. *)
Definition wmax (lw : nat) : N := N.ones (wbits lw).

(** Fields: include/fastBinaryTrie.hpp:21-28.  height_with_runs and empty_trie
    have no initialiser, so they are [option]: [None] is an indeterminate value. *)
Record fast := mkFast {
  x_lw : nat;
  x_height : nat;
  x_height_with_runs : option nat;
  x_height_u : nat;
  x_runs_encoded : bool;
  x_empty_trie : option bool;
  x_bTrie : list bool;
  x_lastLevel : list N;
  x_rank : list bool
}.

(** State of the construction loop: include/fastBinaryTrie.hpp:42-55
    (total_nodes and nodes_last_level are computed by the code and never used). *)
Record xb_state := mkXB {
  xb_q : list seg;
  xb_level : nat;
  xb_nodes_curr : nat;
  xb_count : nat;
  xb_nodes_next : nat;
  xb_index : nat;
  xb_bTrie : list bool;
  xb_last : list N
}.

(** include/fastBinaryTrie.hpp:99-114 (left), 115-130 (right). *)
Definition xb_child (present : bool) (mk : result seg) (st : xb_state)
  : result xb_state :=
  if present then
    let* bt := vset (xb_bTrie st) (xb_index st) true in
    let* sg := mk in
    Ok (mkXB (xb_q st ++ [sg]) (xb_level st) (xb_nodes_curr st) (xb_count st)
             (S (xb_nodes_next st)) (S (xb_index st)) bt (xb_last st))
  else
    Ok (mkXB (xb_q st) (xb_level st) (xb_nodes_curr st) (xb_count st)
             (xb_nodes_next st) (S (xb_index st)) (xb_bTrie st) (xb_last st)).

(** include/fastBinaryTrie.hpp:132-141. *)
Definition xb_end_level (st : xb_state) : xb_state :=
  if xb_count st =? xb_nodes_curr st then
    mkXB (xb_q st) (S (xb_level st)) (xb_nodes_next st) 0 0 (xb_index st)
         (xb_bTrie st) (xb_last st)
  else st.

(** The word of a last-level node: include/fastBinaryTrie.hpp:66-70.
    [element = set[i] & (w-1)]; [word |= (wordType)1 << element] keeps the low
    bits of the word. *)
Fixpoint word_loop (fuel : nat) (lw : nat) (set : list N) (r i : N) (word : N)
  : result N :=
  if N.ltb i (wrap64 (r + 1)) then
    match fuel with
    | O => OutOfFuel
    | S fuel' =>
      let* x := vgetN set i in
      let element := N.land x (N.ones (N.of_nat lw)) in
      word_loop fuel' lw set r (i + 1)
                (N.land (N.lor word (N.shiftl 1 element)) (wmax lw))
    end
  else Ok word.

(** One iteration, after the pop: include/fastBinaryTrie.hpp:58-142.  The boolean
    tells whether the [break] of line 72 was taken. *)
Definition xb_step (lw : nat) (set : list N) (height height_u : nat) (sg : seg)
           (q : list seg) (st : xb_state) : result (xb_state * bool) :=
  let '(l, r, _) := sg in
  let st0 := mkXB q (xb_level st) (xb_nodes_curr st) (S (xb_count st))
                  (xb_nodes_next st) (xb_index st) (xb_bTrie st) (xb_last st) in
  if S (xb_level st) =? height then
    let* w := word_loop (S (length set)) lw set r l 0 in
    let st1 := mkXB q (xb_level st) (xb_nodes_curr st) (S (xb_count st))
                    (xb_nodes_next st) (xb_index st) (xb_bTrie st)
                    (xb_last st ++ [w]) in
    Ok (st1, xb_count st1 =? xb_nodes_curr st1)
  else
    let* o := split set (height_u - xb_level st) l r in
    let* st1 := xb_child (N.ltb 0 (so_left o)) (left_seg o) st0 in
    let* st2 := xb_child (N.ltb 0 (so_right o)) (right_seg o) st1 in
    Ok (xb_end_level st2, false).

(** The while loop: include/fastBinaryTrie.hpp:57-144. *)
Fixpoint xb_loop (fuel : nat) (lw : nat) (set : list N) (height height_u : nat)
         (st : xb_state) : result xb_state :=
  match xb_q st with
  | [] => Ok st
  | sg :: q =>
    match fuel with
    | O => OutOfFuel
    | S fuel' =>
      let* (st', brk) := xb_step lw set height height_u sg q st in
      if brk then Ok st'
      else if xb_level st' =? height then Ok st'
      else xb_loop fuel' lw set height height_u st'
    end
  end.

(** The locals before the loop: include/fastBinaryTrie.hpp:40-56. *)
Definition xb_init (set : list N) (height_u : nat) : xb_state :=
  mkXB [first_seg32 set] 0 1 0 0 0 (bv_make (2 * (2 ^ height_u - 1))) [].

(** fastBinaryTrie(vector<uint64_t> &set, uint64_t u):
    include/fastBinaryTrie.hpp:34-148.
    [height = height_u - floor(log2(w)) + 1] is computed in double and converted
    to uint16_t: undefined when negative.  height_with_runs and empty_trie are not
    written: [junk_hwr] and [junk_empty] are what the memory held, [None] for an
    indeterminate value. *)
Definition fast_build (lw : nat) (junk_hwr : option nat) (junk_empty : option bool)
           (set : list N) (u : N) : result fast :=
  let* height_u := height_of u in
  if height_u + 1 <? lw then UB BadCast
  else
    let height := height_u + 1 - lw in
    let* st := xb_loop (S height_u * S (length set)) lw set height height_u
                       (xb_init set height_u) in
    let bt := bv_resize (xb_bTrie st) (xb_index st) in
    Ok (mkFast lw height junk_hwr height_u false junk_empty bt (xb_last st) bt).

(** getHeight: include/fastBinaryTrie.hpp:157-159. *)
Definition fast_getHeight (t : fast) : nat := x_height t.

(** getNode: include/fastBinaryTrie.hpp:162-170. *)
Definition fast_getNode (t : fast) (node_id level : nat) : result N :=
  let* a := vget (x_bTrie t) (2 * node_id) in
  let* b := vget (x_bTrie t) (2 * node_id + 1) in
  Ok (node_code a b).

(** getWord: include/fastBinaryTrie.hpp:172-174; the subtraction is unsigned, a
    wrap gives an index past the end. *)
Definition fast_getWord (t : fast) (node_id : nat) : result N :=
  let off := length (x_bTrie t) / 2 in
  if node_id <? off then UB OutOfBounds else vget (x_lastLevel t) (node_id - off).

(** getLeftChild: include/fastBinaryTrie.hpp:177-182. *)
Definition fast_getLeftChild (t : fast) (node_id level : nat) : result nat :=
  if x_height t <=? S level then Ok 0 else rank1 (x_rank t) (2 * node_id + 1).

(** getRightChild: include/fastBinaryTrie.hpp:185-191. *)
Definition fast_getRightChild (t : fast) (node_id level : nat) : result nat :=
  if x_height t <=? S level then Ok 0 else rank1 (x_rank t) (2 * node_id + 2).

(** [level_pos[level] -= 4].  At the word level the entry is always 0 and the C++ value wraps to
    a huge number; that entry is read only to fill ones_to_write[height-1], which nothing reads.
    Simplification: truncated subtraction.  include/fastBinaryTrie.hpp:283. *)
Definition xc_sub4 (st : wc_state) (level : nat) : result wc_state :=
  let* p := vget (snd st) level in
  let* ps := vset (snd st) level (p - 4) in
  Ok (fst st, ps).

(** writeCompressTrie: include/fastBinaryTrie.hpp:248-306.  State: ones_to_write[]
    and level_pos[] (as in flat tries), and newLastLevel. *)
Fixpoint fast_writeCompress (fuel : nat) (t : fast) (st : wc_state) (ws : list N)
         (curr_level node_id : nat) (its11 : bool)
  : result (wc_state * list N * bool) :=
  match fuel with
  | O => OutOfFuel
  | S fuel' =>
    if S curr_level =? x_height t then
      let* w := fast_getWord t node_id in
      let its11 := if N.eqb w (wmax (x_lw t)) then true else its11 in
      let* p := vget (snd st) curr_level in
      let* st := push_one st curr_level p in
      Ok (st, ws ++ [w], its11)
    else
      let* node := fast_getNode t node_id curr_level in
      let next := S curr_level in
      let* _ := vget (snd st) next in
      if N.eqb node 3 then
        let* l_child := fast_getLeftChild t node_id curr_level in
        let r_child := l_child + 1 in
        let* (st, ws, its11_l) := fast_writeCompress fuel' t st ws next l_child false in
        let* (st, ws, its11_r) := fast_writeCompress fuel' t st ws next r_child false in
        let its11 := its11_l && its11_r in
        let* (st, ws) :=
          (if its11 then
             let* ws :=
               (if S (S curr_level) =? x_height t
                then for_loop 2 0 (fun _ ws => vpop ws) ws else Ok ws) in
             let* st := xc_sub4 st next in
             Ok (st, ws)
           else
             let* p := vget (snd st) curr_level in
             let* st := push_one st curr_level p in
             let* st := push_one st curr_level (p + 1) in
             Ok (st, ws)) in
        let* st := add_pos st curr_level 2 in
        Ok (st, ws, its11)
      else if N.eqb node 2 then
        let* l_child := fast_getLeftChild t node_id curr_level in
        let* p := vget (snd st) curr_level in
        let* st := push_one st curr_level p in
        let* (st, ws, _) := fast_writeCompress fuel' t st ws next l_child false in
        let* st := add_pos st curr_level 1 in
        let* st := add_pos st curr_level 1 in
        Ok (st, ws, its11)
      else if N.eqb node 1 then
        let* st := add_pos st curr_level 1 in
        let* r_child := fast_getRightChild t node_id curr_level in
        let* p := vget (snd st) curr_level in
        let* st := push_one st curr_level p in
        let* (st, ws, _) := fast_writeCompress fuel' t st ws next r_child false in
        let* st := add_pos st curr_level 1 in
        Ok (st, ws, its11)
      else Ok (st, ws, its11)
  end.

(** writeOnes: include/fastBinaryTrie.hpp:309-331. *)
Definition fast_writeOnes (t : fast) (st : wc_state) (ws : list N) : result fast :=
  let '(ones, level_pos) := st in
  let n := x_height t - 1 in
  let* (bits_n, last_level) := count_levels n level_pos in
  let* (bt, _) :=
    for_loop n 0 (fun level '(bt, glp) =>
      let* os := vget ones level in
      let* bt := set_ones bt glp os in
      let* p := vget level_pos level in
      Ok (bt, glp + p)) (bv_make bits_n, 0) in
  Ok (mkFast (x_lw t) (x_height t) (Some (S last_level)) (x_height_u t)
             true (x_empty_trie t) bt ws bt).

(** encodeRuns: include/fastBinaryTrie.hpp:334-347. *)
Definition fast_encodeRuns (t : fast) : result fast :=
  let h := x_height t in
  let* (st, ws, _) :=
    fast_writeCompress (S h) t (repeat [] h, repeat 0 h) [] 0 0 false in
  fast_writeOnes t st ws.

(** __builtin_ctzll on a non-zero value.  Called at include/fastBinaryTrie.hpp:356, 383 and
    src/fastTrieIntersection.cpp:55, 150. *)
Fixpoint ctz_loop (fuel : nat) (w : N) (k : N) : N :=
  match fuel with
  | O => k
  | S fuel' => if N.testbit w k then k else ctz_loop fuel' w (k + 1)
  end.
(** __builtin_ctzll: include/fastBinaryTrie.hpp:356, 383, src/fastTrieIntersection.cpp:55,
    150. *)
Definition ctzll (w : N) : N := ctz_loop 64 w 0.

(** [while (w != 0) { t = w & (~w + 1); r = ctz(w); v.push_back(r + base); w ^= t; }]
    include/fastBinaryTrie.hpp:354-359, 381-386,
    src/fastTrieIntersection.cpp:53-58, 148-153.  [~w + 1] is the two's complement
    of w on the width of the word. *)
Fixpoint word_bits (fuel : nat) (lw : nat) (w base : N) (v : list N)
  : result (list N) :=
  if N.eqb w 0 then Ok v
  else
    match fuel with
    | O => OutOfFuel
    | S fuel' =>
      let t := N.land w (N.modulo (wmax lw - w + 1) (2 ^ wbits lw)) in
      word_bits fuel' lw (N.lxor w t) base (v ++ [(ctzll w + base)%N])
    end.

(** No code of its own: a bound on the iterations of include/fastBinaryTrie.hpp:353-359. *)
Definition word_fuel (lw : nat) : nat := 2 ^ lw.

(** recursiveDecode: include/fastBinaryTrie.hpp:350-374. *)
Fixpoint fast_recursiveDecode (fuel : nat) (t : fast) (decoded : list N)
         (partial_int : N) (node_id curr_level : nat) : result (list N) :=
  if S curr_level =? x_height t then
    let* w := fast_getWord t node_id in
    word_bits (word_fuel (x_lw t)) (x_lw t) w partial_int decoded
  else
    match fuel with
    | O => OutOfFuel
    | S fuel' =>
      let* node := fast_getNode t node_id curr_level in
      let* decoded :=
        (if (N.eqb node 2 || N.eqb node 3)%bool then
           let* c := fast_getLeftChild t node_id curr_level in
           fast_recursiveDecode fuel' t decoded partial_int c (S curr_level)
         else Ok decoded) in
      if (N.eqb node 1 || N.eqb node 3)%bool then
        let* b := shl1 (x_height_u t - curr_level - 1) in
        let* c := fast_getRightChild t node_id curr_level in
        fast_recursiveDecode fuel' t decoded (N.lor partial_int b) c (S curr_level)
      else Ok decoded
    end.

(** runsRecursiveDecode: include/fastBinaryTrie.hpp:377-412. *)
Fixpoint fast_runsRecursiveDecode (fuel : nat) (t : fast) (decoded : list N)
         (partial_int : N) (node_id curr_level : nat) : result (list N) :=
  if S curr_level =? x_height t then
    let* w := fast_getWord t node_id in
    word_bits (word_fuel (x_lw t)) (x_lw t) w partial_int decoded
  else
    match fuel with
    | O => OutOfFuel
    | S fuel' =>
      let* node := fast_getNode t node_id curr_level in
      if N.eqb node 0 then
        let* b := shl1 (x_height_u t - curr_level) in
        Ok (push_range decoded partial_int (N.lor partial_int (b - 1)))
      else
        let* decoded :=
          (if (N.eqb node 2 || N.eqb node 3)%bool then
             let* c := fast_getLeftChild t node_id curr_level in
             fast_runsRecursiveDecode fuel' t decoded partial_int c (S curr_level)
           else Ok decoded) in
        if (N.eqb node 1 || N.eqb node 3)%bool then
          let* b := shl1 (x_height_u t - curr_level - 1) in
          let* c := fast_getRightChild t node_id curr_level in
          fast_runsRecursiveDecode fuel' t decoded (N.lor partial_int b) c (S curr_level)
        else Ok decoded
    end.

(** decode: include/fastBinaryTrie.hpp:415-427.  Reading an indeterminate
    empty_trie is undefined. *)
Definition fast_decode (t : fast) (decoded : list N) : result (list N) :=
  if x_runs_encoded t then
    let* e := oget (x_empty_trie t) in
    if e then Ok decoded
    else fast_runsRecursiveDecode (S (x_height t)) t decoded 0 0 0
  else fast_recursiveDecode (S (x_height t)) t decoded 0 0 0.

(** The one-argument constructor: include/fastBinaryTrie.hpp:150-154.
    [fastBinaryTrie(set, u);] builds and discards a temporary; the object keeps
    empty vectors and whatever its memory held in the other members
    ([junk_h], [junk_hu], [junk_runs], [junk_empty]). *)
Definition fast_build1 (lw junk_h junk_hu : nat) (junk_runs : bool) (junk_empty : option bool)
           (set : list N) : result fast :=
  match set with
  | [] => UB OutOfBounds
  | _ =>
    let u := last set 0%N in
    let* _ := fast_build lw None None set u in
    Ok (mkFast lw junk_h None junk_hu junk_runs junk_empty [] [] [])
  end.
