(** Model of include/flatBinTrie.hpp and include/flatBinTrie_il.hpp.

    The two classes run the same algorithm; flatBinTrie_il stores the bits in a
    [bit_vector_il] and counts ones with [rank_support_il].  Both bit vectors are
    a [list bool] here, so one model covers both.  The only method present in one
    class only is [elements_coded] (flatBinTrie_il). *)

From Verif Require Import Base Split.

(** Fields: include/flatBinTrie.hpp:19-22, include/binaryTrie.hpp (base class).
    [f_rank] is the bit sequence over which [b_rank] was built. *)
Record flat := mkFlat {
  f_height : nat;
  f_height_with_runs : nat;
  f_empty_trie : bool;
  f_runs_encoded : bool;
  f_bTrie : list bool;
  f_lastLevel : list bool;
  f_rank : list bool
}.

(** State of the construction loop: include/flatBinTrie.hpp:38-52. *)
Record fb_state := mkFB {
  fb_q : list seg;
  fb_level : nat;
  fb_nodes_curr : nat;
  fb_count : nat;
  fb_nodes_next : nat;
  fb_index : nat;
  fb_total : nat;
  fb_nodes_last : nat;
  fb_bTrie : list bool;
  fb_last : list bool
}.

(** Writing a child bit: include/flatBinTrie.hpp:86-103 (left) and 104-121
    (right).  Sets the bit in [lastLevel] on the last level and in [bTrie]
    elsewhere, pushes the child segment, and advances the counters. *)
Definition fb_child (h : nat) (present : bool) (mk : result seg) (st : fb_state)
  : result fb_state :=
  if present then
    let* sg := mk in
    let* bl :=
      (if S (fb_level st) =? h
       then let* ll := vset (fb_last st) (fb_index st) true in Ok (fb_bTrie st, ll)
       else let* bt := vset (fb_bTrie st) (fb_index st) true in Ok (bt, fb_last st)) in
    Ok (mkFB (fb_q st ++ [sg]) (fb_level st) (fb_nodes_curr st) (fb_count st)
             (S (fb_nodes_next st)) (S (fb_index st)) (S (fb_total st))
             (fb_nodes_last st) (fst bl) (snd bl))
  else
    Ok (mkFB (fb_q st) (fb_level st) (fb_nodes_curr st) (fb_count st)
             (fb_nodes_next st) (S (fb_index st)) (S (fb_total st))
             (fb_nodes_last st) (fb_bTrie st) (fb_last st)).

(** End of a level: include/flatBinTrie.hpp:123-134. *)
Definition fb_end_level (h : nat) (st : fb_state) : fb_state :=
  if fb_count st =? fb_nodes_curr st then
    let last := S (S (fb_level st)) =? h in
    mkFB (fb_q st) (S (fb_level st)) (fb_nodes_next st) 0 0
         (if last then 0 else fb_index st) (fb_total st)
         (if last then fb_nodes_next st else fb_nodes_last st)
         (fb_bTrie st) (fb_last st)
  else st.

(** One iteration of the while loop, after the queue test:
    include/flatBinTrie.hpp:55-134. *)
Definition fb_step (set : list N) (h : nat) (sg : seg) (q : list seg) (st : fb_state)
  : result fb_state :=
  let '(l, r, _) := sg in
  let* o := split set (h - fb_level st) l r in
  let st0 := mkFB q (fb_level st) (fb_nodes_curr st) (S (fb_count st))
                  (fb_nodes_next st) (fb_index st) (fb_total st)
                  (fb_nodes_last st) (fb_bTrie st) (fb_last st) in
  let* st1 := fb_child h (N.ltb 0 (so_left o)) (left_seg o) st0 in
  let* st2 := fb_child h (N.ltb 0 (so_right o)) (right_seg o) st1 in
  Ok (fb_end_level h st2).

(** The while loop: include/flatBinTrie.hpp:54-136. *)
Fixpoint fb_loop (fuel : nat) (set : list N) (h : nat) (st : fb_state)
  : result fb_state :=
  match fb_q st with
  | [] => Ok st
  | sg :: q =>
    match fuel with
    | O => OutOfFuel
    | S fuel' =>
      let* st' := fb_step set h sg q st in
      if fb_level st' =? h then Ok st' else fb_loop fuel' set h st'
    end
  end.

(** [uint32_t n = set.size(); ... n-1 ...] computed on 32 bits, then widened:
    include/flatBinTrie.hpp:30,43. *)
Definition first_seg32 (set : list N) : seg :=
  let n := N.modulo (N.of_nat (length set)) (2 ^ 32) in
  (0%N, N.modulo (n + (2 ^ 32 - 1)) (2 ^ 32), n).

(** Initial state of the loop: include/flatBinTrie.hpp:35-52. *)
Definition fb_init (set : list N) (h : nat) : fb_state :=
  mkFB [first_seg32 set] 0 1 0 0 0 0 0
       (bv_make (2 * (2 ^ h - 1))) (bv_make (2 ^ h)).

(** Upper bound on the number of iterations used as fuel.  No code of its own: the while loop of
    include/flatBinTrie.hpp:54-136 ends when the queue is empty. *)
Definition fb_fuel (set : list N) (h : nat) : nat := h * S (length set).

(** flatBinTrie(vector<uint64_t> &set, uint64_t u):
    include/flatBinTrie.hpp:28-141, include/flatBinTrie_il.hpp:27-143.
    The base-class fields get the values of binaryTrie's constructor. *)
Definition flat_build (set : list N) (u : N) : result flat :=
  let* h := height_of u in
  let* st := fb_loop (fb_fuel set h) set h (fb_init set h) in
  let bt := bv_resize (fb_bTrie st) (fb_total st - 2 * fb_nodes_last st) in
  Ok (mkFlat h 0 false false bt
             (bv_resize (fb_last st) (2 * fb_nodes_last st)) bt).

(** getHeight: include/flatBinTrie.hpp:191-193. *)
Definition flat_getHeight (t : flat) : nat := f_height t.

(** getNode: include/flatBinTrie.hpp:196-203, include/flatBinTrie_il.hpp:211-217.
    [2*node_id - bTrie.size()] is unsigned; when it wraps the index is far past
    the end of lastLevel. *)
Definition flat_getNode (t : flat) (node_id level : nat) : result N :=
  if S level <? f_height t then
    let* a := vget (f_bTrie t) (2 * node_id) in
    let* b := vget (f_bTrie t) (2 * node_id + 1) in
    Ok (node_code a b)
  else if 2 * node_id <? length (f_bTrie t) then UB OutOfBounds
  else
    let p := 2 * node_id - length (f_bTrie t) in
    let* a := vget (f_lastLevel t) p in
    let* b := vget (f_lastLevel t) (p + 1) in
    Ok (node_code a b).

(** getLeftChild: include/flatBinTrie.hpp:206-215, flatBinTrie_il.hpp:220-227. *)
Definition flat_getLeftChild (t : flat) (node_id level : nat) : result nat :=
  if f_height t <=? S level then Ok 0 else rank1 (f_rank t) (2 * node_id + 1).

(** getRightChild: include/flatBinTrie.hpp:218-227, flatBinTrie_il.hpp:230-235. *)
Definition flat_getRightChild (t : flat) (node_id level : nat) : result nat :=
  if f_height t <=? S level then Ok 0 else rank1 (f_rank t) (2 * node_id + 2).

(** State of the run-encoding traversal: ones_to_write[] and level_pos[].
    include/flatBinTrie.hpp:270-273, 376-380. *)
Definition wc_state := (list (list nat) * list nat)%type.

(** [ones_to_write[level].push_back(x)].  include/flatBinTrie.hpp:280, 284, 316-317. *)
Definition push_one (st : wc_state) (level x : nat) : result wc_state :=
  let* o := vget (fst st) level in
  let* os := vset (fst st) level (o ++ [x]) in
  Ok (os, snd st).

(** [level_pos[level] += d].  include/flatBinTrie.hpp:282, 286, 320. *)
Definition add_pos (st : wc_state) (level d : nat) : result wc_state :=
  let* p := vget (snd st) level in
  let* ps := vset (snd st) level (p + d) in
  Ok (fst st, ps).

(** [level_pos[level] -= 4].  A wrap below zero never happens in flat and level-wise tries; it
    is made visible as [Unmodelled].  include/flatBinTrie.hpp:308. *)
Definition sub4_pos (st : wc_state) (level : nat) : result wc_state :=
  let* p := vget (snd st) level in
  if p <? 4 then UB Unmodelled
  else let* ps := vset (snd st) level (p - 4) in Ok (fst st, ps).

(** [for i in 0..k-1: ones_to_write[level].pop_back()].  include/flatBinTrie.hpp:310-312. *)
Definition pop_ones (k : nat) (st : wc_state) (level : nat) : result wc_state :=
  for_loop k 0 (fun _ st =>
    let* o := vget (fst st) level in
    let* o' := vpop o in
    let* os := vset (fst st) level o' in
    Ok (os, snd st)) st.

(** Copy of a last-level node, two bits: include/flatBinTrie.hpp:274-289,
    include/binTrie.hpp:238-252.  Returns the state and [its11]. *)
Definition wc_leaf (st : wc_state) (level : nat) (node : N) (its11 : bool)
  : result (wc_state * bool) :=
  let its11' := if N.eqb node 3 then true else its11 in
  let* st :=
    (if (N.eqb node 2 || N.eqb node 3)%bool
     then let* p := vget (snd st) level in push_one st level p else Ok st) in
  let* st := add_pos st level 1 in
  let* st :=
    (if (N.eqb node 1 || N.eqb node 3)%bool
     then let* p := vget (snd st) level in push_one st level p else Ok st) in
  let* st := add_pos st level 1 in
  Ok (st, its11').

Section WriteCompress.
  (** The traversal reads the trie only through these three methods. *)
  Variable height : nat.
  Variable getNode : nat -> nat -> result N.
  Variable getLeftChild getRightChild : nat -> nat -> result nat.

  (** writeCompressTrie: include/flatBinTrie.hpp:270-337,
      include/flatBinTrie_il.hpp:279-346, include/binTrie.hpp:233-300,
      include/binTrie_il.hpp:215-282.  The recursion ends at level height-1;
      the fuel bounds its depth. *)
  Fixpoint writeCompressTrie (fuel : nat) (st : wc_state) (curr_level node_id : nat)
           (its11 : bool) : result (wc_state * bool) :=
    match fuel with
    | O => OutOfFuel
    | S fuel' =>
      let* node := getNode node_id curr_level in
      if S curr_level =? height then wc_leaf st curr_level node its11
      else
        let next := S curr_level in
        let* _ := vget (snd st) next in
        if N.eqb node 3 then
          let* l_child := getLeftChild node_id curr_level in
          let r_child := l_child + 1 in
          let* (st, its11_l) := writeCompressTrie fuel' st next l_child false in
          let* (st, its11_r) := writeCompressTrie fuel' st next r_child false in
          let its11 := its11_l && its11_r in
          let* st :=
            (if its11 then
               let* st := sub4_pos st next in
               if S (S curr_level) =? height then pop_ones 4 st next else Ok st
             else
               let* p := vget (snd st) curr_level in
               let* st := push_one st curr_level p in
               push_one st curr_level (p + 1)) in
          let* st := add_pos st curr_level 2 in
          Ok (st, its11)
        else if N.eqb node 2 then
          let* l_child := getLeftChild node_id curr_level in
          let* p := vget (snd st) curr_level in
          let* st := push_one st curr_level p in
          let* (st, _) := writeCompressTrie fuel' st next l_child false in
          let* st := add_pos st curr_level 1 in
          let* st := add_pos st curr_level 1 in
          Ok (st, its11)
        else if N.eqb node 1 then
          let* st := add_pos st curr_level 1 in
          let* r_child := getRightChild node_id curr_level in
          let* p := vget (snd st) curr_level in
          let* st := push_one st curr_level p in
          let* (st, _) := writeCompressTrie fuel' st next r_child false in
          let* st := add_pos st curr_level 1 in
          Ok (st, its11)
        else Ok (st, its11)
    end.

  (** The call made by encodeRuns: include/flatBinTrie.hpp:378-382,
      include/binTrie.hpp:333-337. *)
  Definition compress_run : result wc_state :=
    let* (st, _) :=
      writeCompressTrie (S height) (repeat [] height, repeat 0 height) 0 0 false in
    Ok st.
End WriteCompress.

(** First loop of writeOnes: total number of bits and last non-empty level.
    include/flatBinTrie.hpp:342-350. *)
Definition count_levels (h : nat) (level_pos : list nat) : result (nat * nat) :=
  for_loop h 0 (fun level '(bits_n, last_level) =>
    let* p := vget level_pos level in
    Ok (bits_n + p, if 0 <? p then level else last_level)) (0, 0).

(** Setting the listed positions, shifted by [off], in a bit vector.
    include/flatBinTrie.hpp:357-370, include/binTrie.hpp:315-320. *)
Definition set_ones (bv : list bool) (off : nat) (ones : list nat)
  : result (list bool) :=
  for_loop (length ones) 0 (fun i bv =>
    let* p := vget ones i in vset bv (off + p) true) bv.

(** Second loop of writeOnes, over levels < [nlev]:
    include/flatBinTrie.hpp:357-370.  State: bTrie, lastLevel, global_level_pos. *)
Definition write_levels (nlev : nat) (ones : list (list nat)) (level_pos : list nat)
           (last_level : nat) (bt ll : list bool)
  : result (list bool * list bool * nat) :=
  for_loop nlev 0 (fun level '(bt, ll, glp) =>
    let* os := vget ones level in
    let* (bt, ll) :=
      (if level =? last_level
       then let* ll := set_ones ll 0 os in Ok (bt, ll)
       else let* bt := set_ones bt glp os in Ok (bt, ll)) in
    if level <? last_level
    then let* p := vget level_pos level in Ok (bt, ll, glp + p)
    else Ok (bt, ll, glp)) (bt, ll, 0).

(** writeOnes: include/flatBinTrie.hpp:340-373, flatBinTrie_il.hpp:350-385. *)
Definition flat_writeOnes (t : flat) (st : wc_state) : result flat :=
  let '(ones, level_pos) := st in
  let* (bits_n, last_level) := count_levels (f_height t) level_pos in
  let hwr := S last_level in
  let* plast := vget level_pos last_level in
  let* (bt, ll, _) :=
    write_levels hwr ones level_pos last_level
                 (bv_make (bits_n - plast)) (bv_make plast) in
  Ok (mkFlat (f_height t) hwr (f_empty_trie t) true bt ll bt).

(** encodeRuns: include/flatBinTrie.hpp:376-384, flatBinTrie_il.hpp:388-395. *)
Definition flat_encodeRuns (t : flat) : result flat :=
  let* st := compress_run (f_height t) (flat_getNode t)
                          (flat_getLeftChild t) (flat_getRightChild t) in
  flat_writeOnes t st.

(** The constructor from ones_to_write: include/flatBinTrie.hpp:150-188,
    include/flatBinTrie_il.hpp:152-193. *)
Definition flat_from_ones (ones : list (list nat)) (height : nat)
           (level_pos : list nat) (runs_encoded : bool) : result flat :=
  let* (nbits, maxl, nempty) :=
    for_loop height 0 (fun level '(nbits, maxl, nempty) =>
      let* p := vget level_pos level in
      if 0 <? p then Ok (nbits + p, level, nempty)
      else Ok (nbits + p, maxl, S nempty)) (0, 0, 0) in
  let* plast := vget level_pos maxl in
  let* (bt, ll, _) :=
    write_levels height ones level_pos maxl (bv_make (nbits - plast)) (bv_make plast) in
  Ok (mkFlat height (S maxl) (nempty =? height) runs_encoded bt ll bt).

Section Decode.
  Variable height : nat.
  Variable stop : nat.  (* level at which a full value has been read *)
  Variable getNode : nat -> nat -> result N.
  Variable getLeftChild getRightChild : nat -> nat -> result nat.

  (** recursiveDecode (plain tries, [stop] = height):
      include/flatBinTrie.hpp:387-409, flatBinTrie_il.hpp:398-420,
      include/binTrie.hpp:342-364, binTrie_il.hpp:328-350. *)
  Fixpoint recursiveDecode (fuel : nat) (decoded : list N) (partial_int : N)
           (node_id curr_level : nat) : result (list N) :=
    if curr_level =? stop then Ok (decoded ++ [partial_int])
    else
      match fuel with
      | O => OutOfFuel
      | S fuel' =>
        let* node := getNode node_id curr_level in
        let* decoded :=
          (if (N.eqb node 2 || N.eqb node 3)%bool then
             let* c := getLeftChild node_id curr_level in
             recursiveDecode fuel' decoded partial_int c (S curr_level)
           else Ok decoded) in
        if (N.eqb node 1 || N.eqb node 3)%bool then
          let* b := shl1 (height - curr_level - 1) in
          let* c := getRightChild node_id curr_level in
          recursiveDecode fuel' decoded (N.lor partial_int b) c (S curr_level)
        else Ok decoded
      end.

  (** runsRecursiveDecode ([stop] = height in flat tries, height_with_runs in
      level-wise tries): include/flatBinTrie.hpp:412-443,
      flatBinTrie_il.hpp:423-454, include/binTrie.hpp:367-398,
      binTrie_il.hpp:353-384. *)
  Fixpoint runsRecursiveDecode (fuel : nat) (decoded : list N) (partial_int : N)
           (node_id curr_level : nat) : result (list N) :=
    if curr_level =? stop then Ok (decoded ++ [partial_int])
    else
      match fuel with
      | O => OutOfFuel
      | S fuel' =>
        let* node := getNode node_id curr_level in
        if N.eqb node 0 then
          let* b := shl1 (height - curr_level) in
          Ok (push_range decoded partial_int (N.lor partial_int (b - 1)))
        else
          let* decoded :=
            (if (N.eqb node 2 || N.eqb node 3)%bool then
               let* c := getLeftChild node_id curr_level in
               runsRecursiveDecode fuel' decoded partial_int c (S curr_level)
             else Ok decoded) in
          if (N.eqb node 1 || N.eqb node 3)%bool then
            let* b := shl1 (height - curr_level - 1) in
            let* c := getRightChild node_id curr_level in
            runsRecursiveDecode fuel' decoded (N.lor partial_int b) c (S curr_level)
          else Ok decoded
      end.
End Decode.

(** decode: include/flatBinTrie.hpp:446-458, flatBinTrie_il.hpp:457-471. *)
Definition flat_decode (t : flat) (decoded : list N) : result (list N) :=
  if f_runs_encoded t then
    if f_empty_trie t then Ok decoded
    else runsRecursiveDecode (f_height t) (f_height t) (flat_getNode t)
           (flat_getLeftChild t) (flat_getRightChild t) (S (f_height t)) decoded 0 0 0
  else
    recursiveDecode (f_height t) (f_height t) (flat_getNode t)
      (flat_getLeftChild t) (flat_getRightChild t) (S (f_height t)) decoded 0 0 0.

(** Number of ones of a bit vector, counted by a loop.  include/flatBinTrie.hpp:464-467,
    include/binTrie.hpp:422-425. *)
Definition count_loop (bv : list bool) : result nat :=
  for_loop (length bv) 0 (fun i n =>
    let* b := vget bv i in Ok (if b then S n else n)) 0.

(** trieMeasure: include/flatBinTrie.hpp:461-469, flatBinTrie_il.hpp:474-482. *)
Definition flat_trieMeasure (t : flat) : result nat :=
  let* a := rank1 (f_rank t) (length (f_bTrie t)) in
  let* b := count_loop (f_lastLevel t) in
  Ok (a + b).

(** elements_coded: include/flatBinTrie_il.hpp:200-208. *)
Definition flat_elements_coded (t : flat) : result nat := count_loop (f_lastLevel t).

(** The one-argument constructor: include/flatBinTrie.hpp:144-147,
    flatBinTrie_il.hpp:146-149.  The statement [flatBinTrie(set, u);] creates a
    temporary that is destroyed at once; the object under construction keeps
    default members and an uninitialised height.  [junk] is that height.
    [set.back()] on an empty vector is undefined. *)
Definition flat_build1 (junk : nat) (set : list N) : result flat :=
  match set with
  | [] => UB OutOfBounds
  | _ =>
    let u := last set 0%N in
    let* _ := flat_build set u in
    Ok (mkFlat junk 0 false false [] [] [])
  end.
