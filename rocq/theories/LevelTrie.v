(** Model of include/binTrie.hpp and include/binTrie_il.hpp: one bit vector per
    level, node identifiers local to each level.

    The two classes differ in how children are computed, in the loop bound of
    writeOnes, and in serialize/load; the flag [il] selects the class. *)

From Verif Require Import Base Split FlatTrie.

(** Fields: include/binTrie.hpp:20-21, include/binTrie_il.hpp:19-20 and the base
    class.  [l_rank] holds, for each level but the last, the bit sequence its
    rank structure was built over. *)
Record level_trie := mkLevel {
  l_il : bool;
  l_height_with_runs : nat;
  l_empty_trie : bool;
  l_runs_encoded : bool;
  l_bTrie : list (list bool);
  l_rank : list (list bool)
}.

(** State of the construction loop: include/binTrie.hpp:31-48. *)
Record lb_state := mkLB {
  lb_q : list seg;
  lb_level : nat;
  lb_nodes_curr : nat;
  lb_count : nat;
  lb_nodes_next : nat;
  lb_index : nat;
  lb_bTrie : list (list bool)
}.

(** Writing a child bit: include/binTrie.hpp:80-94 (left), 95-108 (right);
    include/binTrie_il.hpp:81-91, 92-102. *)
Definition lb_child (present : bool) (mk : result seg) (st : lb_state)
  : result lb_state :=
  if present then
    let* bv := vget (lb_bTrie st) (lb_level st) in
    let* bv' := vset bv (lb_index st) true in
    let* bt := vset (lb_bTrie st) (lb_level st) bv' in
    let* sg := mk in
    Ok (mkLB (lb_q st ++ [sg]) (lb_level st) (lb_nodes_curr st) (lb_count st)
             (S (lb_nodes_next st)) (S (lb_index st)) bt)
  else
    Ok (mkLB (lb_q st) (lb_level st) (lb_nodes_curr st) (lb_count st)
             (lb_nodes_next st) (S (lb_index st)) (lb_bTrie st)).

(** End of a level: include/binTrie.hpp:110-118, include/binTrie_il.hpp:104-111. *)
Definition lb_end_level (st : lb_state) : result lb_state :=
  if lb_count st =? lb_nodes_curr st then
    let* bv := vget (lb_bTrie st) (lb_level st) in
    let* bt := vset (lb_bTrie st) (lb_level st) (bv_resize bv (2 * lb_count st)) in
    Ok (mkLB (lb_q st) (S (lb_level st)) (lb_nodes_next st) 0 0 0 bt)
  else Ok st.

(** One iteration: include/binTrie.hpp:51-118. *)
Definition lb_step (set : list N) (h : nat) (sg : seg) (q : list seg) (st : lb_state)
  : result lb_state :=
  let '(l, r, _) := sg in
  let* o := split set (h - lb_level st) l r in
  let st0 := mkLB q (lb_level st) (lb_nodes_curr st) (S (lb_count st))
                  (lb_nodes_next st) (lb_index st) (lb_bTrie st) in
  let* st1 := lb_child (N.ltb 0 (so_left o)) (left_seg o) st0 in
  let* st2 := lb_child (N.ltb 0 (so_right o)) (right_seg o) st1 in
  lb_end_level st2.

(** The while loop: include/binTrie.hpp:50-122, include/binTrie_il.hpp:52-115
    (where [level != height] is part of the loop condition instead of a break
    at the end of the body; level is 0 < height on entry). *)
Fixpoint lb_loop (fuel : nat) (set : list N) (h : nat) (st : lb_state)
  : result lb_state :=
  match lb_q st with
  | [] => Ok st
  | sg :: q =>
    match fuel with
    | O => OutOfFuel
    | S fuel' =>
      let* st' := lb_step set h sg q st in
      if lb_level st' =? h then Ok st' else lb_loop fuel' set h st'
    end
  end.

(** [split(0, n-1, n)] with a 64-bit n: include/binTrie.hpp:29,41. *)
Definition first_seg64 (set : list N) : seg :=
  let n := wrap64 (N.of_nat (length set)) in
  (0%N, wrap64 (n + (2 ^ 64 - 1)), n).

(** Initial state: include/binTrie.hpp:31-48. *)
Definition lb_init (set : list N) (h : nat) : lb_state :=
  mkLB [first_seg64 set] 0 1 0 0 0 (map (fun level => bv_make (2 * 2 ^ level)) (seq 0 h)).

(** binTrie(vector<uint64_t> set, uint64_t u): include/binTrie.hpp:28-128,
    include/binTrie_il.hpp:31-124. *)
Definition level_build (il : bool) (set : list N) (u : N) : result level_trie :=
  let* h := height_of u in
  let* st := lb_loop (fb_fuel set h) set h (lb_init set h) in
  Ok (mkLevel il 0 false false (lb_bTrie st) (firstn (h - 1) (lb_bTrie st))).

(** getHeight: include/binTrie.hpp:157-159. *)
Definition level_getHeight (t : level_trie) : nat := length (l_bTrie t).

(** getNode: include/binTrie.hpp:152-154, include/binTrie_il.hpp:133-135. *)
Definition level_getNode (t : level_trie) (node_id level : nat) : result N :=
  let* bv := vget (l_bTrie t) level in
  let* a := vget bv (2 * node_id) in
  let* b := vget bv (2 * node_id + 1) in
  Ok (node_code a b).

(** [rank(i) - 1] on unsigned values; a wrap below zero is never reached by the callers and is
    made visible as [Unmodelled].  include/binTrie_il.hpp:147, 155. *)
Definition rank1_pred (bv : list bool) (i : nat) : result nat :=
  let* k := rank1 bv i in
  if k =? 0 then UB Unmodelled else Ok (k - 1).

(** getLeftChild: include/binTrie.hpp:162-167 (rank(2 id)),
    include/binTrie_il.hpp:143-148 (rank(2 id + 1) - 1). *)
Definition level_getLeftChild (t : level_trie) (node_id level : nat) : result nat :=
  if level_getHeight t <=? S level then Ok 0
  else
    let* bv := vget (l_rank t) level in
    if l_il t then rank1_pred bv (2 * node_id + 1) else rank1 bv (2 * node_id).

(** getRightChild: include/binTrie.hpp:170-175 (rank(2 id + 1)),
    include/binTrie_il.hpp:151-156 (rank(2 id + 2) - 1). *)
Definition level_getRightChild (t : level_trie) (node_id level : nat) : result nat :=
  if level_getHeight t <=? S level then Ok 0
  else
    let* bv := vget (l_rank t) level in
    if l_il t then rank1_pred bv (2 * node_id + 2) else rank1 bv (2 * node_id + 1).

(** First loop of writeOnes: include/binTrie.hpp:304-312,
    include/binTrie_il.hpp:286-295.  Levels with no bits keep the default
    (empty) bit vector. *)
Definition level_sizes (h : nat) (level_pos : list nat)
  : result (list (list bool) * nat) :=
  for_loop h 0 (fun level '(bt, last_level) =>
    let* p := vget level_pos level in
    if 0 <? p
    then let* bt := vset bt level (bv_make p) in Ok (bt, level)
    else Ok (bt, last_level)) (repeat [] h, 0).

(** writeOnes: include/binTrie.hpp:303-326 (levels < getHeight()),
    include/binTrie_il.hpp:285-313 (levels < height_with_runs). *)
Definition level_writeOnes (t : level_trie) (st : wc_state) : result level_trie :=
  let '(ones, level_pos) := st in
  let h := level_getHeight t in
  let* (bt, last_level) := level_sizes h level_pos in
  let hwr := S last_level in
  let* bt :=
    for_loop (if l_il t then hwr else h) 0 (fun level bt =>
      let* os := vget ones level in
      let* bv := vget bt level in
      let* bv := set_ones bv 0 os in
      vset bt level bv) bt in
  Ok (mkLevel (l_il t) hwr (l_empty_trie t) true bt (firstn (h - 1) bt)).

(** encodeRuns: include/binTrie.hpp:329-339, include/binTrie_il.hpp:316-325. *)
Definition level_encodeRuns (t : level_trie) : result level_trie :=
  let* st := compress_run (level_getHeight t) (level_getNode t)
                          (level_getLeftChild t) (level_getRightChild t) in
  level_writeOnes t st.

(** decode: include/binTrie.hpp:401-415, include/binTrie_il.hpp:387-401.
    Run-encoded tries stop at height_with_runs. *)
Definition level_decode (t : level_trie) (decoded : list N) : result (list N) :=
  let h := level_getHeight t in
  if l_runs_encoded t then
    if l_empty_trie t then Ok decoded
    else runsRecursiveDecode h (l_height_with_runs t) (level_getNode t)
           (level_getLeftChild t) (level_getRightChild t) (S h) decoded 0 0 0
  else
    recursiveDecode h h (level_getNode t)
      (level_getLeftChild t) (level_getRightChild t) (S h) decoded 0 0 0.

(** The one-argument constructor: include/binTrie.hpp:131-134,
    include/binTrie_il.hpp:127-130.  [binTrie(set, u);] builds and discards a
    temporary; the object keeps default members. *)
Definition level_build1 (il : bool) (set : list N) : result level_trie :=
  match set with
  | [] => UB OutOfBounds
  | _ =>
    let u := last set 0%N in
    let* _ := level_build il set u in
    Ok (mkLevel il 0 false false [] [])
  end.
