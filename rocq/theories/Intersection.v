(** Model of src/intersection.cpp (binaryTrie) and src/fastTrieIntersection.cpp
    (fastBinaryTrie).

    The two files have the same structure; the second stops one level earlier, at
    the words, and its shift counts include the bits of a word.  One definition
    serves both: [kind] selects the file.  Line numbers are given for both. *)

From Verif Require Import Base FlatTrie LevelTrie FastTrie ParallelFor.

(** [Bin]: src/intersection.cpp.  [Fast lw]: src/fastTrieIntersection.cpp with
    words of 2^lw bits. *)
Inductive kind := Bin | Fast (lw : nat).

(** The methods of a trie used by the intersection.  include/binaryTrie.hpp:20-23,
    include/fastBinaryTrie.hpp:157-191. *)
Record trie_ops := mkOps {
  t_height : nat;
  t_getNode : nat -> nat -> result N;
  t_getLeft : nat -> nat -> result nat;
  t_getRight : nat -> nat -> result nat;
  t_getWord : nat -> result N
}.

(** binaryTrie has no getWord; [Bin] code never calls it.  include/flatBinTrie.hpp:191-227. *)
Definition flat_ops (t : flat) : trie_ops :=
  mkOps (flat_getHeight t) (flat_getNode t) (flat_getLeftChild t)
        (flat_getRightChild t) (fun _ => UB Unmodelled).

(** include/binTrie.hpp:152-175. *)
Definition level_ops (t : level_trie) : trie_ops :=
  mkOps (level_getHeight t) (level_getNode t) (level_getLeftChild t)
        (level_getRightChild t) (fun _ => UB Unmodelled).

(** include/fastBinaryTrie.hpp:157-191. *)
Definition fast_ops (t : fast) : trie_ops :=
  mkOps (fast_getHeight t) (fast_getNode t) (fast_getLeftChild t)
        (fast_getRightChild t) (fast_getWord t).

(** Local arrays have 16 cells; a [None] cell is uninitialised.  src/intersection.cpp:88, 98,
    109-110, 319, src/fastTrieIntersection.cpp:97, 107, 342. *)
Definition roots_arr := list (option nat).
(** src/intersection.cpp:53, 315, src/fastTrieIntersection.cpp:62, 338. *)
Definition active_arr := list (option bool).
(** An array as declared: src/intersection.cpp:53, 88, 98, src/fastTrieIntersection.cpp:62, 97,
    107. *)
Definition arr16 {A} : list (option A) := repeat None 16.
(** An assignment to a cell, e.g. src/intersection.cpp:60, 92, src/fastTrieIntersection.cpp:69,
    101. *)
Definition aset {A} (v : list (option A)) (i : nat) (x : A) : result (list (option A)) :=
  vset v i (Some x).

(** [(uint64_t)1 << (a - b)] with unsigned a - b.  src/intersection.cpp:76, 99, 159, 171,
    src/fastTrieIntersection.cpp:85, 108, 181. *)
Definition shl_sub (a b : nat) : result N :=
  if a <? b then UB BadShift else shl1 (a - b).

(** A heap array and its address.  Allocated at src/intersection.cpp:195-203,
    src/fastTrieIntersection.cpp:218-226. *)
Definition harr (A : Type) := (nat * list (option A))%type.

(** Allocation and deallocation counters of one call: number of [new] so far and addresses
    passed to [delete[]].  src/intersection.cpp:195-203, 421-425,
    src/fastTrieIntersection.cpp:218-226, 445-449. *)
Record mem := mkMem { m_next : nat; m_freed : list nat }.

Section Intersect.
  Variable k : kind.
  Variable Ts : list trie_ops.
  Variable nTries : nat.
  Variable maxLevel : nat.

  (** Bits spanned by a whole trie: [maxLevel], or [maxLevel + log2(w) - 1].
      src/intersection.cpp:76, src/fastTrieIntersection.cpp:85. *)
  Definition total_bits : nat :=
    match k with Bin => maxLevel | Fast lw => maxLevel + lw - 1 end.

  (** End test of AND and runsAND: [currLevel == maxLevel]
      (src/intersection.cpp:48,131) or [currLevel == maxLevel-1]
      (src/fastTrieIntersection.cpp:45,141). *)
  Definition at_end (currLevel : nat) : bool :=
    match k with
    | Bin => currLevel =? maxLevel
    | Fast _ => S currLevel =? maxLevel
    end.

  (** End of a branch: src/intersection.cpp:49-50,132-133 push the prefix;
      src/fastTrieIntersection.cpp:46-59,142-154 AND the words of the active
      tries and push the position of each remaining bit. *)
  Definition and_leaf (active : nat -> result bool) (roots : roots_arr) (prefix : N)
             (r : list N) : result (list N) :=
    match k with
    | Bin => Ok (r ++ [prefix])
    | Fast lw =>
      let* w :=
        for_loop nTries 0 (fun i w =>
          let* a := active i in
          if a then
            let* T := vget Ts i in
            let* root := aget roots i in
            let* wi := t_getWord T root in
            Ok (N.land w wi)
          else Ok w) (wmax lw) in
      word_bits (word_fuel lw) lw w prefix r
    end.

  (** Loop filling leftNodes for the branch 10:
      src/intersection.cpp:90-93,151-154,
      src/fastTrieIntersection.cpp:99-102,173-176. *)
  Definition left_children (active : nat -> result bool) (currLevel : nat)
             (roots : roots_arr) : result roots_arr :=
    for_loop nTries 0 (fun i nodes =>
      let* a := active i in
      if a && negb (S currLevel =? maxLevel) then
        let* T := vget Ts i in
        let* root := aget roots i in
        let* c := t_getLeft T root currLevel in
        aset nodes i c
      else Ok nodes) arr16.

  (** Loop filling rightNodes for the branch 01:
      src/intersection.cpp:100-103,160-163,
      src/fastTrieIntersection.cpp:109-112,182-185. *)
  Definition right_children (active : nat -> result bool) (currLevel : nat)
             (roots : roots_arr) : result roots_arr :=
    for_loop nTries 0 (fun i nodes =>
      let* a := active i in
      if a && negb (S currLevel =? maxLevel) then
        let* T := vget Ts i in
        let* root := aget roots i in
        let* c := t_getRight T root currLevel in
        aset nodes i c
      else Ok nodes) arr16.

  (** Loop filling leftNodes and rightNodes for the branch 11:
      src/intersection.cpp:113-119,172-178,
      src/fastTrieIntersection.cpp:122-128,194-200. *)
  Definition both_children (active : nat -> result bool) (currLevel : nat)
             (roots : roots_arr) : result (roots_arr * roots_arr) :=
    for_loop nTries 0 (fun i '(lnodes, rnodes) =>
      let* a := active i in
      if a && negb (S currLevel =? maxLevel) then
        let* T := vget Ts i in
        let* root := aget roots i in
        let* c := t_getLeft T root currLevel in
        let* lnodes := aset lnodes i c in
        let* rnodes := aset rnodes i (c + 1) in
        Ok (lnodes, rnodes)
      else Ok (lnodes, rnodes)) (arr16, arr16).

  (** [prefix | (1 << (bits - currLevel - 1))].  src/intersection.cpp:99, 112, 159, 171,
      src/fastTrieIntersection.cpp:108, 121, 181, 193. *)
  Definition right_prefix (currLevel : nat) (prefix : N) : result N :=
    let* b := shl_sub total_bits (currLevel + 1) in Ok (N.lor prefix b).

  (** Pushing the whole range below a node that is full in every trie:
      src/intersection.cpp:75-81,237-241, src/fastTrieIntersection.cpp:84-90,260-264. *)
  Definition push_full (currLevel : nat) (prefix : N) (r : list N) : result (list N) :=
    let* b := shl_sub total_bits currLevel in
    Ok (push_range r prefix (N.lor prefix (b - 1))).

  (** [existLeft || existRight] where either may be uninitialised; the value only reaches the
      returned flag, which no caller uses for the result vector. Simplification: an
      indeterminate flag is propagated as [None] instead of being undefined behaviour.
      src/intersection.cpp:182, src/fastTrieIntersection.cpp:204. *)
  Definition or_flag (a b : option bool) : option bool :=
    match a with
    | Some true => Some true
    | Some false => match b with Some true => Some true | Some false => Some false | None => None end
    | None => None
    end.

  (** No code of its own: AND takes no activeTries, src/intersection.cpp:129-185,
      src/fastTrieIntersection.cpp:138-207. *)
  Definition all_active (i : nat) : result bool := Ok true.

  (** AND: src/intersection.cpp:129-185, src/fastTrieIntersection.cpp:138-207.
      Returns the result vector and the returned flag. *)
  Fixpoint AND (fuel : nat) (currLevel : nat) (roots : roots_arr) (prefix : N)
           (r : list N) : result (list N * option bool) :=
    if at_end currLevel then
      let* r := and_leaf all_active roots prefix r in Ok (r, Some true)
    else
      match fuel with
      | O => OutOfFuel
      | S fuel' =>
        let* andResult :=
          for_loop nTries 0 (fun i acc =>
            let* T := vget Ts i in
            let* root := aget roots i in
            let* node_i := t_getNode T root currLevel in
            Ok (N.land acc node_i)) 3%N in
        if N.eqb andResult 0 then Ok (r, Some false)
        else
          let nextLevel := S currLevel in
          if N.eqb andResult 2 then
            let* nodes := left_children all_active currLevel roots in
            let* (r, fl) := AND fuel' nextLevel nodes prefix r in
            Ok (r, or_flag fl None)
          else if N.eqb andResult 1 then
            let* rp := right_prefix currLevel prefix in
            let* nodes := right_children all_active currLevel roots in
            let* (r, fr) := AND fuel' nextLevel nodes rp r in
            Ok (r, or_flag None fr)
          else
            let* rp := right_prefix currLevel prefix in
            let* (lnodes, rnodes) := both_children all_active currLevel roots in
            let* (r, fl) := AND fuel' nextLevel lnodes prefix r in
            let* (r, fr) := AND fuel' nextLevel rnodes rp r in
            Ok (r, or_flag fl fr)
      end.

  (** First loop of runsAND: src/intersection.cpp:53-69,
      src/fastTrieIntersection.cpp:62-78.  Result: tempActiveTries, andResult,
      orResult. *)
  Definition runs_scan (currLevel : nat) (roots : roots_arr) (active : active_arr)
    : result (active_arr * N * N) :=
    for_loop nTries 0 (fun i '(temp, andResult, orResult) =>
      let* a := aget active i in
      if a then
        let* T := vget Ts i in
        let* root := aget roots i in
        let* node_i := t_getNode T root currLevel in
        if negb (N.eqb node_i 0) then
          let* temp := aset temp i true in
          Ok (temp, N.land andResult node_i, N.lor orResult node_i)
        else
          let* temp := aset temp i false in
          Ok (temp, andResult, N.lor orResult node_i)
      else
        let* temp := aset temp i false in
        Ok (temp, andResult, orResult)) (arr16, 3%N, 0%N).

  (** runsAND: src/intersection.cpp:45-126, src/fastTrieIntersection.cpp:40-135. *)
  Fixpoint runsAND (fuel : nat) (currLevel : nat) (roots : roots_arr)
           (active : active_arr) (prefix : N) (r : list N) : result (list N) :=
    if at_end currLevel then and_leaf (aget active) roots prefix r
    else
      match fuel with
      | O => OutOfFuel
      | S fuel' =>
        let* (temp, andResult, orResult) := runs_scan currLevel roots active in
        if (N.eqb andResult 0 && negb (N.eqb orResult 0))%bool then Ok r
        else if N.eqb orResult 0 then push_full currLevel prefix r
        else
          let nextLevel := S currLevel in
          if N.eqb andResult 2 then
            let* nodes := left_children (aget temp) currLevel roots in
            runsAND fuel' nextLevel nodes temp prefix r
          else if N.eqb andResult 1 then
            let* rp := right_prefix currLevel prefix in
            let* nodes := right_children (aget temp) currLevel roots in
            runsAND fuel' nextLevel nodes temp rp r
          else if N.eqb andResult 3 then
            let* rp := right_prefix currLevel prefix in
            let* (lnodes, rnodes) := both_children (aget temp) currLevel roots in
            let* r := runsAND fuel' nextLevel lnodes temp prefix r in
            runsAND fuel' nextLevel rnodes temp rp r
          else Ok r
      end.

  (** Output parameters of partialAND: r, partial_ints, threads_roots, threads_activeTries, and
      the heap.  src/intersection.cpp:188-191, src/fastTrieIntersection.cpp:211-214. *)
  Record pa_state := mkPA {
    pa_r : list N;
    pa_ints : list N;
    pa_roots : list (harr nat);
    pa_active : list (harr bool);
    pa_mem : mem
  }.

  (** Copy of the first n_tries cells of an array.  src/intersection.cpp:195-203,
      src/fastTrieIntersection.cpp:218-226. *)
  Definition copy_arr {A} (src : list (option A)) : result (list (option A)) :=
    for_loop nTries 0 (fun i dst => let* x := aget src i in aset dst i x) arr16.

  Variable runs : bool.

  (** End of partialAND at the cut level: src/intersection.cpp:193-208,
      src/fastTrieIntersection.cpp:216-231.  Two [new] when runs, one otherwise. *)
  Definition pa_emit (roots : roots_arr) (active : active_arr) (partial_int : N)
             (st : pa_state) : result pa_state :=
    let addr := m_next (pa_mem st) in
    let* rts := copy_arr roots in
    if runs then
      let* atrs := copy_arr active in
      Ok (mkPA (pa_r st) (pa_ints st ++ [partial_int])
               (pa_roots st ++ [(addr, rts)]) (pa_active st ++ [(S addr, atrs)])
               (mkMem (S (S addr)) (m_freed (pa_mem st))))
    else
      Ok (mkPA (pa_r st) (pa_ints st ++ [partial_int])
               (pa_roots st ++ [(addr, rts)]) (pa_active st)
               (mkMem (S addr) (m_freed (pa_mem st)))).

  (** Scan loop of partialAND: src/intersection.cpp:210-232,
      src/fastTrieIntersection.cpp:233-255.  Note the condition
      [node_i || runs], always true in this branch. *)
  Definition pa_scan (currLevel : nat) (roots : roots_arr) (active : active_arr)
    : result (active_arr * N * N) :=
    for_loop nTries 0 (fun i '(temp, res, node00) =>
      if runs then
        let* a := aget active i in
        if a then
          let* T := vget Ts i in
          let* root := aget roots i in
          let* node_i := t_getNode T root currLevel in
          let* (temp, res) :=
            (if (negb (N.eqb node_i 0) || runs)%bool then
               let* temp := aset temp i true in Ok (temp, N.land res node_i)
             else let* temp := aset temp i false in Ok (temp, res)) in
          Ok (temp, res, N.lor node00 node_i)
        else
          let* temp := aset temp i false in Ok (temp, res, node00)
      else
        let* T := vget Ts i in
        let* root := aget roots i in
        let* node_i := t_getNode T root currLevel in
        Ok (temp, N.land res node_i, node00)) (arr16, 3%N, 0%N).

  (** Loops computing the children of every trie: src/intersection.cpp:249-254,
      264-269, 281-292, src/fastTrieIntersection.cpp:272-277, 287-292, 304-315
      (both arms of the inner [if] are identical). *)
  Definition pa_left (currLevel : nat) (roots : roots_arr) : result roots_arr :=
    for_loop nTries 0 (fun i nodes =>
      let* T := vget Ts i in
      let* root := aget roots i in
      let* c := t_getLeft T root currLevel in
      aset nodes i c) arr16.

  (** The right children only: src/intersection.cpp:264-269,
      src/fastTrieIntersection.cpp:287-292. *)
  Definition pa_right (currLevel : nat) (roots : roots_arr) : result roots_arr :=
    for_loop nTries 0 (fun i nodes =>
      let* T := vget Ts i in
      let* root := aget roots i in
      let* c := t_getRight T root currLevel in
      aset nodes i c) arr16.

  (** Both children: src/intersection.cpp:281-292, src/fastTrieIntersection.cpp:304-316. *)
  Definition pa_both (currLevel : nat) (roots : roots_arr)
    : result (roots_arr * roots_arr) :=
    for_loop nTries 0 (fun i '(lnodes, rnodes) =>
      let* T := vget Ts i in
      let* root := aget roots i in
      let* c := t_getLeft T root currLevel in
      let* lnodes := aset lnodes i c in
      let* rnodes := aset rnodes i (c + 1) in
      Ok (lnodes, rnodes)) (arr16, arr16).

  (** partialAND: src/intersection.cpp:188-302, src/fastTrieIntersection.cpp:210-325. *)
  Fixpoint partialAND (fuel : nat) (currLevel cutLevel : nat) (roots : roots_arr)
           (active : active_arr) (partial_int : N) (st : pa_state) : result pa_state :=
    if currLevel =? cutLevel then pa_emit roots active partial_int st
    else
      match fuel with
      | O => OutOfFuel
      | S fuel' =>
        let* (temp, res, node00) := pa_scan currLevel roots active in
        if (negb runs && N.eqb res 0)%bool then Ok st
        else if (runs && N.eqb node00 0)%bool then
          let* r := push_full currLevel partial_int (pa_r st) in
          Ok (mkPA r (pa_ints st) (pa_roots st) (pa_active st) (pa_mem st))
        else if N.eqb res 2 then
          let* nodes := pa_left currLevel roots in
          partialAND fuel' (S currLevel) cutLevel nodes temp partial_int st
        else if N.eqb res 1 then
          let* rp := right_prefix currLevel partial_int in
          let* nodes := pa_right currLevel roots in
          partialAND fuel' (S currLevel) cutLevel nodes temp rp st
        else if N.eqb res 3 then
          let* rp := right_prefix currLevel partial_int in
          let* (lnodes, rnodes) := pa_both currLevel roots in
          let* st := partialAND fuel' (S currLevel) cutLevel lnodes temp partial_int st in
          partialAND fuel' (S currLevel) cutLevel rnodes temp rp st
        else Ok st
      end.

  (** src/intersection.cpp:315-318, src/fastTrieIntersection.cpp:338-341. *)
  Definition init_active : active_arr := repeat (Some true) 16.
  (** src/intersection.cpp:319-320, src/fastTrieIntersection.cpp:342-343. *)
  Definition init_roots : roots_arr := repeat (Some 0) 16.

  (** uint16_t: src/intersection.cpp:342, src/fastTrieIntersection.cpp:365. *)
  Definition wrap16 (x : N) : N := N.modulo x (2 ^ 16).
  (** uint32_t and unsigned: src/intersection.cpp:322-325, include/parallel_for.hpp:35-36. *)
  Definition wrap32 (x : N) : N := N.modulo x (2 ^ 32).

  (** The loop that goes one level deeper to use more threads:
      src/intersection.cpp:349-355, src/fastTrieIntersection.cpp:372-378.
      [nThreads - usedThreads] is computed on 32 unsigned bits and usedThreads is a
      uint16_t.  Result: number of expanded tasks, usedThreads, and the state
      holding nextRoots, nextActiveTries, nextPartialSolutions. *)
  Fixpoint fill_loop (fuel : nat) (cut : nat) (nThreads : N) (total : nat)
           (ints : list N) (troots : list (harr nat)) (tactive : list (harr bool))
           (i : nat) (used : N) (st : pa_state) : result (nat * N * pa_state) :=
    if (N.ltb 1 (wrap32 (nThreads + 2 ^ 32 - used)) && (i <? total))%bool then
      match fuel with
      | O => OutOfFuel
      | S fuel' =>
        let* rt := vget troots i in
        let* act := (if runs then let* a := vget tactive i in Ok (snd a) else Ok init_active) in
        let* p := vget ints i in
        let* st := partialAND (S (S cut)) cut (S cut) (snd rt) act p st in
        let used := wrap16 (N.of_nat total + N.of_nat (length (pa_roots st)) + 2 ^ 64
                            - N.of_nat (S i)) in
        fill_loop fuel' cut nThreads total ints troots tactive (S i) used st
      end
    else Ok (i, used, st).

  (** One unit of parallel work: start level, roots, active flags, prefix.
      src/intersection.cpp:346-364, src/fastTrieIntersection.cpp:369-388. *)
  Record task := mkTask {
    tk_level : nat;
    tk_roots : roots_arr;
    tk_active : active_arr;
    tk_prefix : N
  }.

  (** Body of the functor for one threadId: src/intersection.cpp:373-391,
      src/fastTrieIntersection.cpp:397-415, starting from an empty result vector. *)
  Definition run_task (tk : task) : result (list N) :=
    if runs
    then runsAND (S maxLevel) (tk_level tk) (tk_roots tk) (tk_active tk) (tk_prefix tk) []
    else let* (r, _) := AND (S maxLevel) (tk_level tk) (tk_roots tk) (tk_prefix tk) [] in Ok r.

  (** Arguments of the call of index t: nextInitLevel, nextRoots, nextActiveTries,
      nextPartialSolutions.  src/intersection.cpp:373-391,
      src/fastTrieIntersection.cpp:397-415. *)
  Definition get_task (levels : list nat) (st : pa_state) (t : nat) : result task :=
    let* lv := vget levels t in
    let* rt := vget (pa_roots st) t in
    let* act := (if runs then let* a := vget (pa_active st) t in Ok (snd a) else Ok []) in
    let* p := vget (pa_ints st) t in
    Ok (mkTask lv (snd rt) act p).

  (** Freeing the arrays: src/intersection.cpp:421-425,
      src/fastTrieIntersection.cpp:445-449.  Freeing an address twice is [BadFree]. *)
  Definition free1 (m : mem) (addr : nat) : result mem :=
    if existsb (Nat.eqb addr) (m_freed m) then UB BadFree
    else Ok (mkMem (m_next m) (m_freed m ++ [addr])).

  (** The loop: src/intersection.cpp:421-425, src/fastTrieIntersection.cpp:445-449. *)
  Definition free_loop (used : nat) (st : pa_state) : result mem :=
    for_loop used 0 (fun i m =>
      let* m :=
        (if runs then let* a := vget (pa_active st) i in free1 m (fst a) else Ok m) in
      let* rt := vget (pa_roots st) i in
      free1 m (fst rt)) (pa_mem st).

  (** Outcome of the planning phase of the parallel branch.  src/intersection.cpp:322-364,
      src/fastTrieIntersection.cpp:346-388. *)
  Inductive plan :=
  | Done (r : list N) (m : mem)                       (* early return *)
  | Work (used : nat) (levels : list nat) (st : pa_state).

  (** src/intersection.cpp:330-371, src/fastTrieIntersection.cpp:353-395. *)
  Definition par_plan (cut : nat) (nThreads : N) : result plan :=
    let* st := partialAND (S cut) 0 cut init_roots init_active 0
                          (mkPA [] [] [] [] (mkMem 0 [])) in
    if length (pa_roots st) =? 0 then Ok (Done (pa_r st) (pa_mem st))
    else
      let used := wrap16 (N.of_nat (length (pa_roots st))) in
      let total := N.to_nat used in
      let* (i, used, st') :=
        fill_loop (S total) cut nThreads total (pa_ints st) (pa_roots st) (pa_active st)
                  0 used (mkPA (pa_r st) [] [] [] (pa_mem st)) in
      let levels := repeat (S cut) (length (pa_roots st')) in
      let* (levels, st') :=
        for_loop (total - i) i (fun j '(levels, st') =>
          let* rt := vget (pa_roots st) j in
          let* act := (if runs then let* a := vget (pa_active st) j in Ok [a] else Ok []) in
          let* p := vget (pa_ints st) j in
          Ok (levels ++ [cut],
              mkPA (pa_r st') (pa_ints st' ++ [p]) (pa_roots st' ++ [rt])
                   (pa_active st' ++ act) (pa_mem st'))) (levels, st') in
      if length (pa_roots st') =? 0 then Ok (Done (pa_r st') (pa_mem st'))
      else Ok (Work (N.to_nat used) levels st').

  (** Running all the tasks of the first parallel_for and collecting
      threads_results: src/intersection.cpp:366,373-391.  Each task only reads the
      tries and its own arrays, so the values it pushes do not depend on the
      schedule; the schedule [s] decides the order of all the push_backs. *)
  Definition par_results (s : scheduler) (used : nat) (levels : list nat) (st : pa_state)
    : result (list (list N)) :=
    let* outs :=
      for_loop used 0 (fun t outs =>
        let* tk := get_task levels st t in
        let* r := run_task tk in
        Ok (outs ++ [r])) [] in
    let* traces :=
      pf_traces used used (fun t => map (fun x => (t, x)) (nth t outs [])) in
    exec_push (repeat [] used) (s traces).

  (** Concatenation of the results: src/intersection.cpp:392-419,
      src/fastTrieIntersection.cpp:416-443.  Above 450000 values the vector is
      resized and filled by a second parallel_for at precomputed shifts. *)
  Definition par_concat (s : scheduler) (used : nat) (inter : list N)
             (results : list (list N)) : result (list N) :=
    let* (output_size, shifts, _) :=
      for_loop used 0 (fun t '(output_size, shifts, shift) =>
        let* v := vget results t in
        Ok (output_size + length v, shifts ++ [shift], shift + length v))
        (length inter, [], length inter) in
    if N.ltb 450000 (N.of_nat output_size) then
      let inter := inter ++ repeat 0%N (output_size - length inter) in
      let* traces :=
        pf_traces used used (fun t =>
          map (fun j => (j + nth t shifts 0, nth j (nth t results []) 0%N))
              (seq 0 (length (nth t results [])))) in
      exec_write inter (s traces)
    else
      for_loop used 0 (fun t inter =>
        let* v := vget results t in Ok (inter ++ v)) inter.
End Intersect.

(** The check that all heights agree: src/intersection.cpp:306-312,
    src/fastTrieIntersection.cpp:329-335. *)
Definition same_height (h : nat) (Ts : list trie_ops) : bool :=
  forallb (fun T => t_height T =? h) Ts.

(** The number of tries as partialAND takes it, a uint16_t: src/intersection.cpp:188,334,351,
    src/fastTrieIntersection.cpp:211,357,374. *)
Definition n_tries (nTries : nat) : nat := N.to_nat (wrap16 (N.of_nat nTries)).

(** Intersect, with the final heap: src/intersection.cpp:305-435,
    src/fastTrieIntersection.cpp:327-459.  [hc] is hardware_concurrency() and [s1],
    [s2] schedule the two parallel_for calls.  log2(0) is minus infinity, whose
    conversion to uint64_t is undefined.  [height-2] is unsigned. *)
Definition Intersect_mem (k : kind) (s1 s2 : scheduler) (hc : N) (Ts : list trie_ops)
           (runs parallel : bool) : result (list N * mem) :=
  let* T0 := vget Ts 0 in
  let height := t_height T0 in
  if negb (same_height height Ts) then Ok ([], mkMem 0 [])
  else
    let nTries := length Ts in
    if N.eqb hc 0 then UB BadCast
    else
      let cut := N.to_nat (N.log2 hc) in
      let nThreads := (2 ^ N.log2 hc)%N in
      if (parallel && ((height <? 2) || (cut <=? height - 2)))%bool then
        let* p := par_plan k Ts (n_tries nTries) height runs cut nThreads in
        match p with
        | Done r m => Ok (r, m)
        | Work used levels st =>
          let* results := par_results k Ts nTries height runs s1 used levels st in
          let* r := par_concat s2 used (pa_r st) results in
          let* m := free_loop runs used st in
          Ok (r, m)
        end
      else if runs then
        let* r := runsAND k Ts nTries height (S height) 0 init_roots init_active 0 [] in
        Ok (r, mkMem 0 [])
      else
        let* (r, _) := AND k Ts nTries height (S height) 0 init_roots 0 [] in
        Ok (r, mkMem 0 []).

(** The returned vector.  src/intersection.cpp:305-435, src/fastTrieIntersection.cpp:327-459. *)
Definition Intersect (k : kind) (s1 s2 : scheduler) (hc : N) (Ts : list trie_ops)
           (runs parallel : bool) : result (list N) :=
  let* (r, _) := Intersect_mem k s1 s2 hc Ts runs parallel in Ok r.
