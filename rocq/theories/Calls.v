(** AND and runsAND with a record of the calls made, in order.  Each call is its currLevel
    and prefix.  Apart from the record the text is that of Intersection.v; CallsThms.v
    proves that without it the two compute the same. *)

From Verif Require Import Base FlatTrie LevelTrie FastTrie ParallelFor Intersection.

(** No code of its own: the levels and nodes with which getNode, getLeftChild and getRightChild
    are called, e.g. include/flatBinTrie.hpp:392-404. *)
Definition calls := list (nat * N).

Section Calls.
  Variable k : kind.
  Variable Ts : list trie_ops.
  Variable nTries : nat.
  Variable maxLevel : nat.

  (** src/intersection.cpp:129-185, src/fastTrieIntersection.cpp:138-207. *)
  Fixpoint AND_calls (fuel : nat) (currLevel : nat) (roots : roots_arr) (prefix : N)
           (r : list N) (c : calls) : result (list N * option bool * calls) :=
    let c := c ++ [(currLevel, prefix)] in
    if at_end k maxLevel currLevel then
      let* r := and_leaf k Ts nTries all_active roots prefix r in Ok (r, Some true, c)
    else
      match fuel with
      | O => OutOfFuel
      | S fuel' =>
        let* andResult :=
          for_loop nTries 0 (fun i acc =>
            let* T := vget Ts i in
            let* root := aget roots i in
            let* node_i := t_getNode T root currLevel in
            Ok (N.land acc node_i)) 3%N in
        if N.eqb andResult 0 then Ok (r, Some false, c)
        else
          let nextLevel := S currLevel in
          if N.eqb andResult 2 then
            let* nodes := left_children Ts nTries maxLevel all_active currLevel roots in
            let* (r, fl, c) := AND_calls fuel' nextLevel nodes prefix r c in
            Ok (r, or_flag fl None, c)
          else if N.eqb andResult 1 then
            let* rp := right_prefix k maxLevel currLevel prefix in
            let* nodes := right_children Ts nTries maxLevel all_active currLevel roots in
            let* (r, fr, c) := AND_calls fuel' nextLevel nodes rp r c in
            Ok (r, or_flag None fr, c)
          else
            let* rp := right_prefix k maxLevel currLevel prefix in
            let* (lnodes, rnodes) := both_children Ts nTries maxLevel all_active currLevel roots in
            let* (r, fl, c) := AND_calls fuel' nextLevel lnodes prefix r c in
            let* (r, fr, c) := AND_calls fuel' nextLevel rnodes rp r c in
            Ok (r, or_flag fl fr, c)
      end.

  (** src/intersection.cpp:45-126, src/fastTrieIntersection.cpp:40-135. *)
  Fixpoint runsAND_calls (fuel : nat) (currLevel : nat) (roots : roots_arr)
           (active : active_arr) (prefix : N) (r : list N) (c : calls) : result (list N * calls) :=
    let c := c ++ [(currLevel, prefix)] in
    if at_end k maxLevel currLevel then
      let* r := and_leaf k Ts nTries (aget active) roots prefix r in Ok (r, c)
    else
      match fuel with
      | O => OutOfFuel
      | S fuel' =>
        let* (temp, andResult, orResult) := runs_scan Ts nTries currLevel roots active in
        if (N.eqb andResult 0 && negb (N.eqb orResult 0))%bool then Ok (r, c)
        else if N.eqb orResult 0 then
          let* r := push_full k maxLevel currLevel prefix r in Ok (r, c)
        else
          let nextLevel := S currLevel in
          if N.eqb andResult 2 then
            let* nodes := left_children Ts nTries maxLevel (aget temp) currLevel roots in
            runsAND_calls fuel' nextLevel nodes temp prefix r c
          else if N.eqb andResult 1 then
            let* rp := right_prefix k maxLevel currLevel prefix in
            let* nodes := right_children Ts nTries maxLevel (aget temp) currLevel roots in
            runsAND_calls fuel' nextLevel nodes temp rp r c
          else if N.eqb andResult 3 then
            let* rp := right_prefix k maxLevel currLevel prefix in
            let* (lnodes, rnodes) := both_children Ts nTries maxLevel (aget temp) currLevel roots in
            let* (r, c) := runsAND_calls fuel' nextLevel lnodes temp prefix r c in
            runsAND_calls fuel' nextLevel rnodes temp rp r c
          else Ok (r, c)
      end.
End Calls.

(** Intersect with parallel = false: src/intersection.cpp:305-435,
    src/fastTrieIntersection.cpp:327-459. *)
Definition Intersect_calls (k : kind) (hc : N) (Ts : list trie_ops) (runs : bool)
  : result (list N * calls) :=
  let* T0 := vget Ts 0 in
  let height := t_height T0 in
  if negb (same_height height Ts) then Ok ([], [])
  else
    let nTries := length Ts in
    if N.eqb hc 0 then UB BadCast
    else if runs then
      runsAND_calls k Ts nTries height (S height) 0 init_roots init_active 0 [] []
    else
      let* (r, _, c) := AND_calls k Ts nTries height (S height) 0 init_roots 0 [] [] in
      Ok (r, c).
