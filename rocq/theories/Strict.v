(** AND with the flags existLeft and existRight read as C++ reads them: reading one that was
    not set is undefined behaviour.  Apart from the flags the text is that of Intersection.v,
    which lets an unset flag pass; StrictThms.v proves that the two agree wherever this one is
    defined.  runsAND and partialAND read no such flag. *)

From Verif Require Import Base FlatTrie LevelTrie FastTrie ParallelFor Intersection.

(** A variable that may not have been set.  Such as existLeft and existRight:
    src/intersection.cpp:146-182, src/fastTrieIntersection.cpp:168-204. *)
Definition read_flag (a : option bool) : result bool :=
  match a with Some b => Ok b | None => UB Indeterminate end.

(** [existLeft || existRight]: src/intersection.cpp:182, src/fastTrieIntersection.cpp:204.
    The second flag is read only when the first is false. *)
Definition or_read (a b : option bool) : result bool :=
  let* x := read_flag a in if x then Ok true else read_flag b.

Section Strict.
  Variable k : kind.
  Variable Ts : list trie_ops.
  Variable nTries : nat.
  Variable maxLevel : nat.

  (** src/intersection.cpp:129-185, src/fastTrieIntersection.cpp:138-207. *)
  Fixpoint AND_strict (fuel : nat) (currLevel : nat) (roots : roots_arr) (prefix : N)
           (r : list N) : result (list N * bool) :=
    if at_end k maxLevel currLevel then
      let* r := and_leaf k Ts nTries all_active roots prefix r in Ok (r, true)
    else
      match fuel with
      | O => OutOfFuel
      | S fuel' =>
        let* andResult :=
          for_loop nTries 0 (fun i acc =>
            let* T := vget Ts i in
            let* root := aget roots i in
            let* node_i := t_getNode T root currLevel in
            Ok (N.land acc node_i)) 3%N in
        if N.eqb andResult 0 then Ok (r, false)
        else
          let nextLevel := S currLevel in
          let* (r, existLeft, existRight) :=
            (if N.eqb andResult 2 then
               let* nodes := left_children Ts nTries maxLevel all_active currLevel roots in
               let* (r, fl) := AND_strict fuel' nextLevel nodes prefix r in
               Ok (r, Some fl, None)
             else if N.eqb andResult 1 then
               let* rp := right_prefix k maxLevel currLevel prefix in
               let* nodes := right_children Ts nTries maxLevel all_active currLevel roots in
               let* (r, fr) := AND_strict fuel' nextLevel nodes rp r in
               Ok (r, None, Some fr)
             else
               let* rp := right_prefix k maxLevel currLevel prefix in
               let* (lnodes, rnodes) := both_children Ts nTries maxLevel all_active currLevel roots in
               let* (r, fl) := AND_strict fuel' nextLevel lnodes prefix r in
               let* (r, fr) := AND_strict fuel' nextLevel rnodes rp r in
               Ok (r, Some fl, Some fr)) in
          let* b := or_read existLeft existRight in
          Ok (r, b)
      end.
End Strict.

(** Intersect with parallel = false: src/intersection.cpp:305-435,
    src/fastTrieIntersection.cpp:327-459. *)
Definition Intersect_strict (k : kind) (hc : N) (Ts : list trie_ops) (runs : bool) : result (list N) :=
  let* T0 := vget Ts 0 in
  let height := t_height T0 in
  if negb (same_height height Ts) then Ok []
  else
    let nTries := length Ts in
    if N.eqb hc 0 then UB BadCast
    else if runs then
      runsAND k Ts nTries height (S height) 0 init_roots init_active 0 []
    else
      let* (r, _) := AND_strict k Ts nTries height (S height) 0 init_roots 0 [] in Ok r.

(** * The threads of a parallel call *)

(** Body of the functor for one threadId, with AND read as above: src/intersection.cpp:373-391,
    src/fastTrieIntersection.cpp:397-415. *)
Definition run_task_strict (k : kind) (Ts : list trie_ops) (nTries maxLevel : nat) (runs : bool) (tk : task)
  : result (list N) :=
  if runs
  then runsAND k Ts nTries maxLevel (S maxLevel) (tk_level tk) (tk_roots tk) (tk_active tk) (tk_prefix tk) []
  else let* (r, _) := AND_strict k Ts nTries maxLevel (S maxLevel) (tk_level tk) (tk_roots tk) (tk_prefix tk) [] in Ok r.

(** The first parallel_for: src/intersection.cpp:366,373-391, as [par_results]. *)
Definition par_results_strict (k : kind) (Ts : list trie_ops) (nTries maxLevel : nat) (runs : bool) (s : scheduler)
           (used : nat) (levels : list nat) (st : pa_state) : result (list (list N)) :=
  let* outs :=
    for_loop used 0 (fun t outs =>
      let* tk := get_task runs levels st t in
      let* r := run_task_strict k Ts nTries maxLevel runs tk in
      Ok (outs ++ [r])) [] in
  let* traces :=
    pf_traces used used (fun t => map (fun x => (t, x)) (nth t outs [])) in
  exec_push (repeat [] used) (s traces).

(** Intersect with parallel = true: src/intersection.cpp:305-435,
    src/fastTrieIntersection.cpp:327-459. *)
Definition Intersect_strict_par (k : kind) (s1 s2 : scheduler) (hc : N) (Ts : list trie_ops) (runs : bool)
  : result (list N) :=
  let* T0 := vget Ts 0 in
  let height := t_height T0 in
  if negb (same_height height Ts) then Ok []
  else
    let nTries := length Ts in
    if N.eqb hc 0 then UB BadCast
    else
      let cut := N.to_nat (N.log2 hc) in
      let nThreads := (2 ^ N.log2 hc)%N in
      if ((height <? 2) || (cut <=? height - 2))%bool then
        let* p := par_plan k Ts (n_tries nTries) height runs cut nThreads in
        match p with
        | Done r m => Ok r
        | Work used levels st =>
          let* results := par_results_strict k Ts nTries height runs s1 used levels st in
          let* r := par_concat s2 used (pa_r st) results in
          let* m := free_loop runs used st in
          Ok r
        end
      else Intersect_strict k hc Ts runs.
