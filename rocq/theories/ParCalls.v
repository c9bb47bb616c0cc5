(** The calls made by the threads of a parallel intersection.  Apart from the record the text is
    that of Intersection.v; ParCallsThms.v proves that without it the two compute the same. *)

From Verif Require Import Base FlatTrie LevelTrie FastTrie ParallelFor Intersection Calls.

(** Body of the functor for one threadId: src/intersection.cpp:373-391,
    src/fastTrieIntersection.cpp:397-415. *)
Definition run_task_calls (k : kind) (Ts : list trie_ops) (nTries maxLevel : nat) (runs : bool) (tk : task)
  : result (list N * calls) :=
  if runs
  then runsAND_calls k Ts nTries maxLevel (S maxLevel) (tk_level tk) (tk_roots tk) (tk_active tk) (tk_prefix tk) [] []
  else let* (r, _, c) := AND_calls k Ts nTries maxLevel (S maxLevel) (tk_level tk) (tk_roots tk) (tk_prefix tk) [] [] in
       Ok (r, c).

(** The first parallel_for: src/intersection.cpp:366,373-391, as [par_results], with the calls
    of each thread. *)
Definition par_results_calls (k : kind) (Ts : list trie_ops) (nTries maxLevel : nat) (runs : bool) (s : scheduler)
           (used : nat) (levels : list nat) (st : pa_state) : result (list (list N) * list calls) :=
  let* (outs, cs) :=
    for_loop used 0 (fun t oc =>
      let* tk := get_task runs levels st t in
      let* (r, c) := run_task_calls k Ts nTries maxLevel runs tk in
      Ok (fst oc ++ [r], snd oc ++ [c])) ([], []) in
  let* traces :=
    pf_traces used used (fun t => map (fun x => (t, x)) (nth t outs [])) in
  let* results := exec_push (repeat [] used) (s traces) in
  Ok (results, cs).

(** Intersect with parallel = true: src/intersection.cpp:305-435,
    src/fastTrieIntersection.cpp:327-459.  The calls of partialAND, by which the work is divided,
    are not recorded. *)
Definition Intersect_par_calls (k : kind) (s1 s2 : scheduler) (hc : N) (Ts : list trie_ops) (runs : bool)
  : result (list N * list calls) :=
  let* T0 := vget Ts 0 in
  let height := t_height T0 in
  if negb (same_height height Ts) then Ok ([], [])
  else
    let nTries := length Ts in
    if N.eqb hc 0 then UB BadCast
    else
      let cut := N.to_nat (N.log2 hc) in
      let nThreads := (2 ^ N.log2 hc)%N in
      if ((height <? 2) || (cut <=? height - 2))%bool then
        let* p := par_plan k Ts (n_tries nTries) height runs cut nThreads in
        match p with
        | Done r m => Ok (r, [])
        | Work used levels st =>
          let* (results, cs) := par_results_calls k Ts nTries height runs s1 used levels st in
          let* r := par_concat s2 used (pa_r st) results in
          let* m := free_loop runs used st in
          Ok (r, cs)
        end
      else
        let* (r, c) := Intersect_calls k hc Ts runs in Ok (r, [c]).
