(** The parallel branch of Intersect executed access by access: src/intersection.cpp:366-419,
    src/fastTrieIntersection.cpp:390-443 over include/parallel_for.hpp:35-79.

    Intersection.v takes a push_back or an assignment of a thread as one step, and
    computes what a thread pushes beforehand.  Here a thread is a program of single reads
    and writes of shared memory.  A push_back is a read of the vector and a write, and
    other threads may run in between.  A schedule is the list of the threads that make
    the next step.

    Simplifications: memory is sequentially consistent (which C++ guarantees only for
    programs without data races, and their absence is what is proved); a vector is one
    cell, except the vector `intersection', of which each element is one; a thread
    reads its arguments before its first push, and all tries again before every push. *)

From Verif Require Import Base FlatTrie LevelTrie FastTrie ParallelFor Intersection.

(** Shared memory: the tries; element t of nextInitLevel, nextRoots, nextActiveTries,
    nextPartialSolutions, threads_results and shifts; element j of intersection.
    src/intersection.cpp:346-419, src/fastTrieIntersection.cpp:369-443. *)
Inductive cell :=
| CTries
| CLevel (t : nat) | CRoots (t : nat) | CActive (t : nat) | CPrefix (t : nat)
| CResult (t : nat) | CShift (t : nat) | COut (j : nat).

(** What the cells hold: src/intersection.cpp:346-419, src/fastTrieIntersection.cpp:369-443. *)
Inductive value :=
| VNone
| VNat (n : nat)
| VNum (x : N)
| VRoots (a : roots_arr)
| VActive (a : active_arr)
| VList (l : list N).

(** No code of its own: two cells are the same variable of src/intersection.cpp:346-419 or
    not. *)
Definition cell_eq_dec (a b : cell) : {a = b} + {a <> b}.
Proof. decide equality; apply Nat.eq_dec. Defined.

(** The variables shared by the threads: src/intersection.cpp:346-419,
    src/fastTrieIntersection.cpp:369-443. *)
Definition memory := cell -> value.
(** An assignment to a shared variable, as in src/intersection.cpp:406-408. *)
Definition upd (m : memory) (c : cell) (v : value) : memory :=
  fun c' => if cell_eq_dec c' c then v else m c'.

(** What a thread has still to do.  [Fail]: undefined behaviour.  The body of a thread:
    src/intersection.cpp:373-391, 401-410. *)
Inductive prog :=
| Stop
| Fail
| Get (c : cell) (k : value -> prog)
| Put (c : cell) (v : value) (p : prog).

(** No code of its own: the sequence of two statements in src/intersection.cpp:374-390. *)
Fixpoint then_ (p q : prog) : prog :=
  match p with
  | Stop => q
  | Fail => Fail
  | Get c k => Get c (fun v => then_ (k v) q)
  | Put c v p' => Put c v (then_ p' q)
  end.

(** The loop over the indices of a thread: src/intersection.cpp:375, 404. *)
Definition seqs (l : list prog) : prog := fold_right then_ Stop l.

(** One step of a thread.  No code of its own: one access of src/intersection.cpp:373-391 or
    401-410. *)
Definition step1 (m : memory) (p : prog) : memory * prog :=
  match p with
  | Get c k => (m, k (m c))
  | Put c v p' => (upd m c v, p')
  | _ => (m, p)
  end.

(** No code of its own: the memory and the threads of include/parallel_for.hpp:43-61. *)
Definition state := (memory * list prog)%type.

(** One step of thread [i], if there is one.  No code of its own: the threads of
    include/parallel_for.hpp:43-61 run in any order. *)
Definition step (i : nat) (s : state) : state :=
  match nth_error (snd s) i with
  | Some p =>
    let (m, p') := step1 (fst s) p in
    (m, firstn i (snd s) ++ p' :: skipn (S i) (snd s))
  | None => s
  end.

(** No code of its own: the threads of include/parallel_for.hpp:43-61 run in the order of a
    schedule. *)
Fixpoint exec (schedule : list nat) (s : state) : state :=
  match schedule with
  | [] => s
  | i :: schedule' => exec schedule' (step i s)
  end.

(** The access that a thread makes next, and whether it writes.  No code of its own: it says
    which accesses of src/intersection.cpp:373-391 and 401-410 meet. *)
Definition next_access (p : prog) : option (cell * bool) :=
  match p with
  | Get c _ => Some (c, false)
  | Put c _ _ => Some (c, true)
  | _ => None
  end.

(** The join of all threads: include/parallel_for.hpp:76-78.  [OutOfFuel] when the
    schedule leaves a thread unfinished. *)
Definition joined (s : state) : result memory :=
  if forallb (fun p => match p with Stop => true | _ => false end) (snd s) then Ok (fst s)
  else if existsb (fun p => match p with Fail => true | _ => false end) (snd s) then UB Unmodelled
  else OutOfFuel.

(** parallel_for with a functor that handles its indices in order.
    include/parallel_for.hpp:35-74. *)
Definition pf_threads (nb_elements nb_threads : nat) (body : nat -> prog) : result (list prog) :=
  let* rs := pf_ranges nb_elements nb_threads in
  Ok (map (fun rg => seqs (map body (indices rg))) rs).

(** The whole of parallel_for: include/parallel_for.hpp:24-79. *)
Definition pf_run (nb_elements nb_threads : nat) (body : nat -> prog) (schedule : list nat) (m : memory)
  : result memory :=
  let* ts := pf_threads nb_elements nb_threads body in joined (exec schedule (m, ts)).

(** [r.push_back(x)] for each value, r = threads_results[t].  src/intersection.cpp:45-185 called
    at src/intersection.cpp:373-391, src/fastTrieIntersection.cpp:40-207 called at
    src/fastTrieIntersection.cpp:397-415. *)
Fixpoint push_all (t : nat) (xs : list N) : prog :=
  match xs with
  | [] => Stop
  | x :: xs' =>
    Get CTries (fun _ =>
    Get (CResult t) (fun v =>
      match v with
      | VList l => Put (CResult t) (VList (l ++ [x])) (push_all t xs')
      | _ => Fail
      end))
  end.

Section Steps.
  Variable k : kind.
  Variable Ts : list trie_ops.
  Variable nTries maxLevel : nat.
  Variable runs : bool.

  (** The call for one threadId: src/intersection.cpp:373-391,
      src/fastTrieIntersection.cpp:397-415. *)
  Definition task_prog (t : nat) : prog :=
    let go lv rt act p :=
      Get CTries (fun _ =>
      match run_task k Ts nTries maxLevel runs (mkTask lv rt act p) with
      | Ok xs => push_all t xs
      | _ => Fail
      end) in
    Get (CLevel t) (fun lv =>
    Get (CRoots t) (fun rt =>
    Get (CPrefix t) (fun p =>
      match lv, rt, p with
      | VNat lv, VRoots rt, VNum p =>
        if runs then
          Get (CActive t) (fun a => match a with VActive a => go lv rt a p | _ => Fail end)
        else go lv rt [] p
      | _, _, _ => Fail
      end))).

  (** Memory when the first parallel_for starts.  src/intersection.cpp:366-391,
      src/fastTrieIntersection.cpp:390-415. *)
  Definition mem1 (levels : list nat) (st : pa_state) : memory :=
    fun c =>
      match c with
      | CLevel t => match nth_error levels t with Some x => VNat x | None => VNone end
      | CRoots t => match nth_error (pa_roots st) t with Some a => VRoots (snd a) | None => VNone end
      | CActive t => match nth_error (pa_active st) t with Some a => VActive (snd a) | None => VNone end
      | CPrefix t => match nth_error (pa_ints st) t with Some x => VNum x | None => VNone end
      | CResult t => VList []
      | _ => VNone
      end.

  (** Reading a vector: src/intersection.cpp:406-408, src/fastTrieIntersection.cpp:430-432. *)
  Definition list_of (v : value) : result (list N) :=
    match v with VList l => Ok l | _ => UB Unmodelled end.

  (** threads_results after the first parallel_for.  src/intersection.cpp:366-391,
      src/fastTrieIntersection.cpp:390-415. *)
  Definition par_results_steps (schedule : list nat) (used : nat) (levels : list nat) (st : pa_state)
    : result (list (list N)) :=
    let* m := pf_run used used task_prog schedule (mem1 levels st) in
    for_loop used 0 (fun t rs => let* r := list_of (m (CResult t)) in Ok (rs ++ [r])) [].
End Steps.

(** Memory when the second parallel_for starts.  src/intersection.cpp:392-419,
    src/fastTrieIntersection.cpp:416-443. *)
Definition mem2 (results : list (list N)) (shifts : list nat) (inter : list N) : memory :=
  fun c =>
    match c with
    | CResult t => match nth_error results t with Some l => VList l | None => VNone end
    | CShift t => match nth_error shifts t with Some s => VNat s | None => VNone end
    | COut j => match nth_error inter j with Some x => VNum x | None => VNone end
    | _ => VNone
    end.

(** [intersection[j+shifts[t]] = threads_results[t][j]]: src/intersection.cpp:403-409. *)
Definition copy_one (t : nat) (n : nat) (j : nat) : prog :=
  Get (CResult t) (fun v =>
  Get (CShift t) (fun s =>
    match v, s with
    | VList l, VNat s =>
      match nth_error l j with
      | Some x => if j + s <? n then Put (COut (j + s)) (VNum x) Stop else Fail
      | None => Fail
      end
    | _, _ => Fail
    end)).

(** The loop of one threadId, up to the size of its result.  [n] is the size of intersection.
    src/intersection.cpp:401-410, src/fastTrieIntersection.cpp:425-434. *)
Definition copy_prog (n : nat) (t : nat) : prog :=
  Get (CResult t) (fun v =>
    match v with
    | VList l => seqs (map (copy_one t n) (seq 0 (length l)))
    | _ => Fail
    end).

(** output_size, shifts and shift: src/intersection.cpp:392-399,
    src/fastTrieIntersection.cpp:416-423. *)
Definition offsets (used : nat) (inter : list N) (results : list (list N))
  : result (nat * list nat * nat) :=
  for_loop used 0 (fun t '(output_size, shifts, shift) =>
    let* v := vget results t in
    Ok (output_size + length v, shifts ++ [shift], shift + length v))
    (length inter, [], length inter).

(** src/intersection.cpp:392-419, src/fastTrieIntersection.cpp:416-443. *)
Definition par_concat_steps (schedule : list nat) (used : nat) (inter : list N)
           (results : list (list N)) : result (list N) :=
  let* (output_size, shifts, _) := offsets used inter results in
  if N.ltb 450000 (N.of_nat output_size) then
    let inter := inter ++ repeat 0%N (output_size - length inter) in
    let* m := pf_run used used (copy_prog output_size) schedule (mem2 results shifts inter) in
    for_loop output_size 0 (fun j out =>
      match m (COut j) with VNum x => Ok (out ++ [x]) | _ => UB Unmodelled end) []
  else
    for_loop used 0 (fun t inter =>
      let* v := vget results t in Ok (inter ++ v)) inter.

(** Intersect: src/intersection.cpp:305-435, src/fastTrieIntersection.cpp:327-459.  The
    sequential part is that of Intersection.v. *)
Definition Intersect_steps (k : kind) (sched1 sched2 : list nat) (hc : N) (Ts : list trie_ops)
           (runs parallel : bool) : result (list N) :=
  let* T0 := vget Ts 0 in
  let height := t_height T0 in
  if negb (same_height height Ts) then Ok []
  else
    let nTries := length Ts in
    if N.eqb hc 0 then UB BadCast
    else
      let cut := N.to_nat (N.log2 hc) in
      let nThreads := (2 ^ N.log2 hc)%N in
      if (parallel && ((height <? 2) || (cut <=? height - 2)))%bool then
        let* p := par_plan k Ts (n_tries nTries) height runs cut nThreads in
        match p with
        | Done r m => Ok r
        | Work used levels st =>
          let* results := par_results_steps k Ts nTries height runs sched1 used levels st in
          let* r := par_concat_steps sched2 used (pa_r st) results in
          let* m := free_loop runs used st in
          Ok r
        end
      else if runs then runsAND k Ts nTries height (S height) 0 init_roots init_active 0 []
      else
        let* (r, _) := AND k Ts nTries height (S height) 0 init_roots 0 [] in Ok r.
