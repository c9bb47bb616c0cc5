(** Model of include/parallel_for.hpp (and parallel_for_macos.hpp, which only
    changes the thread-affinity calls), and of the interleaved execution of
    threads. *)

From Verif Require Import Base.

(** The index ranges handed to the functor: include/parallel_for.hpp:35-74.
    One range [start, start+batch_size) per worker thread, then the range of the
    calling thread, [nb_threads*batch_size, +batch_remainder).
    Simplification: the conversion of the bounds to int is not wrapped. *)
Definition pf_ranges (nb_elements nb_threads : nat) : result (list (nat * nat)) :=
  if nb_threads =? 0 then UB DivZero
  else
    let batch_size := nb_elements / nb_threads in
    let batch_remainder := nb_elements mod nb_threads in
    Ok (map (fun i => (i * batch_size, i * batch_size + batch_size)) (seq 0 nb_threads)
        ++ [(nb_threads * batch_size, nb_threads * batch_size + batch_remainder)]).

(** The indices a functor of the form [for (i = start; i < end; ++i)] visits.
    src/intersection.cpp:375, 404, src/fastTrieIntersection.cpp:399, 428. *)
Definition indices (range : nat * nat) : list nat :=
  seq (fst range) (snd range - fst range).

(** [interleave ts tr]: [tr] is an interleaving of the action sequences [ts], one per thread.
    The threads started at include/parallel_for.hpp:43-61 and joined at
    include/parallel_for.hpp:77-78. *)
Inductive interleave {A : Type} : list (list A) -> list A -> Prop :=
| il_done : forall ts, Forall (fun t => t = []) ts -> interleave ts []
| il_step : forall ts1 a t ts2 tr,
    interleave (ts1 ++ t :: ts2) tr ->
    interleave (ts1 ++ (a :: t) :: ts2) (a :: tr).

(** A scheduler picks, for any set of threads, one interleaving.  Quantifying over all valid
    schedulers is quantifying over all schedules.  The threads started at
    include/parallel_for.hpp:43-61. *)
Definition scheduler := list (list (nat * N)) -> list (nat * N).
(** No code of its own: the threads of include/parallel_for.hpp:43-61 may be interleaved in any
    way. *)
Definition valid_scheduler (s : scheduler) : Prop := forall ts, interleave ts (s ts).

(** Action (slot, x): [slots[slot].push_back(x)].  r.push_back in the calls of
    src/intersection.cpp:373-391 and src/fastTrieIntersection.cpp:397-415. *)
Fixpoint exec_push (slots : list (list N)) (tr : list (nat * N))
  : result (list (list N)) :=
  match tr with
  | [] => Ok slots
  | (s, x) :: tr' =>
    let* v := vget slots s in
    let* slots' := vset slots s (v ++ [x]) in
    exec_push slots' tr'
  end.

(** Action (i, x): [v[i] = x].  src/intersection.cpp:401-410,
    src/fastTrieIntersection.cpp:425-434. *)
Fixpoint exec_write (v : list N) (tr : list (nat * N)) : result (list N) :=
  match tr with
  | [] => Ok v
  | (i, x) :: tr' => let* v' := vset v i x in exec_write v' tr'
  end.

(** The action sequences of the threads of a parallel_for whose functor performs, for each
    index, the actions [acts index].  include/parallel_for.hpp:24-79. *)
Definition pf_traces (nb_elements nb_threads : nat) (acts : nat -> list (nat * N))
  : result (list (list (nat * N))) :=
  let* rs := pf_ranges nb_elements nb_threads in
  Ok (map (fun rg => flat_map acts (indices rg)) rs).
