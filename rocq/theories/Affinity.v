(** Model of the binding of worker threads to processors: include/parallel_for.hpp and
    include/parallel_for_macos.hpp. *)

From Verif Require Import Base ParallelFor.

(** [1 << num] for an int num: include/parallel_for_macos.hpp:36, 39, 53.  Up to C++17 the
    result for num = 31 is converted, so that as a uint32_t it is 2^31. *)
Definition shl_int (num : nat) : result N :=
  if num <? 32 then Ok (N.shiftl 1 (N.of_nat num)) else UB BadShift.

(** cpu_set_t is one 32-bit number: include/parallel_for_macos.hpp:28-39. *)
Definition mac_CPU_SET (num : nat) (cs : N) : result N :=
  let* b := shl_int num in Ok (N.lor cs b).
(** CPU_ISSET: include/parallel_for_macos.hpp:38-39. *)
Definition mac_CPU_ISSET (num : nat) (cs : N) : result bool :=
  let* b := shl_int num in Ok (negb (N.eqb (N.land cs b) 0)).

(** include/parallel_for_macos.hpp:42-58.  [core_count] is what sysctlbyname reports, [None]
    an error; the result is the set, [None] for the return value -1. *)
Definition mac_sched_getaffinity (core_count : option nat) : result (option N) :=
  match core_count with
  | None => Ok None
  | Some n =>
    let* cs := for_loop n 0 (fun i cs => mac_CPU_SET i cs) 0%N in
    Ok (Some cs)
  end.

(** include/parallel_for_macos.hpp:66-68, with cpu_size = sizeof(cpu_set_t) = 4. *)
Fixpoint mac_first_core (fuel core : nat) (cs : N) : result nat :=
  match fuel with
  | O => OutOfFuel
  | S fuel' =>
    if core <? 8 * 4 then
      let* b := mac_CPU_ISSET core cs in
      if b then Ok core else mac_first_core fuel' (S core) cs
    else Ok core
  end.

(** The affinity tag given to the thread: include/parallel_for_macos.hpp:60-75.  Simplification:
    the call thread_policy_set has no effect but the binding. *)
Definition mac_setaffinity (cs : N) : result nat := mac_first_core 33 0 cs.

(** The tags of the workers of parallel_for: include/parallel_for_macos.hpp:96-111, with
    THREADS_BY_CORE = 1. *)
Definition mac_bindings (nb_threads : nat) : result (list nat) :=
  for_loop nb_threads 0 (fun i tags =>
    let* cs := mac_CPU_SET (i / 1) 0 in
    let* core := mac_setaffinity cs in
    Ok (tags ++ [core])) [].

(** CPU_SET of glibc: sizeof(cpu_set_t) = 128 bytes, and a number beyond them changes nothing.
    It is called at include/parallel_for.hpp:52. *)
Definition linux_CPU_SET (num : nat) (cs : N) : N :=
  if num / 8 <? 128 then N.lor cs (N.shiftl 1 (N.of_nat num)) else cs.

(** The sets of processors passed to pthread_setaffinity_np for the workers of parallel_for:
    include/parallel_for.hpp:43-61.  An empty set is refused, which is only reported. *)
Definition linux_bindings (nb_threads : nat) : result (list N) :=
  for_loop nb_threads 0 (fun i sets => Ok (sets ++ [linux_CPU_SET (i / 1) 0])) [].

(** The actions of the threads of parallel_for on macOS, include/parallel_for_macos.hpp:77-130. *)
Definition mac_traces (nb_elements nb_threads : nat) (acts : nat -> list (nat * N))
  : result (list (list (nat * N))) :=
  let* ts := pf_traces nb_elements nb_threads acts in
  let* _ := mac_bindings nb_threads in
  Ok ts.
