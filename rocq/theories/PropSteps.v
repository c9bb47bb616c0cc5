(** Property C75: the threads of a parallel intersection do not race. *)

From Verif Require Import Base FlatTrie LevelTrie FastTrie ParallelFor Intersection Tries Spec SpecTries
  Steps SpecSteps StepsThms InterRefute.

(** Both parallel loops are free of races, for every number of tasks, whatever the tasks
    are and however the threads are scheduled: first the loop that intersects, from any
    memory, ... *)
Theorem C75_tasks_race_free : forall k Ts nTries maxLevel runs used m,
  pf_race_free used used (task_prog k Ts nTries maxLevel runs) m.
Proof. exact tasks_race_free. Qed.
Print Assumptions C75_tasks_race_free.

(** ... then the loop that copies the results, at the offsets that the code computes. *)
Theorem C75_copies_race_free : forall used inter results n shifts e out,
  offsets used inter results = Ok (n, shifts, e) -> length results = used ->
  pf_race_free used used (copy_prog n) (mem2 results shifts out).
Proof. exact copies_race_free. Qed.
Print Assumptions C75_copies_race_free.

(** If the call can return [r], no schedule of single accesses makes it return anything
    else or do anything undefined. *)
Theorem C75_schedule_independent : forall k hc Ts runs parallel sched1 sched2 r,
  Intersect_steps k sched1 sched2 hc Ts runs parallel = Ok r ->
  forall sched1' sched2', Intersect_steps k sched1' sched2' hc Ts runs parallel = Ok r \/
    Intersect_steps k sched1' sched2' hc Ts runs parallel = OutOfFuel.
Proof. exact steps_independent. Qed.
Print Assumptions C75_schedule_independent.

(** It returns what the model with indivisible calls returns, which all other properties
    speak of. *)
Theorem C75_same_as_whole_steps : forall k s1 s2 hc Ts runs parallel r,
  valid_scheduler s1 -> valid_scheduler s2 ->
  Intersect k s1 s2 hc Ts runs parallel = Ok r <->
  exists sched1 sched2, Intersect_steps k sched1 sched2 hc Ts runs parallel = Ok r.
Proof. exact steps_exact. Qed.
Print Assumptions C75_same_as_whole_steps.

(** So the parallel result is the common values, for plain tries ... *)
Theorem C75_common_values : forall (u : N) (l : list pitem),
  (2 <= u <= 2 ^ 48)%N -> 1 <= length l <= 16 -> Forall (pitem_ok u) l ->
  exists Ts r, each_ok (make_pitem u) l = Ok Ts /\ is_intersection (map snd l) r /\
    forall hc, (1 <= hc < 2 ^ 16)%N -> (3 <= u \/ hc <= 3)%N ->
      (forall sched1 sched2, Intersect_steps Bin sched1 sched2 hc (map bin_ops Ts) false true = Ok r \/
         Intersect_steps Bin sched1 sched2 hc (map bin_ops Ts) false true = OutOfFuel) /\
      (exists sched1 sched2, Intersect_steps Bin sched1 sched2 hc (map bin_ops Ts) false true = Ok r).
Proof. exact bin_steps. Qed.
Print Assumptions C75_common_values.

(** ... and fast ones. *)
Theorem C75_fast_common_values : forall (u : N) (lw : nat) (l : list fitem),
  fast_universe u lw -> 1 <= length l <= 16 -> Forall (fitem_ok u) l -> Forall (fun x => f_enc x = false) l ->
  exists Ts r, each_ok (make_fitem u lw) l = Ok Ts /\ is_intersection (map snd l) r /\
    forall hc, (1 <= hc < 2 ^ 16)%N -> (2 ^ N.of_nat lw < u \/ hc = 1)%N ->
      (forall sched1 sched2, Intersect_steps (Fast lw) sched1 sched2 hc (map fast_ops Ts) false true = Ok r \/
         Intersect_steps (Fast lw) sched1 sched2 hc (map fast_ops Ts) false true = OutOfFuel) /\
      (exists sched1 sched2, Intersect_steps (Fast lw) sched1 sched2 hc (map fast_ops Ts) false true = Ok r).
Proof. exact fast_steps. Qed.
Print Assumptions C75_fast_common_values.

(** Four threads taking turns, access by access, and a schedule that stops too early. *)
Example C75_example :
  let l := [(VFlat false, [1; 5; 7; 11; 40; 41]%N); (VFlat true, [0; 1; 2; 3; 7; 11; 12; 40]%N)] in
  let turns := concat (repeat (seq 0 5) 20) in
  Forall (pitem_ok 64) l /\
  (let* Ts := each_ok (make_pitem 64) l in Intersect_steps Bin turns turns 4 (map bin_ops Ts) false true)
    = Ok [1; 7; 11; 40]%N /\
  (let* Ts := each_ok (make_pitem 64) l in Intersect_steps Bin (rev turns) [] 4 (map bin_ops Ts) false true)
    = Ok [1; 7; 11; 40]%N /\
  (let* Ts := each_ok (make_pitem 64) l in Intersect_steps Bin (firstn 20 turns) [] 4 (map bin_ops Ts) false true)
    = OutOfFuel.
Proof.
  cbv zeta. split; [repeat (constructor; [sets_ok|]); constructor|].
  split; [|split]; vm_compute; reflexivity.
Qed.

(** The copying loop with two results, one thread after the other and backwards. *)
Example C75_copies_example :
  let m := mem2 [[4; 5]; [6]]%N [1; 3] [3; 0; 0; 0]%N in
  offsets 2 [3]%N [[4; 5]; [6]]%N = Ok (4, [1; 3], 4) /\
  (let* m' := pf_run 2 2 (copy_prog 4) (concat (repeat [1; 0] 9)) m in Ok (map m' (map COut (seq 0 4))))
    = Ok (map VNum [3; 4; 5; 6]%N).
Proof. split; vm_compute; reflexivity. Qed.

(** If two threads pushed to the same vector, there would be a race, and a value would be
    lost. *)
Example C75_race_example :
  let body t := push_all 0 [N.of_nat t] in
  let m c := match c with CResult _ => VList [] | _ => VNone end in
  ~ pf_race_free 2 2 body m /\
  (let* m' := pf_run 2 2 body [0; 0; 0; 1; 1; 1] m in Ok (m' (CResult 0))) = Ok (VList [0; 1]%N) /\
  (let* m' := pf_run 2 2 body [0; 0; 1; 1; 0; 1] m in Ok (m' (CResult 0))) = Ok (VList [1]%N).
Proof.
  cbv zeta. split; [|split; vm_compute; reflexivity]. intros H.
  refine (H _ eq_refl [0; 0; 1] _). exists 0, 1. do 5 eexists. split; [discriminate|].
  split; [reflexivity|]. split; [reflexivity|]. split; [reflexivity|]. split; reflexivity.
Qed.
