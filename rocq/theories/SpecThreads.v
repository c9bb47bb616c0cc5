(** The planning phase of a parallel intersection with unbounded counters.  Used
    only to state that the fixed-width counters of the code never wrap around. *)

From Verif Require Import Base ParallelFor Intersection.

Section Exact.
  Variable k : kind.
  Variable Ts : list trie_ops.
  Variable nTries maxLevel : nat.
  Variable runs : bool.

  (** [fill_loop] without [wrap16] and [wrap32]. *)
  Fixpoint fill_loop_exact (fuel cut nThreads total : nat) (ints : list N) (troots : list (harr nat))
           (tactive : list (harr bool)) (i used : nat) (st : pa_state) : result (nat * nat * pa_state) :=
    if ((1 <? nThreads - used) && (i <? total))%bool then
      match fuel with
      | O => OutOfFuel
      | S fuel' =>
        let* rt := vget troots i in
        let* act := (if runs then let* a := vget tactive i in Ok (snd a) else Ok init_active) in
        let* p := vget ints i in
        let* st := partialAND k Ts nTries maxLevel runs (S (S cut)) cut (S cut) (snd rt) act p st in
        fill_loop_exact fuel' cut nThreads total ints troots tactive (S i)
          (total + length (pa_roots st) - S i) st
      end
    else Ok (i, used, st).

  (** [par_plan] with [fill_loop_exact]. *)
  Definition par_plan_exact (cut nThreads : nat) : result plan :=
    let* st := partialAND k Ts nTries maxLevel runs (S cut) 0 cut init_roots init_active 0
                          (mkPA [] [] [] [] (mkMem 0 [])) in
    let total := length (pa_roots st) in
    if total =? 0 then Ok (Done (pa_r st) (pa_mem st))
    else
      let* (i, used, st') :=
        fill_loop_exact (S total) cut nThreads total (pa_ints st) (pa_roots st) (pa_active st)
                  0 total (mkPA (pa_r st) [] [] [] (pa_mem st)) in
      let levels := repeat (S cut) (length (pa_roots st')) in
      let* (levels, st') :=
        for_loop (total - i) i (fun j '(levels, st') =>
          let* rt := vget (pa_roots st) j in
          let* act := (if runs then let* a := vget (pa_active st) j in Ok [a] else Ok []) in
          let* p := vget (pa_ints st) j in
          Ok (levels ++ [cut],
              mkPA (pa_r st') (pa_ints st' ++ [p]) (pa_roots st' ++ [rt])
                   (pa_active st' ++ act) (pa_mem st'))) (levels, st') in
      if length (pa_roots st') =? 0 then Ok (Done (pa_r st') (pa_mem st'))
      else Ok (Work used levels st').
End Exact.

(** [s] and [s'] schedule alike any group of at most [n] worker threads and the
    calling thread. *)
Definition alike_up_to (n : N) (s s' : scheduler) : Prop :=
  forall ts, (N.of_nat (length ts) <= n + 1)%N -> s ts = s' ts.
