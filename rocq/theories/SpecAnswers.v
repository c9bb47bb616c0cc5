(** Answers of the query tools in parallel mode over collections stored with their runs
    encoded. *)

From Verif Require Import Base Spec SpecTries SpecTools SpecLost.

(** The answer to a query over a universe of [u] values on a machine with [hc] threads.
    The tries are divided among the threads if there are at least [low] values for each;
    then the answer is the one of [parallel_outcome], otherwise the intersection. *)
Definition runs_answer (low u hc : N) (lists : list (list N)) (q : list N) (a : option (list N)) : Prop :=
  match a with
  | None => 16 < length q
  | Some r => length q <= 16 /\
      ((low * 2 ^ N.log2 hc <= rounded u)%N ->
       parallel_outcome (thread_block u hc) (N.to_nat (2 ^ N.log2 hc))
         (map (fun s => (true, s)) (lists_at lists q)) r) /\
      ((rounded u < low * 2 ^ N.log2 hc)%N -> is_intersection (lists_at lists q) r)
  end.
