(** Specification for C95: which tries are alive after a record of events. *)

From Verif Require Import Base Serialize Spec ToolsHeap.

(** The tries alive, in the order in which they were made.  [None] if one is made while it is
    alive, or freed while it is not. *)
Fixpoint heap_run (live : list N) (ev : list heap_event) : option (list N) :=
  match ev with
  | [] => Some live
  | Make i :: ev' => if existsb (N.eqb i) live then None else heap_run (live ++ [i]) ev'
  | Free i :: ev' =>
    if existsb (N.eqb i) live then heap_run (filter (fun j => negb (N.eqb j i)) live) ev' else None
  end.

Definition alive_after (ev : list heap_event) : option (list N) := heap_run [] ev.

(** At any time of the run, only tries that satisfy [P] together are alive. *)
Definition at_any_time (ev : list heap_event) (P : list N -> Prop) : Prop :=
  forall before later, ev = before ++ later -> exists live, alive_after before = Some live /\ P live.

(** The tries that no query asks for. *)
Definition not_asked (queries : list (list N)) (live : list N) : list N :=
  filter (fun i => negb (existsb (N.eqb i) (concat queries))) live.

(** The number of tries that the header of a file gives, after the rank type, the block size if
    the rank type is 1, and two bools. *)
Definition stored_sets (file : list N) : result N :=
  let* (rank_type, _) := read_le 4 file in
  let* (n, _) := read_le 4 (skipn (if N.eqb rank_type 1 then 10 else 6) file) in
  Ok n.

(** The tries left alive by a checker over [n] tries that has [failed] or not: those that no
    query asks for and that come before one that a query asks for. *)
Definition leaks (n : N) (queries : list (list N)) (failed : bool) (ev : list heap_event) : Prop :=
  exists live, alive_after ev = Some live /\ increasing live /\
    (forall i, In i live <-> ~ In i (concat queries) /\ (i < n)%N /\ exists j, In j (concat queries) /\ (i < j)%N) /\
    (failed = false -> Forall (fun j => (j < n)%N) (concat queries)).
