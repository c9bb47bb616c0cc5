(** Data races. *)

From Verif Require Import Base Intersection Steps.

(** Two threads are about to access the same cell, and one of them to write it. *)
Definition race (ts : list prog) : Prop :=
  exists i j p q c w w', i <> j /\ nth_error ts i = Some p /\ nth_error ts j = Some q /\
    next_access p = Some (c, w) /\ next_access q = Some (c, w') /\ (w || w')%bool = true.

(** No schedule leads to a race. *)
Definition race_free (m : memory) (ts : list prog) : Prop :=
  forall schedule, ~ race (snd (exec schedule (m, ts))).

(** A parallel_for that starts in memory [m] is race free. *)
Definition pf_race_free (nb_elements nb_threads : nat) (body : nat -> prog) (m : memory) : Prop :=
  forall ts, pf_threads nb_elements nb_threads body = Ok ts -> race_free m ts.
