(** Command lines of the statistics tools as lists of settings. *)

From Coq Require Import String.
From Verif Require Import Base Text SpecText.

(** The option with the text given, and any other argument. *)
Inductive stats_setting := MinLength (w : list N) | Other (w : list N).

Definition s_written (s : stats_setting) : list (list N) :=
  match s with
  | MinLength w => [txt "--min_length"; w]
  | Other w => [w]
  end.

Definition s_written_all (ss : list stats_setting) : list (list N) := concat (map s_written ss).

(** A number below 2^64; an argument that is not the name of the option. *)
Definition stats_setting_ok (s : stats_setting) : Prop :=
  match s with
  | MinLength w => decimal w /\ (decimal_value w < 2 ^ 64)%N
  | Other w => w <> txt "--min_length"
  end.

Definition min_length_of (s : stats_setting) : option N :=
  match s with MinLength w => Some (decimal_value w) | Other _ => None end.
