(** Command lines of the checking programs. *)

From Coq Require Import String.
From Verif Require Import Base Text SpecText SpecCli.

(** The options of the two encoding checkers. *)
Definition check_names : list (list N) :=
  map txt ["--min_size"; "--rank"; "--runs"; "--out"; "--levelwise"]%string.

Definition fast_check_names : list (list N) :=
  map txt ["--min_size"; "--rank"; "--runs"; "--out"; "--wsize"]%string.

(** The settings that each of them knows. *)
Definition check_setting (s : setting) : Prop :=
  match s with
  | MaxSize _ | WordSize _ | Verbose _ | VerboseFlag => False
  | _ => setting_ok check_names s
  end.

Definition fast_check_setting (s : setting) : Prop :=
  match s with
  | MaxSize _ | Levelwise _ | Verbose _ | VerboseFlag => False
  | _ => setting_ok fast_check_names s
  end.

(** The words that the fast checker takes for a word size: of 2^k bits, where k is *)
Definition word_checked (w : N) : nat :=
  if N.eqb w 64 then 6 else if N.eqb w 32 then 5 else if N.eqb w 16 then 4 else 3.
