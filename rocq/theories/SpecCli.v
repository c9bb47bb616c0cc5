(** Command lines of the tools as lists of settings, and what the settings mean. *)

From Coq Require Import String.
From Verif Require Import Base Text SpecText.

(** A setting on a command line of a build tool; [w] is the text given.  [VerboseFlag]
    is the form without a value, [Ignored] an argument that is no option. *)
Inductive setting :=
| MinSize (w : list N) | MaxSize (w : list N)
| RankV | RankIl (w : list N) | RankOther (w : list N)
| Runs (w : list N) | OutFile (w : list N) | Levelwise (w : list N)
| WordSize (w : list N) | Verbose (w : list N) | VerboseFlag | Ignored (w : list N).

Definition written (s : setting) : list (list N) :=
  match s with
  | MinSize w => [txt "--min_size"; w]
  | MaxSize w => [txt "--max_size"; w]
  | RankV => [txt "--rank"; txt "v"]
  | RankIl w => [txt "--rank"; txt "il"; w]
  | RankOther w => [txt "--rank"; w]
  | Runs w => [txt "--runs"; w]
  | OutFile w => [txt "--out"; w]
  | Levelwise w => [txt "--levelwise"; w]
  | WordSize w => [txt "--wsize"; w]
  | Verbose w => [txt "--verbose"; w]
  | VerboseFlag => [txt "--verbose"]
  | Ignored w => [w]
  end.

Definition written_all (ss : list setting) : list (list N) := concat (map written ss).

(** The options of build_tries that take a value. *)
Definition build_names : list (list N) :=
  map txt ["--min_size"; "--max_size"; "--rank"; "--runs"; "--out"; "--levelwise"; "--verbose"]%string.

Definition fast_build_valued : list (list N) :=
  map txt ["--min_size"; "--max_size"; "--rank"; "--runs"; "--out"; "--levelwise"; "--wsize"]%string.

Definition fast_build_names : list (list N) := txt "--verbose" :: fast_build_valued.

(** Sizes below 2^64, block and word sizes in their ranges; other values are not the
    name of an option. *)
Definition setting_ok (names : list (list N)) (s : setting) : Prop :=
  match s with
  | MinSize w | MaxSize w => decimal w /\ (decimal_value w < 2 ^ 64)%N
  | RankV => True
  | RankIl w => decimal w /\ (decimal_value w < 2 ^ 31)%N
  | RankOther w => w <> txt "v" /\ w <> txt "il" /\ ~ In w names
  | Runs w | OutFile w | Levelwise w | Verbose w | Ignored w => ~ In w names
  | WordSize w => decimal w /\ (decimal_value w < 2 ^ 16)%N
  | VerboseFlag => True
  end.

(** The settings that build_tries knows, and those that build_fastTries knows. *)
Definition build_setting (s : setting) : Prop :=
  match s with WordSize _ | VerboseFlag => False | _ => setting_ok build_names s end.

Definition fast_build_setting (s : setting) : Prop :=
  match s with Verbose _ => False | _ => setting_ok fast_build_names s end.

(** What the last setting that [f] concerns says; [d] without one. *)
Definition last_of {S A : Type} (f : S -> option A) (d : A) (ss : list S) : A :=
  fold_left (fun a s => match f s with Some x => x | None => a end) ss d.

Definition is_t (w : list N) : bool := if list_eq_dec N.eq_dec w (txt "t") then true else false.

Definition min_of (s : setting) := match s with MinSize w => Some (decimal_value w) | _ => None end.
Definition max_of (s : setting) := match s with MaxSize w => Some (decimal_value w) | _ => None end.
Definition rank_of (s : setting) :=
  match s with RankV => Some 0%N | RankIl _ => Some 1%N | RankOther _ => Some 2%N | _ => None end.
Definition block_of (s : setting) := match s with RankIl w => Some (decimal_value w) | _ => None end.
Definition wsize_of (s : setting) := match s with WordSize w => Some (decimal_value w) | _ => None end.
Definition runs_of (s : setting) := match s with Runs w => Some (is_t w) | _ => None end.
Definition levelwise_of (s : setting) := match s with Levelwise w => Some (is_t w) | _ => None end.
Definition verbose_of (s : setting) :=
  match s with Verbose w => Some (is_t w) | VerboseFlag => Some true | _ => None end.
Definition out_of (s : setting) := match s with OutFile w => Some w | _ => None end.

(** The settings of the query tools. *)
Inductive query_setting :=
| QOut (w : list N) | QVerbose (w : list N) | QVerboseFlag | QParallel (w : list N) | QIgnored (w : list N).

Definition q_written (s : query_setting) : list (list N) :=
  match s with
  | QOut w => [txt "--out"; w]
  | QVerbose w => [txt "--verbose"; w]
  | QVerboseFlag => [txt "--verbose"]
  | QParallel w => [txt "--parallel"; w]
  | QIgnored w => [w]
  end.

Definition q_written_all (ss : list query_setting) : list (list N) := concat (map q_written ss).

Definition query_names : list (list N) := map txt ["--out"; "--verbose"; "--parallel"]%string.

Definition fast_query_names : list (list N) := map txt ["--verbose"; "--parallel"]%string.

Definition the_query_setting (s : query_setting) : Prop :=
  match s with
  | QOut w | QVerbose w | QParallel w | QIgnored w => ~ In w query_names
  | QVerboseFlag => False
  end.

Definition fast_query_setting (s : query_setting) : Prop :=
  match s with
  | QParallel w | QIgnored w => ~ In w fast_query_names
  | QVerboseFlag => True
  | QOut _ | QVerbose _ => False
  end.

Definition q_out_of (s : query_setting) := match s with QOut w => Some w | _ => None end.
Definition q_verbose_of (s : query_setting) :=
  match s with QVerbose w => Some (is_t w) | QVerboseFlag => Some true | _ => None end.
Definition parallel_of (s : query_setting) := match s with QParallel w => Some (is_t w) | _ => None end.

(** A text whose first character starts no number; also the empty text. *)
Definition starts_no_number (w : list N) : Prop :=
  forall c l, w = c :: l ->
    ~ space c /\ c <> newline /\ c <> 43%N /\ c <> 45%N /\ ~ (48 <= c <= 57)%N.

(** A text that is no number, or one too large for 64 bits. *)
Definition no_number (w : list N) : Prop :=
  (decimal w /\ (2 ^ 64 <= decimal_value w)%N) \/ starts_no_number w.
