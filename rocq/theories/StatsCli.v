(** Model of the command lines of the statistics tools: the four main functions start with
    the same text, tools/measures.cpp:108-131, tools/pom.cpp:48-71,
    tools/classic_coders.cpp:29-52, tools/cbv_coding.cpp:28-51. *)

From Coq Require Import String.
From Verif Require Import Base FlatTrie Serialize Tools Text Cli Measures Stats.

(** The loop over the arguments, from argv[0]: tools/measures.cpp:121-126,
    tools/pom.cpp:61-66, tools/classic_coders.cpp:42-47, tools/cbv_coding.cpp:41-46. *)
Definition stats_step (argv : list (list N)) (st : nat * N) : result (option (nat * N)) :=
  when_arg argv "--min_length" (number_arg argv (fun v _ => v)) st.

(** The whole loop: tools/measures.cpp:121-126, tools/pom.cpp:61-66,
    tools/classic_coders.cpp:42-47, tools/cbv_coding.cpp:41-46. *)
Definition stats_options (argv : list (list N)) : result (option N) :=
  arg_loop (length argv) (length argv) (stats_step argv) 0 0%N.

(** How a run ends: it prints the usage and returns 1, an exception is not caught, or it prints
    the totals.  tools/measures.cpp:112-118, 124, 190-197, tools/pom.cpp:52-58, 64, 133-139,
    tools/classic_coders.cpp:33-39, 45, 101-106, tools/cbv_coding.cpp:32-38, 44, 95-100. *)
Inductive stats_run (A : Type) := Usage | Thrown | Totals (a : A).
Arguments Usage {A}.
Arguments Thrown {A}.
Arguments Totals {A} a.

(** main; [tool] is the rest of it, given min_length and the contents of the file.  A file that
    cannot be opened is [None].  tools/measures.cpp:107-132, tools/pom.cpp:47-72,
    tools/classic_coders.cpp:28-53, tools/cbv_coding.cpp:27-52. *)
Definition stats_main {A} (tool : N -> option (list N) -> result A) (argv : list (list N)) (fs : files)
  : result (stats_run A) :=
  if length argv <? 2 then Ok Usage
  else
    let* collection := arg argv 1 in
    let* o := stats_options argv in
    match o with
    | None => Ok Thrown
    | Some min_length => let* a := tool min_length (fs collection) in Ok (Totals a)
    end.

(** tools/measures.cpp:107-198. *)
Definition measures_main (fuel : nat) := stats_main (measures fuel).
(** tools/pom.cpp:47-140. *)
Definition pom_main (fuel : nat) (delta gamma fib : list N -> N) := stats_main (pom fuel delta gamma fib).
(** tools/classic_coders.cpp:28-107. *)
Definition classic_coders_main (fuel : nat) (delta gamma fib : list N -> N) :=
  stats_main (classic_coders fuel delta gamma fib).
(** tools/cbv_coding.cpp:27-101. *)
Definition cbv_coding_main (fuel : nat) (hyb : list bool -> N) := stats_main (cbv_coding fuel hyb).
