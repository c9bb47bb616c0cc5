(** Programs that use several tries and files: a sequence of calls of the public
    interface on objects held through pointers, as the tools do (e.g.
    tools/build_tries.cpp:96-170, tools/intersection_query_log.cpp:40-150), in any order.

    Simplifications: copies of objects are in Copies.v; a file is written from the start
    by one step and read from the start by one step. *)

From Verif Require Import Base FlatTrie LevelTrie FastTrie ParallelFor Intersection Tries Serialize.

(** One step of a program.  [K] is what a constructor is called with.  The calls of
    include/binaryTrie.hpp:20-28 and src/intersection.cpp:305, made as in
    tools/build_tries.cpp:96-170, tools/intersection_query_log.cpp:40-150. *)
Inductive step (K : Type) : Type :=
| New (i : nat) (k : K)                              (* p[i] = new ...(k) *)
| EncodeRuns (i : nat)                               (* p[i]->encodeRuns() *)
| Decode (i : nat)                                   (* p[i]->decode(v), v empty; v is shown *)
| Store (is : list nat) (f : nat)                    (* p[i]->serialize(out) for each i, to file f *)
| Restore (is : list nat) (f : nat)                  (* p[i]->load(in) for each i, from file f *)
| Meet (is : list nat) (runs parallel : bool)        (* Intersect(p[i]...), the vector is shown *)
| Delete (i : nat).                                  (* delete p[i]; p[i] = nullptr *)
Arguments New {K}. Arguments EncodeRuns {K}. Arguments Decode {K}. Arguments Store {K}.
Arguments Restore {K}. Arguments Meet {K}. Arguments Delete {K}.

(** The methods of a class hierarchy with objects [T].  What serialize() writes for members that
    were never set, and how the threads of Intersect() are scheduled, may depend on the number
    of the step.  include/binaryTrie.hpp:20-28, include/fastBinaryTrie.hpp:157-427,
    src/intersection.cpp:305, src/fastTrieIntersection.cpp:328. *)
Record interface (K T : Type) : Type := mkInterface {
  i_new : K -> result T;
  i_encodeRuns : T -> result T;
  i_decode : T -> result (list N);
  i_serialize : nat -> nat -> T -> result (list N);
  i_load : T -> list N -> result (T * list N);
  i_intersect : nat -> list T -> bool -> bool -> result (list N)
}.
Arguments i_new {K T}. Arguments i_encodeRuns {K T}. Arguments i_decode {K T}.
Arguments i_serialize {K T}. Arguments i_load {K T}. Arguments i_intersect {K T}.

(** The pointers and the files.  Deleting an object (~binaryTrie and the others, all
    defaulted: include/binaryTrie.hpp:18) only forgets it here; that no call frees memory
    twice or keeps a pointer to another object's memory is the subject of Copies.v. *)
Record pool (T : Type) : Type := mkPool {
  p_objects : nat -> option T;
  p_files : nat -> option (list N)
}.
Arguments mkPool {T}. Arguments p_objects {T}. Arguments p_files {T}.

(** No code of its own: p[i] = x, as in tools/intersection_query_log.cpp:45-79. *)
Definition assign {A : Type} (m : nat -> option A) (i : nat) (x : option A) : nat -> option A :=
  fun j => if j =? i then x else m j.

(** p[i]->..., as in tools/intersection_query_log.cpp:78, 133. *)
Definition deref {A : Type} (m : nat -> option A) (i : nat) : result A :=
  match m i with Some x => Ok x | None => UB NullDeref end.

Section Run.

Variables (K T : Type) (I : interface K T).

(** serialize() of several objects to one stream, as in tools/build_tries.cpp:107. *)
Fixpoint store_all (n k : nat) (ts : list T) : result (list N) :=
  match ts with
  | [] => Ok []
  | t :: ts' =>
    let* b := i_serialize I n k t in
    let* bs := store_all n (S k) ts' in
    Ok (b ++ bs)
  end.

(** load() of several objects from one stream, as in tools/intersection_query_log.cpp:41-81. *)
Fixpoint load_all (objects : nat -> option T) (is : list nat) (input : list N)
  : result (nat -> option T) :=
  match is with
  | [] => Ok objects
  | i :: is' =>
    let* t := deref objects i in
    let* (t, input) := i_load I t input in
    load_all (assign objects i (Some t)) is' input
  end.

(** Step [n]: the new pool, and the vector shown if there is one.  Reading a file that was never
    written is outside the model.  The calls are those of tools/build_tries.cpp:96-170,
    tools/intersection_query_log.cpp:40-150. *)
Definition do_step (n : nat) (p : pool T) (s : step K) : result (pool T * list (list N)) :=
  match s with
  | New i k =>
    let* t := i_new I k in Ok (mkPool (assign (p_objects p) i (Some t)) (p_files p), [])
  | EncodeRuns i =>
    let* t := deref (p_objects p) i in
    let* t := i_encodeRuns I t in
    Ok (mkPool (assign (p_objects p) i (Some t)) (p_files p), [])
  | Decode i =>
    let* t := deref (p_objects p) i in
    let* v := i_decode I t in
    Ok (p, [v])
  | Store is f =>
    let* ts := each_ok (deref (p_objects p)) is in
    let* bytes := store_all n 0 ts in
    Ok (mkPool (p_objects p) (assign (p_files p) f (Some bytes)), [])
  | Restore is f =>
    match p_files p f with
    | None => UB Unmodelled
    | Some bytes =>
      let* objects := load_all (p_objects p) is bytes in
      Ok (mkPool objects (p_files p), [])
    end
  | Meet is runs parallel =>
    let* ts := each_ok (deref (p_objects p)) is in
    let* v := i_intersect I n ts runs parallel in
    Ok (p, [v])
  | Delete i =>
    Ok (mkPool (assign (p_objects p) i None) (p_files p), [])
  end.

(** The steps from number [n] on; all the vectors shown, in order.  No code of its own: a client
    program such as tools/build_tries.cpp:96-170, tools/intersection_query_log.cpp:40-150. *)
Fixpoint run_steps (n : nat) (p : pool T) (steps : list (step K)) : result (pool T * list (list N)) :=
  match steps with
  | [] => Ok (p, [])
  | s :: steps' =>
    let* (p, shown) := do_step n p s in
    let* (p, more) := run_steps (S n) p steps' in
    Ok (p, shown ++ more)
  end.

(** A program starts without objects and files.  No code of its own: a client program such as
    tools/build_tries.cpp:96-170, tools/intersection_query_log.cpp:40-150. *)
Definition run_program (steps : list (step K)) : result (list (list N)) :=
  let* (_, shown) := run_steps 0 (mkPool (fun _ => None) (fun _ => None)) steps in
  Ok shown.

End Run.
Arguments run_program {K T}. Arguments run_steps {K T}. Arguments do_step {K T}.
Arguments load_all {K T}. Arguments store_all {K T}.

(** The classes derived from binaryTrie, with one rank format ([c]).  Constructors: from a
    set and a universe, and the default one (include/flatBinTrie.hpp:25,
    include/flatBinTrie_il.hpp:24, include/binTrie.hpp:24, include/binTrie_il.hpp:23), whose
    members load() overwrites. *)
Inductive bin_new : Type :=
| FromSet (v : variant) (s : list N) (u : N)
| Default (v : variant).

(** include/flatBinTrie.hpp:28-147, include/binTrie.hpp:28-128. *)
Definition bin_construct (k : bin_new) : result bin_trie :=
  match k with
  | FromSet v s u => bin_build v s u
  | Default (VFlat _) => Ok (BFlat (mkFlat 0 0 false false [] [] []))
  | Default (VLevel il) => Ok (BLevel (mkLevel il 0 false false [] []))
  end.

(** The virtual methods of include/binaryTrie.hpp:20-28, and Intersect:
    src/intersection.cpp:305-435. *)
Definition bin_interface (c : codecs) (sched : nat -> scheduler * scheduler) (hc : N)
  : interface bin_new bin_trie :=
  mkInterface bin_new bin_trie bin_construct bin_encodeRuns (fun t => bin_decode t [])
    (fun _ _ t => let* (bytes, _) := bin_serialize c t in Ok bytes)
    (bin_load c)
    (fun n ts runs parallel => Intersect Bin (fst (sched n)) (snd (sched n)) hc (map bin_ops ts) runs parallel).

(** fastBinaryTrie with one rank format and one word type: from a set and a universe, with
    what the memory of height_with_runs and empty_trie held; and the default constructor
    (include/fastBinaryTrie.hpp:28-32). *)
Inductive fast_new : Type :=
| FastFromSet (s : list N) (u : N) (jh : option nat) (je : option bool)
| FastDefault (junk_h junk_hu : nat) (jh : option nat) (junk_runs : bool) (je : option bool).

(** include/fastBinaryTrie.hpp:34-154. *)
Definition fast_construct (lw : nat) (k : fast_new) : result fast :=
  match k with
  | FastFromSet s u jh je => fast_build lw jh je s u
  | FastDefault h hu jh r je => Ok (fast_default lw h hu jh r je)
  end.

(** include/fastBinaryTrie.hpp:34-427, and Intersect: src/fastTrieIntersection.cpp:327-459. *)
Definition fast_interface (c : codecs) (lw : nat) (junk : nat -> nat -> N * N)
           (sched : nat -> scheduler * scheduler) (hc : N) : interface fast_new fast :=
  mkInterface fast_new fast (fast_construct lw) fast_encodeRuns (fun t => fast_decode t [])
    (fun n k t => Ok (fst (fast_serialize c (fst (junk n k)) (snd (junk n k)) t)))
    (fast_load c)
    (fun n ts runs parallel =>
       Intersect (Fast lw) (fst (sched n)) (snd (sched n)) hc (map fast_ops ts) runs parallel).
