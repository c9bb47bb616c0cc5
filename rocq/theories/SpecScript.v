(** What a script of builds and queries should answer. *)

From Verif Require Import Base FastTrie ParallelFor Serialize Tools Cli Script Spec SpecTries SpecFiles SpecTools SpecText SpecCli SpecAnswers.

(** The collections and the query logs that are there before the script starts. *)
Record shelf := mkShelf {
  collection_at : list N -> option (N * N * list (list N));
  log_at : list N -> option (list (list N)) }.

Definition on_shelf (sh : shelf) (fs : files) : Prop :=
  (forall n one u lists, collection_at sh n = Some (one, u, lists) ->
     collection_ok one u lists /\ fs n = Some (collection_file one u lists)) /\
  (forall n queries, log_at sh n = Some queries -> exists text, fs n = Some text /\ log_of text queries).

(** A name for an output: not empty, and not that of a collection or a log. *)
Definition free (sh : shelf) (n : list N) : Prop :=
  n <> [] /\ collection_at sh n = None /\ log_at sh n = None.

(** The settings that a file was built with last, by a build tool for binary tries or for fast
    tries; [None] for a file that holds no tries. *)
Inductive built :=
| BinFile (u : N) (lists : list (list N)) (ss : list setting)
| FastFile (u : N) (lists : list (list N)) (ss : list setting).

Definition put (n : list N) (b : option built) (k : list N -> option built) : list N -> option built :=
  fun m => if list_eq_dec N.eq_dec m n then b else k m.

(** The lists a build with settings [ss] keeps. *)
Definition kept_by (ss : list setting) (lists : list (list N)) : list (list N) :=
  kept_lists (last_of min_of 0%N ss) (last_of max_of (2 ^ 64 - 1)%N ss) lists.

(** A build that the query tools can use (C34 to C36, C55). *)
Definition build_good (u : N) (lists : list (list N)) (ss : list setting) : Prop :=
  (2 <= u)%N /\ Forall build_setting ss /\
  loadable_options (last_of rank_of 0%N ss) (last_of block_of 512%N ss) (last_of levelwise_of false ss) /\
  Forall (stored_ok u (built_variant (last_of rank_of 0%N ss) (last_of levelwise_of false ss))
            (last_of runs_of false ss)) (kept_by ss lists).

Definition build_fast_good (u : N) (lists : list (list N)) (ss : list setting) : Prop :=
  ss <> [] /\ Forall fast_build_setting ss /\
  In (last_of wsize_of 64%N ss) [8; 16; 32; 64]%N /\ fast_universe u (word_log (last_of wsize_of 64%N ss)) /\
  last_of rank_of 0%N ss <> 1%N /\ Forall (fast_ok u) (kept_by ss lists).

(** What a line should answer: nothing, the queries over some lists, or what the threads find of
    them when the lists are stored with their runs ([runs_answer], C36). *)
Inductive expected :=
| Nothing
| Answers (kept queries : list (list N))
| RunAnswers (low u hc : N) (kept queries : list (list N)).

(** A query with several threads over a file with runs. *)
Definition runs_mode (runs parallel : bool) (hc : N) (sched : nat -> nat -> scheduler * scheduler) : Prop :=
  runs = true /\ parallel = true /\ (1 <= hc < 2 ^ 16)%N /\
  forall nq rep, valid_scheduler (fst (sched nq rep)) /\ valid_scheduler (snd (sched nq rep)).

(** [script_ok sh hc ch i k cs es]: the lines [cs] build good files, and query files that lines
    before them have built; [k] says what is built so far. *)
Inductive script_ok (sh : shelf) (hc : N) (ch : chance) :
  nat -> (list N -> option built) -> list command -> list expected -> Prop :=
| script_end : forall i k, script_ok sh hc ch i k [] []
| script_build : forall i k cs es prog input ss one u lists,
    collection_at sh input = Some (one, u, lists) -> build_good u lists ss ->
    free sh (last_of out_of [] ss) ->
    script_ok sh hc ch (S i) (put (last_of out_of [] ss) (Some (BinFile u lists ss)) k) cs es ->
    script_ok sh hc ch i k (Build (prog :: input :: written_all ss) :: cs) (Nothing :: es)
| script_build_fast : forall i k cs es prog input ss one u lists,
    collection_at sh input = Some (one, u, lists) -> build_fast_good u lists ss -> junk_ok (c_junk ch i) ->
    free sh (last_of out_of [] ss) ->
    script_ok sh hc ch (S i) (put (last_of out_of [] ss) (Some (FastFile u lists ss)) k) cs es ->
    script_ok sh hc ch i k (BuildFast (prog :: input :: written_all ss) :: cs) (Nothing :: es)
| script_query : forall i k cs es prog file log qs u lists ss queries,
    k file = Some (BinFile u lists ss) -> log_at sh log = Some queries ->
    Forall the_query_setting qs -> ~ In file query_names -> ~ In log query_names ->
    last_of q_out_of [] qs = [] \/ free sh (last_of q_out_of [] qs) -> last_of q_out_of [] qs <> file ->
    exact_mode u (last_of runs_of false ss) (last_of parallel_of true qs) hc (c_sched ch i) (kept_by ss lists) ->
    Forall (query_ok (kept_by ss lists)) queries -> Forall (Forall (fun i => i < 2 ^ 31)%N) queries ->
    script_ok sh hc ch (S i) (put (last_of q_out_of [] qs) None k) cs es ->
    script_ok sh hc ch i k (Query (prog :: file :: log :: q_written_all qs) :: cs)
      (Answers (kept_by ss lists) queries :: es)
| script_query_fast : forall i k cs es prog file log qs u lists ss queries,
    k file = Some (FastFile u lists ss) -> log_at sh log = Some queries ->
    Forall fast_query_setting qs -> ~ In file fast_query_names -> ~ In log fast_query_names ->
    blank_ok (c_blank ch i) ->
    fast_exact_mode u (word_log (last_of wsize_of 64%N ss)) (last_of runs_of false ss)
      (last_of parallel_of false qs) hc (c_sched ch i) (kept_by ss lists) ->
    queries <> [] -> Forall (query_ok (kept_by ss lists)) queries ->
    script_ok sh hc ch (S i) k cs es ->
    script_ok sh hc ch i k (QueryFast (prog :: file :: log :: q_written_all qs) :: cs)
      (Answers (kept_by ss lists) queries :: es)
| script_query_runs : forall i k cs es prog file log qs u lists ss queries,
    k file = Some (BinFile u lists ss) -> log_at sh log = Some queries ->
    Forall the_query_setting qs -> ~ In file query_names -> ~ In log query_names ->
    last_of q_out_of [] qs = [] \/ free sh (last_of q_out_of [] qs) -> last_of q_out_of [] qs <> file ->
    runs_mode (last_of runs_of false ss) (last_of parallel_of true qs) hc (c_sched ch i) -> (3 <= u)%N ->
    Forall (query_ok (kept_by ss lists)) queries -> Forall (Forall (fun i => i < 2 ^ 31)%N) queries ->
    script_ok sh hc ch (S i) (put (last_of q_out_of [] qs) None k) cs es ->
    script_ok sh hc ch i k (Query (prog :: file :: log :: q_written_all qs) :: cs)
      (RunAnswers 4 u hc (kept_by ss lists) queries :: es)
| script_query_fast_runs : forall i k cs es prog file log qs u lists ss queries,
    k file = Some (FastFile u lists ss) -> log_at sh log = Some queries ->
    Forall fast_query_setting qs -> ~ In file fast_query_names -> ~ In log fast_query_names ->
    blank_ok (c_blank ch i) ->
    runs_mode (last_of runs_of false ss) (last_of parallel_of false qs) hc (c_sched ch i) ->
    (last_of wsize_of 64 ss < u)%N -> queries <> [] -> Forall (query_ok (kept_by ss lists)) queries ->
    script_ok sh hc ch (S i) k cs es ->
    script_ok sh hc ch i k (QueryFast (prog :: file :: log :: q_written_all qs) :: cs)
      (RunAnswers (2 * last_of wsize_of 64%N ss) u hc (kept_by ss lists) queries :: es).

Definition meets (e : expected) (a : option (list (option (list N)))) : Prop :=
  match e, a with
  | Nothing, None => True
  | Answers kept queries, Some rs => Forall2 (answers kept) queries rs
  | RunAnswers low u hc kept queries, Some rs => Forall2 (runs_answer low u hc kept) queries rs
  | _, _ => False
  end.
