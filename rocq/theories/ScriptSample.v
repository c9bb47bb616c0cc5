(** A script that meets the hypotheses of C81. *)

From Coq Require Import String.
From Verif Require Import Base FastTrie ParallelFor Serialize Tries Tools Cli Text Script Spec SpecTries SpecFiles SpecTools SpecText
  SpecCli SpecScript ParForThms ToolsThms TextThms CliThms InterRefute ScriptThms.
Local Open Scope string_scope.

(** A script like scripts/build_tries.sh and scripts/build_fastTries.sh followed by
    scripts/run_singlethread_queries_flatTries.sh and scripts/run_multithread_fastTries_queries.sh. *)
Definition sample_lists : list (list N) := [[0; 1; 2; 3; 4; 5; 6; 7; 9; 12]; [3; 5; 6; 7; 12]; [1; 3; 12; 15]]%N.

Definition sample_files : files :=
  fun n => if text_eqb n (txt "data") then Some (collection_file 1 16 sample_lists)
           else if text_eqb n (txt "log") then Some (txt " 0 1" ++ [10]%N ++ txt " 2 0" ++ [10]%N)%list
           else None.

Definition sample_shelf : shelf :=
  mkShelf (fun n => if text_eqb n (txt "data") then Some (1%N, 16%N, sample_lists) else None)
          (fun n => if text_eqb n (txt "log") then Some [[0; 1]; [2; 0]]%N else None).

Definition sample_chance : chance :=
  mkChance (fun _ _ => mkJunk None None 0 0) (fun _ lw => fast_default lw 0 0 None false None)
           (fun _ _ _ => (in_order, backwards)) (fun _ _ => txt "7").

Definition sample_settings (runs out : list N) : list setting :=
  [MinSize (txt "1"); MaxSize (txt "15000"); RankV; Runs runs; OutFile out].

Definition sample_fast_settings (runs out : list N) : list setting :=
  [MinSize (txt "1"); RankOther (txt "v5"); Runs runs; WordSize (txt "8"); OutFile out].

Definition sample_script : list command :=
  [Build (txt "build" :: txt "data" :: written_all (sample_settings (txt "f") (txt "a")));
   Build (txt "build" :: txt "data" :: written_all (sample_settings (txt "t") (txt "b")));
   BuildFast (txt "build_fastTries" :: txt "data" :: written_all (sample_fast_settings (txt "f") (txt "c")));
   Query (txt "queries" :: txt "a" :: txt "log" :: q_written_all [QParallel (txt "t")]);
   Query (txt "queries" :: txt "b" :: txt "log" :: q_written_all [QParallel (txt "f"); QOut (txt "table")]);
   QueryFast (txt "fast" :: txt "c" :: txt "log" :: q_written_all [QParallel (txt "t")]);
   BuildFast (txt "build_fastTries" :: txt "data" :: written_all (sample_fast_settings (txt "t") (txt "d")));
   QueryFast (txt "fast" :: txt "d" :: txt "log" :: q_written_all [QParallel (txt "t")])].

Ltac no_name := let Q := fresh in intros Q; vm_compute in Q; repeat destruct Q as [Q|Q];
  try discriminate Q; try destruct Q.

Lemma digits_decimal : forall w, w <> [] -> forallb is_digit w = true -> decimal w.
Proof.
  intros w N0 F. split; auto. apply Forall_forall. intros c I. rewrite forallb_forall in F.
  apply F in I. unfold is_digit in I. apply andb_prop in I. destruct I as (A & B).
  apply N.leb_le in A. apply N.leb_le in B. lia.
Qed.

Lemma sample_on_shelf : on_shelf sample_shelf sample_files.
Proof.
  split.
  - intros n one u lists. cbn [collection_at sample_shelf]. unfold sample_files.
    destruct (text_eqb n (txt "data")); [|discriminate]. intros E. injection E as <- <- <-. split; [|reflexivity].
    split; [reflexivity|]. split; [reflexivity|]. split; [reflexivity|]. split; repeat constructor.
  - intros n queries. cbn [log_at sample_shelf]. unfold sample_files.
    destruct (text_eqb n (txt "log")) eqn:E; [|discriminate]. intros Q. injection Q as <-.
    assert (n = txt "log") as -> by (apply text_eqb_eq; auto). eexists. split; [reflexivity|].
    exact (log_text_ok [[0; 1]; [2; 0]]%N).
Qed.

Lemma sample_free : forall n, In n [txt "a"; txt "b"; txt "c"; txt "d"; txt "table"] -> free sample_shelf n.
Proof. intros n H. repeat destruct H as [<-|H]; try destruct H; (split; [discriminate|split; reflexivity]). Qed.

Lemma sample_build : forall w o, ~ In w build_names -> ~ In o build_names ->
  build_good 16 sample_lists (sample_settings w o).
Proof.
  intros w o Hw Ho. split; [discriminate|]. split; [|split].
  - unfold sample_settings.
    constructor; [split; [apply digits_decimal; [discriminate|reflexivity]|reflexivity]|].
    constructor; [split; [apply digits_decimal; [discriminate|reflexivity]|reflexivity]|].
    constructor; [exact I|]. constructor; [exact Hw|]. constructor; [exact Ho|constructor].
  - split; [reflexivity|]. split; [reflexivity|]. discriminate.
  - change (kept_by (sample_settings w o) sample_lists) with sample_lists.
    constructor; [|constructor; [|constructor; [|constructor]]].
    + sets_ok. exists 9%N, 8%N. repeat split; cbn; auto 12. intuition discriminate.
    + sets_ok. exists 3%N, 2%N. repeat split; cbn; auto 12. intuition discriminate.
    + sets_ok. exists 3%N, 2%N. repeat split; cbn; auto 12. intuition discriminate.
Qed.

Lemma sample_build_fast : forall w o, ~ In w fast_build_names -> ~ In o fast_build_names ->
  build_fast_good 16 sample_lists (sample_fast_settings w o).
Proof.
  intros w o Hw Ho. split; [discriminate|]. split; [|split; [|split; [|split]]].
  - unfold sample_fast_settings.
    constructor; [split; [apply digits_decimal; [discriminate|reflexivity]|reflexivity]|].
    constructor; [split; [discriminate|split; [discriminate|no_name]]|].
    constructor; [exact Hw|].
    constructor; [split; [apply digits_decimal; [discriminate|reflexivity]|reflexivity]|].
    constructor; [exact Ho|constructor].
  - left. reflexivity.
  - split; [left; reflexivity|]. split; [reflexivity|discriminate].
  - discriminate.
  - change (kept_by (sample_fast_settings w o) sample_lists) with sample_lists.
    constructor; [|constructor; [|constructor; [|constructor]]]; sets_ok.
Qed.

Lemma sample_queries_ok : Forall (query_ok sample_lists) [[0; 1]; [2; 0]]%N.
Proof. repeat constructor; discriminate. Qed.

Lemma sample_ok : script_ok sample_shelf 4 sample_chance 0 (fun _ => None) sample_script
    [Nothing; Nothing; Nothing; Answers sample_lists [[0; 1]; [2; 0]]%N; Answers sample_lists [[0; 1]; [2; 0]]%N;
     Answers sample_lists [[0; 1]; [2; 0]]%N; Nothing; Answers sample_lists [[0; 1]; [2; 0]]%N].
Proof.
  assert (V : forall nq rep : nat, valid_scheduler (fst (c_sched sample_chance 3 nq rep)) /\
                                  valid_scheduler (snd (c_sched sample_chance 3 nq rep))).
  { intros. split; [apply in_order_valid|apply backwards_valid]. }
  unfold sample_script.
  eapply script_build; [reflexivity|apply sample_build; no_name|apply sample_free; cbn; auto|].
  eapply script_build; [reflexivity|apply sample_build; no_name|apply sample_free; cbn; auto|].
  eapply script_build_fast; [reflexivity|apply sample_build_fast; no_name| |apply sample_free; cbn; auto|].
  { intros i. split; [discriminate|split; reflexivity]. }
  change (Answers sample_lists [[0; 1]; [2; 0]]%N) with (Answers (kept_by (sample_settings (txt "f") (txt "a")) sample_lists) [[0; 1]; [2; 0]]%N) at 1.
  eapply script_query; [reflexivity|reflexivity| |no_name|no_name|left; reflexivity|discriminate| | | |].
  { constructor; [no_name|constructor]. }
  { split; [discriminate|]. intros _. split; [reflexivity|]. split; [left; discriminate|].
    split; [discriminate|exact V]. }
  { exact sample_queries_ok. }
  { repeat constructor. }
  change (Answers sample_lists [[0; 1]; [2; 0]]%N) with (Answers (kept_by (sample_settings (txt "t") (txt "b")) sample_lists) [[0; 1]; [2; 0]]%N) at 1.
  eapply script_query; [reflexivity|reflexivity| |no_name|no_name|right; apply sample_free; cbn; auto 9|discriminate| | | |].
  { constructor; [no_name|constructor; [no_name|constructor]]. }
  { split; [discriminate|]. discriminate. }
  { exact sample_queries_ok. }
  { repeat constructor. }
  change (Answers sample_lists [[0; 1]; [2; 0]]%N) with (Answers (kept_by (sample_fast_settings (txt "f") (txt "c")) sample_lists) [[0; 1]; [2; 0]]%N) at 1.
  eapply script_query_fast; [reflexivity|reflexivity| |no_name|no_name| | |discriminate| |].
  { constructor; [no_name|constructor]. }
  { intros lw. split; reflexivity. }
  { split; [discriminate|]. intros _. split; [reflexivity|]. split; [left; reflexivity|].
    split; [discriminate|exact V]. }
  { exact sample_queries_ok. }
  eapply script_build_fast; [reflexivity|apply sample_build_fast; no_name| |apply sample_free; cbn; auto|].
  { intros i. split; [discriminate|split; reflexivity]. }
  change (Answers sample_lists [[0; 1]; [2; 0]]%N) with (Answers (kept_by (sample_fast_settings (txt "t") (txt "d")) sample_lists) [[0; 1]; [2; 0]]%N).
  eapply script_query_fast; [reflexivity|reflexivity| |no_name|no_name| | |discriminate| |apply script_end].
  { constructor; [no_name|constructor]. }
  { intros lw. split; reflexivity. }
  { split; [discriminate|]. intros _. split; [reflexivity|]. split; [left; reflexivity|].
    split; [intros _; right; reflexivity|exact V]. }
  { exact sample_queries_ok. }
Qed.

(** A script like scripts/run_multithread_queries_flatTries.sh and
    scripts/run_multithread_fastTries_queries.sh. *)
Definition multithread_script : list command :=
  [Build (txt "build" :: txt "data" :: written_all (sample_settings (txt "f") (txt "a")));
   Build (txt "build" :: txt "data" :: written_all (sample_settings (txt "t") (txt "b")));
   Query (txt "queries" :: txt "a" :: txt "log" :: q_written_all [QParallel (txt "t")]);
   Query (txt "queries" :: txt "b" :: txt "log" :: q_written_all [QParallel (txt "t"); QOut (txt "table")]);
   BuildFast (txt "build_fastTries" :: txt "data" :: written_all (sample_fast_settings (txt "t") (txt "d")));
   QueryFast (txt "fast" :: txt "d" :: txt "log" :: q_written_all [QParallel (txt "t")])].

Lemma multithread_ok : script_ok sample_shelf 4 sample_chance 0 (fun _ => None) multithread_script
    [Nothing; Nothing; Answers sample_lists [[0; 1]; [2; 0]]%N;
     RunAnswers 4 16 4 sample_lists [[0; 1]; [2; 0]]%N; Nothing;
     RunAnswers 16 16 4 sample_lists [[0; 1]; [2; 0]]%N].
Proof.
  assert (V : forall nq rep : nat, valid_scheduler (fst (c_sched sample_chance 3 nq rep)) /\
                                  valid_scheduler (snd (c_sched sample_chance 3 nq rep))).
  { intros. split; [apply in_order_valid|apply backwards_valid]. }
  unfold multithread_script.
  eapply script_build; [reflexivity|apply sample_build; no_name|apply sample_free; cbn; auto|].
  eapply script_build; [reflexivity|apply sample_build; no_name|apply sample_free; cbn; auto|].
  change sample_lists with (kept_by (sample_settings (txt "f") (txt "a")) sample_lists) at 3.
  eapply script_query; [reflexivity|reflexivity| |no_name|no_name|left; reflexivity|discriminate| | | |].
  { constructor; [no_name|constructor]. }
  { split; [discriminate|]. intros _. split; [reflexivity|]. split; [left; discriminate|].
    split; [discriminate|exact V]. }
  { exact sample_queries_ok. }
  { repeat constructor. }
  change (RunAnswers 4 16 4 sample_lists [[0; 1]; [2; 0]]%N) with (RunAnswers 4 16 4 (kept_by (sample_settings (txt "t") (txt "b")) sample_lists) [[0; 1]; [2; 0]]%N).
  eapply script_query_runs; [reflexivity|reflexivity| |no_name|no_name|right; apply sample_free; cbn; auto 9|discriminate| | | | |].
  { constructor; [no_name|constructor; [no_name|constructor]]. }
  { split; [reflexivity|]. split; [reflexivity|]. split; [split; [discriminate|reflexivity]|exact V]. }
  { discriminate. }
  { exact sample_queries_ok. }
  { repeat constructor. }
  eapply script_build_fast; [reflexivity|apply sample_build_fast; no_name| |apply sample_free; cbn; auto|].
  { intros i. split; [discriminate|split; reflexivity]. }
  change (RunAnswers 16 16 4 sample_lists [[0; 1]; [2; 0]]%N) with (RunAnswers (2 * last_of wsize_of 64%N (sample_fast_settings (txt "t") (txt "d"))) 16 4 (kept_by (sample_fast_settings (txt "t") (txt "d")) sample_lists) [[0; 1]; [2; 0]]%N).
  eapply script_query_fast_runs; [reflexivity|reflexivity| |no_name|no_name| | | |discriminate| |apply script_end].
  { constructor; [no_name|constructor]. }
  { intros lw. split; reflexivity. }
  { split; [reflexivity|]. split; [reflexivity|]. split; [split; [discriminate|reflexivity]|exact V]. }
  { reflexivity. }
  { exact sample_queries_ok. }
Qed.
