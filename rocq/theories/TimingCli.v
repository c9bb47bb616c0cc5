(** The times in the output of the query tools. *)

From Coq Require Import Lia.
From Verif Require Import Base Facts FlatTrie LevelTrie FastTrie ParallelFor Intersection Tries Serialize Tools
  Text Table Report SpecText SpecTable TextThms TableThms Cli SpecCli CliThms CliTools TableCli
  SpecAverage Timing SpecTiming TimingThms.
Local Open Scope list_scope.

Lemma run_queries_length : forall T (pick : N -> result T) answer queries nq rs,
  run_queries pick answer nq queries = Ok rs -> length rs = length queries.
Proof.
  intros T pick answer queries. induction queries as [|q queries IH]; intros nq rs H; cbn [run_queries] in H;
    [injection H as <-; reflexivity|].
  apply bind_inv in H as (ts & _ & H). apply bind_inv in H as (a & _ & H). apply bind_inv in H as (rs' & Er & H).
  injection H as <-. cbn [length]. f_equal. eapply IH, Er.
Qed.

Lemma rows_of_any : forall time, (forall n, field (time n)) -> forall queries rs nq, length rs = length queries ->
  exists rows, rows_of (table_rows time nq (combine queries rs)) rows /\ length rows = answered_count rs /\
    map (fun row => snd (fst row)) rows = map time (seq nq (length rows)).
Proof.
  intros time T queries. induction queries as [|q queries IH]; intros [|r rs] nq L; try discriminate L.
  - exists []. repeat split; constructor.
  - injection L as L. cbn [combine table_rows]. destruct r as [r|]; [|exact (IH rs nq L)].
    destruct (IH rs (S nq) L) as (rows & R & C & S). eexists. split; [|split].
    + cbn [app]. apply rows_row; [apply print_decimal|apply T|apply print_decimal|exact R].
    + unfold answered_count in *. cbn [filter length]. f_equal. exact C.
    + cbn [map length seq fst snd]. f_equal. exact S.
Qed.

Lemma nth_map_seq : forall A (f : nat -> A) (l : list A) n a,
  l = map f (seq 0 (length l)) -> nth_error l n = Some a -> a = f n.
Proof.
  intros A f l n a E H. assert (L : n < length l) by (apply nth_error_Some; congruence).
  rewrite E in H.
  erewrite map_nth_error in H; [injection H as <-; reflexivity|].
  rewrite (nth_error_nth' _ 0) by (rewrite seq_length; exact L). rewrite seq_nth by exact L. reflexivity.
Qed.

Lemma rows_average : forall elapsed rows, (forall n, query_time elapsed n < 2 ^ 64)%N ->
  map (fun row : N * list N * N => snd (fst row)) rows = map (time_text elapsed) (seq 0 (length rows)) ->
  times_average elapsed rows.
Proof.
  intros elapsed rows B E n row H.
  assert (snd (fst row) = time_text elapsed n) as ->.
  { eapply (nth_map_seq _ (time_text elapsed) (map (fun row => snd (fst row)) rows)).
    - rewrite map_length. exact E.
    - apply map_nth_error with (f := fun row : N * list N * N => snd (fst row)) in H. exact H. }
  apply row_time_right, B.
Qed.

Theorem query_main_times :
  forall fm sched hc elapsed prog sequences log qs fs fs' rs text queries,
  Forall the_query_setting qs -> ~ In sequences query_names -> ~ In log query_names ->
  let table := last_of q_out_of [] qs in
  log <> table -> fs log = Some text -> log_of text queries -> Forall (Forall (fun i => i < 2 ^ 31)%N) queries ->
  (forall n, query_time elapsed n < 2 ^ 64)%N ->
  (log_time elapsed (length (small_queries queries)) < 2 ^ 64)%N ->
  (10 * N.of_nat (length (small_queries queries)) < 2 ^ 64)%N ->
  query_main fm sched hc (time_text elapsed) (prog :: sequences :: log :: q_written_all qs) fs = Ok (fs', Some rs) ->
  (exists count avg, query_summary elapsed rs = Ok (count, avg) /\ summary_of elapsed queries count avg) /\
  (table <> [] -> exists lines rows, fs' table = Some lines /\ table_of lines rows /\
     length rows = length (small_queries queries) /\ times_average elapsed rows).
Proof.
  intros fm sched hc elapsed prog sequences log qs fs fs' rs text queries FQ NS NL table LT G T QB B1 B2 B3 H.
  unfold query_main in H. cbn [length Nat.ltb Nat.leb arg nth_error bind] in H.
  rewrite query_options_last in H by auto. cbn [bind q_out q_parallel] in H. fold table in H.
  destruct (negb (text_eqb table []) && text_eqb table sequences)%bool; [discriminate H|]. cbv zeta in H.
  assert (K : exists fs1, length rs = length queries /\ answered_count rs = length (small_queries queries) /\
    fs' = write_out table (table_header ++ table_rows (time_text elapsed) 0 (combine queries rs)) fs1).
  { rewrite (write_out_other table table_header fs log LT) in H. rewrite G, (query_log_loaded _ _ T) in H by auto.
    destruct (write_out table table_header fs sequences) as [file|].
    - apply bind_inv in H as (ts & _ & H). apply bind_inv in H as (rs0 & Q & H). injection H as <- <-.
      unfold query_log in Q. apply bind_inv in Q as ((r0, seqs) & _ & Q).
      eexists. split; [eapply run_queries_length, Q|]. split; [eapply run_queries_count, Q|]. reflexivity.
    - apply bind_inv in H as (rs0 & Q & H). injection H as <- <-.
      eexists. split; [eapply run_queries_length, Q|]. split; [eapply run_queries_count, Q|]. reflexivity. }
  destruct K as (fs1 & KL & KC & ->). split; [apply summary_right; auto|].
  intros TN. destruct (rows_of_any (time_text elapsed) (time_text_field elapsed) queries rs 0 KL) as (rows & R & C & S).
  exists (table_header ++ table_rows (time_text elapsed) 0 (combine queries rs)), rows. split; [|split; [|split]].
  - unfold write_out. destruct table; [congruence|]. apply set_file_same.
  - exists (table_rows (time_text elapsed) 0 (combine queries rs)). split; [exact R|].
    unfold table_header. rewrite <- app_assoc. reflexivity.
  - congruence.
  - apply rows_average; auto.
Qed.

Theorem fast_query_main_times :
  forall fm blank sched hc elapsed prog sequences log qs fs rs text queries,
  Forall fast_query_setting qs -> ~ In sequences fast_query_names -> ~ In log fast_query_names ->
  fs log = Some text -> log_of text queries -> Forall (Forall (fun i => i < 2 ^ 64)%N) queries ->
  (log_time elapsed (length (small_queries queries)) < 2 ^ 64)%N ->
  (10 * N.of_nat (length (small_queries queries)) < 2 ^ 64)%N ->
  fast_query_main fm blank sched hc (prog :: sequences :: log :: q_written_all qs) fs = Ok (Some rs) ->
  exists count avg, query_summary elapsed rs = Ok (count, avg) /\ summary_of elapsed queries count avg.
Proof.
  intros fm blank sched hc elapsed prog sequences log qs fs rs text queries FQ NS NL G T QB B2 B3 H.
  unfold fast_query_main in H. cbn [length Nat.ltb Nat.leb] in H.
  rewrite fast_query_options_last in H by auto. cbn [bindo arg nth_error bind] in H.
  rewrite G, (fast_query_log_loaded _ _ T) in H by auto. apply bind_inv in H as (file & _ & H).
  apply bind_inv in H as (rs0 & Q & H). injection H as <-. eapply fast_query_log_summary; eauto.
Qed.
