(** Proofs about the table through the command lines of the tools. *)

From Coq Require Import String.
From Verif Require Import Base Facts FlatTrie LevelTrie FastTrie ParallelFor Intersection Tries Serialize Tools Text
  Spec SpecTries SpecFiles SpecTools SpecText Report Table SpecTable TableThms Cli SpecCli CliThms CliTools.
Local Open Scope list_scope.

Theorem table_written :
  forall fm prog input ss prog' log qs (fs : files) one u lists text queries hc sched time,
  formats_ok fm -> collection_ok one u lists -> (2 <= u)%N -> (forall n, field (time n)) ->
  fs input = Some (collection_file one u lists) -> fs log = Some text -> log_of text queries ->
  Forall build_setting ss -> Forall the_query_setting qs ->
  let out := last_of out_of [] ss in
  let runs := last_of runs_of false ss in
  let levelwise := last_of levelwise_of false ss in
  let rank_type := last_of rank_of 0%N ss in
  let block := last_of block_of 512%N ss in
  let kept := kept_lists (last_of min_of 0%N ss) (last_of max_of (2 ^ 64 - 1)%N ss) lists in
  let table := last_of q_out_of [] qs in
  ~ In out ([] :: input :: log :: table :: query_names) ->
  ~ In log (table :: query_names) -> table <> [] ->
  loadable_options rank_type block levelwise ->
  Forall (stored_ok u (built_variant rank_type levelwise) runs) kept ->
  exact_mode u runs (last_of parallel_of true qs) hc sched kept ->
  Forall (query_ok kept) queries -> Forall (Forall (fun i => i < 2 ^ 31)%N) queries ->
  exists fs' r fs'' rs,
    build_tries_main fm (prog :: input :: written_all ss) fs = Ok (Some (fs', Some r)) /\
    query_main fm sched hc time (prog' :: out :: log :: q_written_all qs) fs' = Ok (fs'', Some rs) /\
    (forall n, n <> table -> fs'' n = fs' n) /\
    exists lines rows, fs'' table = Some lines /\ table_of lines rows /\
      Forall2 (row_of kept) (small_queries queries) rows /\ times_are time rows.
Proof.
  intros fm prog input ss prog' log qs fs one u lists text queries hc sched time FM C U TM I G T FS FQ
    out runs levelwise rank_type block kept table NO NL TN LO ST EX QO QB.
  destruct (cli_end_to_end_table fm prog input ss prog' log qs fs one u lists text queries hc sched time)
    as (fs' & r & fs'' & rs & H1 & _ & H3 & H4 & H5 & H6); auto.
  exists fs', r, fs'', rs. do 2 (split; [assumption|]). split; [intros n D; apply H4; auto|].
  destruct (rows_text kept time queries rs TM H5 0) as (rows & R & F & S).
  exists (table_header ++ table_rows time 0 (combine queries rs)), rows. split; [apply H6, TN|]. split; [|split; [exact F|exact S]].
  exists (table_rows time 0 (combine queries rs)). split; [exact R|].
  unfold table_header. rewrite <- app_assoc. reflexivity.
Qed.

Lemma small_shorter : forall queries, Exists (fun q => 16 < length q) queries ->
  length (small_queries queries) < length queries.
Proof.
  assert (L : forall queries : list (list N), length (small_queries queries) <= length queries).
  { induction queries as [|q queries IH]; unfold small_queries in *; cbn [filter length]; auto.
    destruct (length q <=? 16); cbn [length]; lia. }
  intros queries H. induction H as [q queries H|q queries _ IH]; unfold small_queries in *; cbn [filter length].
  - apply Nat.leb_gt in H. rewrite H. specialize (L queries). unfold small_queries in L. lia.
  - destruct (length q <=? 16); cbn [length]; lia.
Qed.

Lemma rows_short : forall (P : list N -> N * list N * N -> Prop) queries rows, Exists (fun q => 16 < length q) queries ->
  Forall2 P (small_queries queries) rows -> length rows < length queries.
Proof.
  intros P queries rows H F. apply small_shorter in H.
  assert (E : length (small_queries queries) = length rows) by (clear H; induction F; cbn [length]; congruence). lia.
Qed.

Theorem table_too_short :
  forall fm prog input ss prog' log qs (fs : files) one u lists text queries hc sched time,
  formats_ok fm -> collection_ok one u lists -> (2 <= u)%N -> (forall n, field (time n)) ->
  fs input = Some (collection_file one u lists) -> fs log = Some text -> log_of text queries ->
  Forall build_setting ss -> Forall the_query_setting qs ->
  let out := last_of out_of [] ss in
  let runs := last_of runs_of false ss in
  let levelwise := last_of levelwise_of false ss in
  let rank_type := last_of rank_of 0%N ss in
  let block := last_of block_of 512%N ss in
  let kept := kept_lists (last_of min_of 0%N ss) (last_of max_of (2 ^ 64 - 1)%N ss) lists in
  let table := last_of q_out_of [] qs in
  ~ In out ([] :: input :: log :: table :: query_names) ->
  ~ In log (table :: query_names) -> table <> [] ->
  loadable_options rank_type block levelwise ->
  Forall (stored_ok u (built_variant rank_type levelwise) runs) kept ->
  exact_mode u runs (last_of parallel_of true qs) hc sched kept ->
  Forall (query_ok kept) queries -> Forall (Forall (fun i => i < 2 ^ 31)%N) queries ->
  Exists (fun q => 16 < length q) queries ->
  exists fs' r fs'' rs,
    build_tries_main fm (prog :: input :: written_all ss) fs = Ok (Some (fs', Some r)) /\
    query_main fm sched hc time (prog' :: out :: log :: q_written_all qs) fs' = Ok (fs'', Some rs) /\
    exists lines rows, fs'' table = Some lines /\ table_of lines rows /\ length rows < length queries.
Proof.
  intros fm prog input ss prog' log qs fs one u lists text queries hc sched time FM C U TM I G T FS FQ
    out runs levelwise rank_type block kept table NO NL TN LO ST EX QO QB X.
  destruct (table_written fm prog input ss prog' log qs fs one u lists text queries hc sched time)
    as (fs' & r & fs'' & rs & H1 & H2 & _ & lines & rows & H3 & H4 & H5 & _); auto.
  exists fs', r, fs'', rs. do 2 (split; [assumption|]). exists lines, rows. do 2 (split; [assumption|]).
  eapply rows_short; eauto.
Qed.

(** A text has one reading only. *)
Lemma split_at : forall (c : N) a b x y, Forall (fun d => d <> c) a -> Forall (fun d => d <> c) b ->
  a ++ c :: x = b ++ c :: y -> a = b /\ x = y.
Proof.
  intros c a. induction a as [|d a IH]; intros [|e b] x y A B E; cbn [app] in E.
  - injection E as <-. auto.
  - injection E as -> _. inversion B; congruence.
  - injection E as -> _. inversion A; congruence.
  - injection E as -> E. inversion A; inversion B; subst. destruct (IH _ _ _ H2 H6 E) as (-> & ->). auto.
Qed.

Lemma decimal_no : forall c w, decimal w -> ~ (48 <= c <= 57)%N -> Forall (fun d => d <> c) w.
Proof. intros c w (_ & D) N0. eapply Forall_impl; [|exact D]. intros d R ->. auto. Qed.

Lemma rows_unique : forall text rows, rows_of text rows -> forall rows', rows_of text rows' -> rows = rows'.
Proof.
  intros text rows H. induction H as [|ids time values text rows D T V R IH]; intros rows' H'.
  - inversion H' as [|ids' ? ? ? ? D']; auto. destruct ids'; [destruct D'; congruence|discriminate].
  - inversion H' as [E|ids' time' values' text' rows'' D' T' V' R' E]; subst.
    + exfalso. destruct ids; [destruct D; congruence|discriminate].
    + apply split_at in E; [|apply decimal_no; [assumption|lia]..]. destruct E as (-> & E).
      apply split_at in E; [|eapply Forall_impl; [|eassumption]; cbn; tauto..]. destruct E as (-> & E).
      apply split_at in E; [|apply decimal_no; [assumption|unfold newline; lia]..]. destruct E as (-> & ->).
      f_equal. apply IH, R'.
Qed.

Theorem table_unique : forall text rows rows', table_of text rows -> table_of text rows' -> rows = rows'.
Proof.
  intros text rows rows' (l & R & E) (l' & R' & E'). rewrite E in E'. apply app_inv_head in E'. injection E' as ->.
  eapply rows_unique; eauto.
Qed.

(** --out over the log: its first line is read as a query, and the tool stops. *)
Theorem table_over_log : forall fm sched hc time prog sequences log qs fs file ts,
  Forall the_query_setting qs -> last_of q_out_of [] qs = log -> log <> [] -> log <> sequences ->
  ~ In sequences query_names -> ~ In log query_names ->
  fs sequences = Some file -> load_collection fm file = Ok ts ->
  exists fs', query_main fm sched hc time (prog :: sequences :: log :: q_written_all qs) fs = Ok (fs', None) /\
    (forall n, n <> log -> fs' n = fs n) /\ fs' log = Some table_header.
Proof.
  intros fm sched hc time prog sequences log qs fs file ts F O L0 L1 NS NL E L.
  unfold query_main. cbn [length Nat.ltb Nat.leb arg nth_error bind].
  rewrite query_options_last by auto. cbn [bind q_out q_parallel]. rewrite O.
  rewrite (text_eqb_neq log sequences) by auto. rewrite andb_false_r. cbv zeta.
  rewrite write_out_other by auto. rewrite E, L. cbn [bind].
  assert (W : write_out log table_header fs log = Some table_header).
  { unfold write_out. destruct log; [congruence|]. apply set_file_same. }
  rewrite W. exists (write_out log table_header fs). split; [reflexivity|]. split; [|exact W].
  intros n D. apply write_out_other, D.
Qed.
