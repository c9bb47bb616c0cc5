(** Scripts answer their queries. *)

From Verif Require Import Base FastTrie ParallelFor Serialize Tools Cli Script Spec SpecTries SpecFiles SpecTools SpecText TextThms Text
  Table SpecCli SpecAnswers SpecScript Report Facts ToolsThms FastToolsThms ToolsExact InterExact ReportThms CliThms CliTools.

Section Run.
  Variables (fm : formats) (FM : formats_ok fm).

  (** What is in the files that were built. *)
  Definition holds (b : built) (bytes : list N) : Prop :=
    match b with
    | BinFile u lists ss =>
      build_good u lists ss /\ exists one, collection_ok one u lists /\
      build_tries fm (last_of min_of 0%N ss) (last_of max_of (2 ^ 64 - 1)%N ss) (last_of rank_of 0%N ss)
        (last_of block_of 512%N ss) (last_of runs_of false ss) (last_of levelwise_of false ss)
        (collection_file one u lists) = Ok bytes
    | FastFile u lists ss =>
      build_fast_good u lists ss /\ exists one junk, collection_ok one u lists /\ junk_ok junk /\
      build_fast_tries fm junk (last_of min_of 0%N ss) (last_of max_of (2 ^ 64 - 1)%N ss) (last_of rank_of 0%N ss)
        (last_of runs_of false ss) (last_of levelwise_of false ss) (word_log (last_of wsize_of 64%N ss))
        (collection_file one u lists) = Ok bytes
    end.

  Definition keeps (sh : shelf) (k : list N -> option built) (fs : files) : Prop :=
    forall n b, k n = Some b -> free sh n /\ exists bytes, fs n = Some bytes /\ holds b bytes.

  Lemma on_shelf_set : forall sh n bytes fs, free sh n -> on_shelf sh fs -> on_shelf sh (set_file n bytes fs).
  Proof.
    intros sh n bytes fs (_ & F1 & F2) (C & L). split.
    - intros m one u lists E. rewrite set_file_other by congruence. eauto.
    - intros m qs E. rewrite set_file_other by congruence. eauto.
  Qed.

  Lemma keeps_set : forall sh k n b bytes fs, free sh n -> holds b bytes -> keeps sh k fs ->
    keeps sh (put n (Some b) k) (set_file n bytes fs).
  Proof.
    intros sh k n b bytes fs F H K m c E. unfold put in E. destruct (list_eq_dec N.eq_dec m n) as [->|D].
    - injection E as <-. split; auto. exists bytes. rewrite set_file_same. auto.
    - rewrite set_file_other by auto. auto.
  Qed.

  Lemma keeps_other : forall sh k n bytes fs, keeps sh k fs -> keeps sh (put n None k) (set_file n bytes fs).
  Proof.
    intros sh k n bytes fs K m c E. unfold put in E. destruct (list_eq_dec N.eq_dec m n) as [->|D]; [discriminate|].
    rewrite set_file_other by auto. auto.
  Qed.

  Lemma keeps_less : forall sh k n fs, keeps sh k fs -> keeps sh (put n None k) fs.
  Proof.
    intros sh k n fs K m c E. unfold put in E. destruct (list_eq_dec N.eq_dec m n) as [->|D]; [discriminate|]. auto.
  Qed.

  Lemma keeps_out : forall sh k out t1 t2 fs, keeps sh k fs ->
    keeps sh (put out None k) (write_out out t2 (write_out out t1 fs)).
  Proof.
    intros sh k out t1 t2 fs K0. unfold write_out. destruct out eqn:EO; [apply keeps_less; auto|].
    intros m c Em. destruct (list_eq_dec N.eq_dec m (n :: l)) as [->|D].
    - unfold put in Em. destruct (list_eq_dec N.eq_dec (n :: l) (n :: l)); congruence.
    - rewrite !set_file_other by auto. apply K0. unfold put in Em.
      destruct (list_eq_dec N.eq_dec m (n :: l)); congruence.
  Qed.

  Lemma rank_small : forall ss, (last_of rank_of 0 ss < 2 ^ 32)%N.
  Proof.
    intros ss. apply (last_of_in _ _ rank_of ss 0%N (fun r => r < 2 ^ 32)%N); [reflexivity|].
    intros [] x _; cbn; intros Q; inversion Q; reflexivity.
  Qed.

  Lemma build_line : forall prog input ss one u lists fs,
    collection_ok one u lists -> fs input = Some (collection_file one u lists) -> build_good u lists ss ->
    last_of out_of [] ss <> [] -> last_of out_of [] ss <> input ->
    exists bytes r, holds (BinFile u lists ss) bytes /\
      build_tries_main fm (prog :: input :: written_all ss) fs
      = Ok (Some (set_file (last_of out_of [] ss) bytes fs, Some r)).
  Proof.
    intros prog input ss one u lists fs C I G N0 N1. assert (G' := G). destruct G' as (U & FS & LO & ST).
    destruct (end_to_end fm (last_of min_of 0%N ss) (last_of max_of (2 ^ 64 - 1)%N ss) (last_of rank_of 0%N ss)
                (last_of block_of 512%N ss) (last_of runs_of false ss) (last_of levelwise_of false ss)
                one u lists 1%N false (fun _ _ => (ParForThms.in_order, ParForThms.in_order)) [])
      as (file & rs & B & _ & _); auto.
    { split; [reflexivity|]. discriminate. }
    destruct (tries_reported _ _ _ _ _ _ _ _ _ _ _ C B) as (r & R).
    exists file, r. split.
    { split; [exact G|]. exists one. auto. }
    unfold build_tries_main. cbn [arg nth_error bind]. rewrite build_options_last by auto. cbn [bindo].
    cbn [b_out b_min b_max b_rank b_block b_runs b_levelwise].
    apply build_to_ok with (1 := I); auto.
  Qed.

  Lemma fast_build_line : forall junk prog input ss one u lists fs,
    collection_ok one u lists -> fs input = Some (collection_file one u lists) -> build_fast_good u lists ss ->
    junk_ok junk -> last_of out_of [] ss <> [] -> last_of out_of [] ss <> input ->
    exists bytes r, holds (FastFile u lists ss) bytes /\
      build_fast_main fm junk (prog :: input :: written_all ss) fs
      = Ok (Some (set_file (last_of out_of [] ss) bytes fs, Some r)).
  Proof.
    intros junk prog input ss one u lists fs C I G J N0 N1. assert (G' := G).
    destruct G' as (SS & FS & W & U & R1 & ST).
    destruct (fast_collection fm junk (last_of min_of 0%N ss) (last_of max_of (2 ^ 64 - 1)%N ss)
                (last_of rank_of 0%N ss) (last_of runs_of false ss) (last_of levelwise_of false ss)
                (word_log (last_of wsize_of 64%N ss)) one u lists
                (fun lw => fast_default lw 0 0 None false None) [[0]]%N)
      as (file & rest & ts & tries & B & _); auto using rank_small.
    { intros lw. split; reflexivity. }
    { discriminate. }
    destruct (fast_tries_reported _ _ _ _ _ _ _ _ _ _ _ _ C B) as (r & R).
    exists file, r. split.
    { split; [exact G|]. exists one, junk. auto. }
    unfold build_fast_main.
    assert (L : length (prog :: input :: written_all ss) <? 3 = false).
    { apply Nat.ltb_ge. assert (S0 := settings_count written written_nonempty ss).
      fold (written_all ss) in S0. destruct ss; [congruence|]. cbn [length] in *. lia. }
    rewrite L. cbn [arg nth_error bind]. rewrite fast_build_options_last by auto. cbn [bindo].
    cbn [b_out b_min b_max b_rank b_runs b_levelwise b_wsize].
    replace (existsb (N.eqb (last_of wsize_of 64%N ss)) [64; 32; 16; 8]%N) with true.
    2:{ cbn [In] in W. set (w := last_of wsize_of 64%N ss) in *. clearbody w. intuition subst; reflexivity. }
    apply build_to_ok with (1 := I); auto.
  Qed.

  (** A line that queries what was built gets what the query tool finds. *)
  Lemma query_any : forall sched hc time prog file log qs bytes text queries (fs : files) rs,
    fs file = Some bytes -> fs log = Some text -> log_of text queries ->
    Forall the_query_setting qs -> ~ In file query_names -> ~ In log query_names ->
    last_of q_out_of [] qs <> file -> last_of q_out_of [] qs = [] \/ last_of q_out_of [] qs <> log ->
    Forall (Forall (fun i => i < 2 ^ 31)%N) queries ->
    query_log fm sched hc (last_of parallel_of true qs) bytes queries = Ok rs ->
    query_main fm sched hc time (prog :: file :: log :: q_written_all qs) fs
    = Ok (write_out (last_of q_out_of [] qs) (table_header ++ table_rows time 0 (combine queries rs))
            (write_out (last_of q_out_of [] qs) table_header fs), Some rs).
  Proof.
    intros sched hc time prog file log qs bytes text queries fs rs F G T FQ NF NL N1 N2 QB Q.
    set (qout := last_of q_out_of [] qs) in *.
    unfold query_main. cbn [length Nat.ltb Nat.leb arg nth_error bind].
    rewrite query_options_last by auto. cbn [bind q_out q_parallel].
    fold qout. rewrite (text_eqb_neq qout file) by auto. rewrite andb_false_r. cbv zeta.
    rewrite write_out_other by auto. rewrite F.
    assert (L := Q). unfold query_log in L. apply bind_inv in L. destruct L as ((r0, ts) & L & _).
    rewrite L. cbn [bind].
    assert (W : write_out qout table_header fs log = fs log).
    { destruct N2 as [N2|N2]; [rewrite N2; reflexivity|apply write_out_other; auto]. }
    rewrite W, G, (query_log_loaded _ _ T) by auto. rewrite Q. reflexivity.
  Qed.

  Lemma query_found : forall sched hc qs u lists ss bytes queries,
    holds (BinFile u lists ss) bytes ->
    exact_mode u (last_of runs_of false ss) (last_of parallel_of true qs) hc sched (kept_by ss lists) ->
    Forall (query_ok (kept_by ss lists)) queries ->
    exists rs, query_log fm sched hc (last_of parallel_of true qs) bytes queries = Ok rs /\
      Forall2 (answers (kept_by ss lists)) queries rs.
  Proof.
    intros sched hc qs u lists ss bytes queries ((U & FS & LO & ST) & one & C & B) EX QO.
    destruct (end_to_end fm (last_of min_of 0%N ss) (last_of max_of (2 ^ 64 - 1)%N ss) (last_of rank_of 0%N ss)
                (last_of block_of 512%N ss) (last_of runs_of false ss) (last_of levelwise_of false ss)
                one u lists hc (last_of parallel_of true qs) sched queries)
      as (file' & rs & B' & Q & A); auto.
    rewrite B in B'. injection B' as <-. eauto.
  Qed.

  Lemma query_runs_found : forall sched hc qs u lists ss bytes queries,
    holds (BinFile u lists ss) bytes ->
    runs_mode (last_of runs_of false ss) (last_of parallel_of true qs) hc sched -> (3 <= u)%N ->
    Forall (query_ok (kept_by ss lists)) queries ->
    exists rs, query_log fm sched hc (last_of parallel_of true qs) bytes queries = Ok rs /\
      Forall2 (runs_answer 4 u hc (kept_by ss lists)) queries rs.
  Proof.
    intros sched hc qs u lists ss bytes queries ((U & FS & LO & ST) & one & C & B) (ER & EP & Hhc & V) U3 QO.
    rewrite ER in B, ST. rewrite EP.
    destruct (end_to_end_exact fm (last_of min_of 0%N ss) (last_of max_of (2 ^ 64 - 1)%N ss) (last_of rank_of 0%N ss)
                (last_of block_of 512%N ss) (last_of levelwise_of false ss) one u lists hc sched queries)
      as (file' & rs & B' & Q & A); auto.
    rewrite B in B'. injection B' as <-. eauto.
  Qed.

  Lemma fast_query_any : forall blank sched hc prog file log qs bytes text queries (fs : files) rs,
    fs file = Some bytes -> fs log = Some text -> log_of text queries ->
    Forall fast_query_setting qs -> ~ In file fast_query_names -> ~ In log fast_query_names ->
    Forall (Forall (fun i => i < 2 ^ 64)%N) queries ->
    fast_query_log fm blank sched hc (last_of parallel_of false qs) bytes queries = Ok rs ->
    fast_query_main fm blank sched hc (prog :: file :: log :: q_written_all qs) fs = Ok (Some rs).
  Proof.
    intros blank sched hc prog file log qs bytes text queries fs rs F G T FQ NF NL QB Q.
    unfold fast_query_main. cbn [length Nat.ltb Nat.leb].
    rewrite fast_query_options_last by auto. cbn [bindo q_parallel arg nth_error bind].
    rewrite G, (fast_query_log_loaded _ _ T) by auto. rewrite F. cbn [oget bind]. rewrite Q. reflexivity.
  Qed.

  Lemma fast_ids_small : forall one u lists ss queries, collection_ok one u lists ->
    Forall (query_ok (kept_by ss lists)) queries -> Forall (Forall (fun i => i < 2 ^ 64)%N) queries.
  Proof.
    intros one u lists ss queries C QO.
    apply Forall_forall. intros q Iq. rewrite Forall_forall in QO. destruct (QO _ Iq) as (_ & QF).
    eapply Forall_impl; [|exact QF]. intros i Li. cbv beta in *.
    destruct C as (_ & _ & C3 & _).
    assert (K : length (kept_by ss lists) <= length lists) by apply kept_length.
    apply N.lt_trans with (2 ^ 32)%N; [|reflexivity]. lia.
  Qed.

  Lemma fast_query_found : forall blank sched hc qs u lists ss bytes queries,
    holds (FastFile u lists ss) bytes -> blank_ok blank ->
    fast_exact_mode u (word_log (last_of wsize_of 64%N ss)) (last_of runs_of false ss)
      (last_of parallel_of false qs) hc sched (kept_by ss lists) ->
    queries <> [] -> Forall (query_ok (kept_by ss lists)) queries ->
    exists rs, fast_query_log fm blank sched hc (last_of parallel_of false qs) bytes queries = Ok rs /\
      Forall2 (answers (kept_by ss lists)) queries rs.
  Proof.
    intros blank sched hc qs u lists ss bytes queries
      ((SS & FS & W & U & R1 & ST) & one & junk & C & J & B) BL EX Q0 QO.
    destruct (fast_end_to_end fm junk (last_of min_of 0%N ss) (last_of max_of (2 ^ 64 - 1)%N ss)
                (last_of rank_of 0%N ss) (last_of runs_of false ss) (last_of levelwise_of false ss)
                (word_log (last_of wsize_of 64%N ss)) one u lists blank
                hc (last_of parallel_of false qs) sched queries)
      as (file' & rs & B' & Q & A); auto using rank_small.
    rewrite B in B'. injection B' as <-. eauto.
  Qed.

  Lemma word_values : forall w, In w [8; 16; 32; 64]%N -> (2 ^ N.of_nat (word_log w))%N = w.
  Proof. intros w W. cbn [In] in W. intuition subst; reflexivity. Qed.

  Lemma fast_query_runs_found : forall blank sched hc qs u lists ss bytes queries,
    holds (FastFile u lists ss) bytes -> blank_ok blank ->
    runs_mode (last_of runs_of false ss) (last_of parallel_of false qs) hc sched ->
    (last_of wsize_of 64 ss < u)%N -> queries <> [] -> Forall (query_ok (kept_by ss lists)) queries ->
    exists rs, fast_query_log fm blank sched hc (last_of parallel_of false qs) bytes queries = Ok rs /\
      Forall2 (runs_answer (2 * last_of wsize_of 64%N ss) u hc (kept_by ss lists)) queries rs.
  Proof.
    intros blank sched hc qs u lists ss bytes queries
      ((SS & FS & W & U & R1 & ST) & one & junk & C & J & B) BL (ER & EP & Hhc & V) U3 Q0 QO.
    rewrite ER in B. rewrite EP. assert (E := word_values _ W).
    destruct (fast_end_to_end_exact fm junk (last_of min_of 0%N ss) (last_of max_of (2 ^ 64 - 1)%N ss)
                (last_of rank_of 0%N ss) (last_of levelwise_of false ss)
                (word_log (last_of wsize_of 64%N ss)) one u lists blank hc sched queries)
      as (file' & rs & B' & Q & A); auto using rank_small.
    { rewrite E. exact U3. }
    rewrite B in B'. injection B' as <-. rewrite E in A. eauto.
  Qed.

  Theorem script_answers : forall sh hc ch i k cs es fs,
    on_shelf sh fs -> keeps sh k fs -> script_ok sh hc ch i k cs es ->
    exists fs' as_, run_script fm hc ch i cs fs = Ok (fs', as_) /\ Forall2 meets es as_ /\ on_shelf sh fs'.
  Proof.
    intros sh hc ch i k cs es fs S0 K0 H. revert fs S0 K0.
    induction H as [i k|i k cs es prog input ss one u lists E G F H IH
                   |i k cs es prog input ss one u lists E G J F H IH
                   |i k cs es prog file log qs u lists ss queries E L FQ NF NL QO ND EX Q1 Q2 H IH
                   |i k cs es prog file log qs u lists ss queries E L FQ NF NL BL EX Q0 Q1 H IH
                   |i k cs es prog file log qs u lists ss queries E L FQ NF NL QO ND EX U3 Q1 Q2 H IH
                   |i k cs es prog file log qs u lists ss queries E L FQ NF NL BL EX U3 Q0 Q1 H IH];
      intros fs S0 K0; cbn [run_script run_command].
    - exists fs, []. auto.
    - destruct (proj1 S0 _ _ _ _ E) as (C & I). destruct F as (F0 & F1 & F2) eqn:EF. clear EF.
      destruct (build_line prog input ss one u lists fs C I G F0 ltac:(congruence)) as (bytes & r & B1 & B2).
      rewrite B2. cbn [bind].
      destruct (IH (set_file (last_of out_of [] ss) bytes fs)) as (fs' & rest & R1 & R2 & R3).
      { apply on_shelf_set; [repeat split; auto|auto]. }
      { apply keeps_set; [repeat split; auto|auto|auto]. }
      rewrite R1. cbn [bind]. exists fs', (None :: rest). split; [auto|]. split; [constructor; cbn; auto|auto].
    - destruct (proj1 S0 _ _ _ _ E) as (C & I). destruct F as (F0 & F1 & F2) eqn:EF. clear EF.
      destruct (fast_build_line (c_junk ch i) prog input ss one u lists fs C I G J F0 ltac:(congruence))
        as (bytes & r & B1 & B2).
      rewrite B2. cbn [bind].
      destruct (IH (set_file (last_of out_of [] ss) bytes fs)) as (fs' & rest & R1 & R2 & R3).
      { apply on_shelf_set; [repeat split; auto|auto]. }
      { apply keeps_set; [repeat split; auto|auto|auto]. }
      rewrite R1. cbn [bind]. exists fs', (None :: rest). split; [auto|]. split; [constructor; cbn; auto|auto].
    - destruct (K0 _ _ E) as (FF & bytes & B1 & B2). destruct (proj2 S0 _ _ L) as (text & G & T).
      destruct (query_found (c_sched ch i) hc qs u lists ss bytes queries) as (rs & FR & A); auto.
      rewrite (query_any (c_sched ch i) hc (c_time ch i) prog file log qs bytes text queries fs rs); auto.
      2:{ destruct QO as [Q|(_ & _ & Q)]; [auto|right; congruence]. }
      cbn [bind]. set (out := last_of q_out_of [] qs) in *.
      set (t1 := table_header). set (t2 := t1 ++ table_rows _ 0 _).
      destruct (IH (write_out out t2 (write_out out t1 fs))) as (fs' & rest & R1 & R2 & R3).
      { destruct QO as [Q|Q]; unfold write_out; [rewrite Q; auto|]. destruct out; [auto|]. auto using on_shelf_set. }
      { apply keeps_out. auto. }
      rewrite R1. cbn [bind]. exists fs', (Some rs :: rest). split; [auto|]. split; [constructor; cbn; auto|auto].
    - destruct (K0 _ _ E) as (FF & bytes & B1 & B2). destruct (proj2 S0 _ _ L) as (text & G & T).
      destruct (fast_query_found (c_blank ch i) (c_sched ch i) hc qs u lists ss bytes queries) as (rs & FR & A); auto.
      assert (SM : Forall (Forall (fun i => i < 2 ^ 64)%N) queries).
      { destruct B2 as (_ & one & junk & C & _). eapply fast_ids_small; eauto. }
      rewrite (fast_query_any (c_blank ch i) (c_sched ch i) hc prog file log qs bytes text queries fs rs) by auto.
      cbn [bind].
      destruct (IH fs S0 K0) as (fs' & rest & R1 & R2 & R3).
      rewrite R1. cbn [bind]. exists fs', (Some rs :: rest). split; [auto|]. split; [constructor; cbn; auto|auto].
    - destruct (K0 _ _ E) as (FF & bytes & B1 & B2). destruct (proj2 S0 _ _ L) as (text & G & T).
      destruct (query_runs_found (c_sched ch i) hc qs u lists ss bytes queries) as (rs & FR & A); auto.
      rewrite (query_any (c_sched ch i) hc (c_time ch i) prog file log qs bytes text queries fs rs); auto.
      2:{ destruct QO as [Q|(_ & _ & Q)]; [auto|right; congruence]. }
      cbn [bind]. set (out := last_of q_out_of [] qs) in *.
      set (t1 := table_header). set (t2 := t1 ++ table_rows _ 0 _).
      destruct (IH (write_out out t2 (write_out out t1 fs))) as (fs' & rest & R1 & R2 & R3).
      { destruct QO as [Q|Q]; unfold write_out; [rewrite Q; auto|]. destruct out; [auto|]. auto using on_shelf_set. }
      { apply keeps_out. auto. }
      rewrite R1. cbn [bind]. exists fs', (Some rs :: rest). split; [auto|]. split; [constructor; cbn; auto|auto].
    - destruct (K0 _ _ E) as (FF & bytes & B1 & B2). destruct (proj2 S0 _ _ L) as (text & G & T).
      destruct (fast_query_runs_found (c_blank ch i) (c_sched ch i) hc qs u lists ss bytes queries) as (rs & FR & A); auto.
      assert (SM : Forall (Forall (fun i => i < 2 ^ 64)%N) queries).
      { destruct B2 as (_ & one & junk & C & _). eapply fast_ids_small; eauto. }
      rewrite (fast_query_any (c_blank ch i) (c_sched ch i) hc prog file log qs bytes text queries fs rs) by auto.
      cbn [bind].
      destruct (IH fs S0 K0) as (fs' & rest & R1 & R2 & R3).
      rewrite R1. cbn [bind]. exists fs', (Some rs :: rest). split; [auto|]. split; [constructor; cbn; auto|auto].
  Qed.
End Run.

Lemma keeps_nothing : forall fm sh fs, keeps fm sh (fun _ => None) fs.
Proof. intros fm sh fs n b E. discriminate. Qed.

Theorem script_all : forall fm sh hc ch cs es fs, formats_ok fm -> on_shelf sh fs ->
  script_ok sh hc ch 0 (fun _ => None) cs es ->
  exists fs' outs, run_script fm hc ch 0 cs fs = Ok (fs', outs) /\ Forall2 meets es outs /\ on_shelf sh fs'.
Proof. intros. eapply script_answers; eauto using keeps_nothing. Qed.

Lemma answers_unique : forall kept q a b, answers kept q a -> answers kept q b -> a = b.
Proof.
  intros kept q [r|] [r'|]; cbn [answers]; intros A B; try lia; auto.
  f_equal. destruct A as (_ & A), B as (_ & B). eapply InterLaws.inter_unique; eauto. tauto.
Qed.

Lemma runs_answer_unique : forall low u hc kept q a b,
  runs_answer low u hc kept q a -> runs_answer low u hc kept q b -> a = b.
Proof.
  intros low u hc kept q [r|] [r'|]; cbn [runs_answer]; intros A B; try lia; auto.
  f_equal. destruct A as (_ & A1 & A2), B as (_ & B1 & B2).
  destruct (N.le_gt_cases (low * 2 ^ N.log2 hc) (rounded u)) as [H|H].
  - eapply outcome_unique; eauto.
  - eapply InterLaws.inter_unique; eauto. tauto.
Qed.

Lemma all_unique : forall A B (P : A -> B -> Prop) qs a b, (forall q x y, P q x -> P q y -> x = y) ->
  Forall2 P qs a -> Forall2 P qs b -> a = b.
Proof.
  intros A B P qs a b U F. revert b. induction F as [|q x qs a H F IH]; intros b G; inversion G; subst; auto.
  f_equal; eauto.
Qed.

Lemma meets_unique : forall e a b, meets e a -> meets e b -> a = b.
Proof.
  intros [|kept qs|low u hc kept qs] [a|] [b|]; cbn [meets]; intros A B; try contradiction; auto; f_equal.
  - eapply all_unique; eauto using answers_unique.
  - eapply all_unique; eauto using runs_answer_unique.
Qed.

Lemma Forall2_nth : forall A B (P : A -> B -> Prop) l l' i x, Forall2 P l l' -> nth_error l i = Some x ->
  exists y, nth_error l' i = Some y /\ P x y.
Proof.
  intros A B P l l' i x F. revert i. induction F as [|a b l l' H F IH]; intros [|i] E; try discriminate; cbn in *.
  - injection E as <-. eauto.
  - auto.
Qed.

Theorem script_alike : forall fm sh hc ch hc' ch' cs cs' es es' fs fs1 fs2 outs outs' i j e,
  formats_ok fm -> on_shelf sh fs ->
  script_ok sh hc ch 0 (fun _ => None) cs es -> script_ok sh hc' ch' 0 (fun _ => None) cs' es' ->
  run_script fm hc ch 0 cs fs = Ok (fs1, outs) -> run_script fm hc' ch' 0 cs' fs = Ok (fs2, outs') ->
  nth_error es i = Some e -> nth_error es' j = Some e ->
  nth_error outs i = nth_error outs' j.
Proof.
  intros fm sh hc ch hc' ch' cs cs' es es' fs fs1 fs2 outs outs' i j e FM S0 O1 O2 R1 R2 E1 E2.
  destruct (script_all fm sh hc ch cs es fs FM S0 O1) as (f1 & o1 & Q1 & M1 & _).
  destruct (script_all fm sh hc' ch' cs' es' fs FM S0 O2) as (f2 & o2 & Q2 & M2 & _).
  rewrite R1 in Q1. injection Q1 as <- <-. rewrite R2 in Q2. injection Q2 as <- <-.
  destruct (Forall2_nth _ _ _ _ _ _ _ M1 E1) as (a & -> & A). destruct (Forall2_nth _ _ _ _ _ _ _ M2 E2) as (b & -> & B).
  f_equal. eapply meets_unique; eauto.
Qed.
