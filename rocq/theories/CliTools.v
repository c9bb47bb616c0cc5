(** Proofs about the main functions: missing and wrong values, and the whole way from the
    command lines to the answers. *)

From Coq Require Import String.
From Verif Require Import Base Facts FlatTrie LevelTrie FastTrie ParallelFor Intersection Tries Serialize
  Tools Text Spec SpecTries SpecFiles SpecTools ToolsThms FastToolsThms SpecText TextThms Report ReportThms Table Cli SpecCli CliThms.

(** * Missing values *)

Lemma number_arg_end : forall O argv set (o : O), number_arg argv set (length argv) o = UB NullDeref.
Proof. intros. unfold number_arg. rewrite arg_end. reflexivity. Qed.

Lemma text_arg_end : forall O argv set (o : O), text_arg argv set (length argv) o = UB NullDeref.
Proof. intros. unfold text_arg. rewrite arg_end. reflexivity. Qed.

Lemma bool_arg_end : forall O argv set (o : O), bool_arg argv set (length argv) o = UB NullDeref.
Proof. intros. unfold bool_arg. rewrite arg_end. reflexivity. Qed.

Lemma atoi_arg_end : forall O argv bits set (o : O), atoi_arg argv bits set (length argv) o = UB NullDeref.
Proof. intros. unfold atoi_arg. rewrite arg_end. reflexivity. Qed.

Lemma rank_arg_end : forall argv o, rank_arg argv (length argv) o = UB NullDeref.
Proof. intros. unfold rank_arg. rewrite arg_end. reflexivity. Qed.

Ltac at_end :=
  first [ rewrite number_arg_end | rewrite text_arg_end | rewrite bool_arg_end
        | rewrite atoi_arg_end | rewrite rank_arg_end ]; reflexivity.

Lemma last_arg : forall (argv pre : list (list N)) name, argv = pre ++ [name] ->
  nth_error argv (length pre) = Some name /\ S (length pre) = length argv.
Proof.
  intros argv pre name ->. split; [apply nth_app_0|]. rewrite app_length. cbn. lia.
Qed.

Lemma build_step_end : forall argv pre name o, argv = pre ++ [name] -> In name build_names ->
  build_step argv (length pre, o) = UB NullDeref.
Proof.
  intros argv pre name o E I. apply last_arg in E. destruct E as (E0 & E1).
  unfold build_names in I. cbn [map In] in I. unfold build_step.
  repeat destruct I as [I|I]; try (destruct I; fail); subst name; repeat miss E0; hit E0; rewrite E1; at_end.
Qed.

Theorem build_missing_value : forall prog input ss name, Forall build_setting ss -> In name build_names ->
  build_options (prog :: input :: written_all ss ++ [name]) = UB NullDeref.
Proof.
  intros prog input ss name F I. unfold build_options.
  assert (E : prog :: input :: written_all ss ++ [name]
              = [prog; input] ++ concat (map written ss) ++ [name]) by reflexivity.
  destruct (loop_next _ _ _ _ _ written_nonempty (build_step_ok _) ss [prog; input] [name]
              build_defaults E F) as (fuel & R); [discriminate|].
  cbn [length] in R. cbn [length]. rewrite R. rewrite app_assoc in E.
  rewrite (build_step_end _ _ _ _ E I). reflexivity.
Qed.

Lemma fast_build_step_end : forall argv pre name o, argv = pre ++ [name] -> In name fast_build_valued ->
  fast_build_step argv (length pre, o) = UB NullDeref.
Proof.
  intros argv pre name o E I. apply last_arg in E. destruct E as (E0 & E1).
  unfold fast_build_valued in I. cbn [map In] in I. unfold fast_build_step.
  repeat destruct I as [I|I]; try (destruct I; fail); subst name; repeat miss E0; hit E0; rewrite E1; at_end.
Qed.

Theorem fast_build_missing_value : forall prog input ss name, Forall fast_build_setting ss ->
  In name fast_build_valued ->
  fast_build_options (prog :: input :: written_all ss ++ [name]) = UB NullDeref.
Proof.
  intros prog input ss name F I. unfold fast_build_options.
  assert (E : prog :: input :: written_all ss ++ [name]
              = [prog; input] ++ concat (map written ss) ++ [name]) by reflexivity.
  destruct (loop_next _ _ _ _ _ written_nonempty (fast_build_step_ok _) ss [prog; input] [name]
              build_defaults E F) as (fuel & R); [discriminate|].
  cbn [length] in R. cbn [length]. rewrite R. rewrite app_assoc in E.
  rewrite (fast_build_step_end _ _ _ _ E I). reflexivity.
Qed.

Lemma query_step_end : forall argv pre name o, argv = pre ++ [name] -> In name query_names ->
  query_step argv (length pre, o) = UB NullDeref.
Proof.
  intros argv pre name o E I. apply last_arg in E. destruct E as (E0 & E1).
  unfold query_names in I. cbn [map In] in I. unfold query_step.
  repeat destruct I as [I|I]; try (destruct I; fail); subst name; repeat miss E0; hit E0; rewrite E1; at_end.
Qed.

Theorem query_missing_value : forall prog sequences log ss name,
  ~ In sequences query_names -> ~ In log query_names -> Forall the_query_setting ss ->
  In name query_names ->
  query_options (prog :: sequences :: log :: q_written_all ss ++ [name]) = UB NullDeref.
Proof.
  intros prog sequences log ss name A B F I. unfold query_options.
  assert (E : prog :: sequences :: log :: q_written_all ss ++ [name]
              = [prog] ++ concat (map q_written (QIgnored sequences :: QIgnored log :: ss)) ++ [name])
    by reflexivity.
  assert (F' : Forall the_query_setting (QIgnored sequences :: QIgnored log :: ss)) by auto.
  destruct (loop_next _ _ _ _ _ q_written_nonempty (query_step_ok _) _ [prog] [name]
              (mkQueryOpts [] false true) E F') as (fuel & R); [discriminate|].
  cbn [length] in R. cbn [length]. rewrite R. rewrite app_assoc in E.
  rewrite (query_step_end _ _ _ _ E I). reflexivity.
Qed.

Lemma fast_query_step_end : forall argv pre o, argv = pre ++ [txt "--parallel"] ->
  fast_query_step argv (length pre, o) = UB NullDeref.
Proof.
  intros argv pre o E. apply last_arg in E. destruct E as (E0 & E1).
  unfold fast_query_step. miss E0. hit E0. rewrite E1. at_end.
Qed.

Theorem fast_query_missing_value : forall prog sequences log ss,
  ~ In sequences fast_query_names -> ~ In log fast_query_names -> Forall fast_query_setting ss ->
  fast_query_options (prog :: sequences :: log :: q_written_all ss ++ [txt "--parallel"]) = UB NullDeref.
Proof.
  intros prog sequences log ss A B F. unfold fast_query_options.
  assert (E : prog :: sequences :: log :: q_written_all ss ++ [txt "--parallel"]
              = [prog] ++ concat (map q_written (QIgnored sequences :: QIgnored log :: ss))
                ++ [txt "--parallel"]) by reflexivity.
  assert (F' : Forall fast_query_setting (QIgnored sequences :: QIgnored log :: ss)) by auto.
  destruct (loop_next _ _ _ _ _ q_written_nonempty (fast_query_step_ok _) _ [prog] [txt "--parallel"]
              (mkQueryOpts [] false false) E F') as (fuel & R); [discriminate|].
  cbn [length] in R. cbn [length]. rewrite R. rewrite app_assoc in E.
  rewrite (fast_query_step_end _ _ _ E). reflexivity.
Qed.

(** * Sizes that are no numbers *)

Lemma stoull_no_number : forall w, no_number w -> stoull w = None.
Proof.
  intros w [(D & L)|H].
  - rewrite stoull_decimal by auto. rewrite (proj2 (N.ltb_ge _ _)) by auto. reflexivity.
  - unfold stoull, read_number. destruct w as [|c w]; [reflexivity|].
    destruct (H c w eq_refl) as (A & B & C & D & E). cbn [skip_spaces].
    assert (S0 : is_space c = false).
    { unfold is_space. unfold space in A. unfold newline in B. cbn [In] in A.
      apply orb_false_intro; [apply N.eqb_neq; intros ->; apply A; auto|].
      destruct (N.leb_spec 9 c) as [L1|]; [|reflexivity].
      destruct (N.leb_spec c 13) as [L2|]; [|reflexivity]. exfalso.
      assert (Q : (c = 9 \/ c = 10 \/ c = 11 \/ c = 12 \/ c = 13)%N) by lia.
      intuition subst; auto 10. }
    rewrite S0. rewrite (proj2 (N.eqb_neq c 45)) by auto. rewrite (proj2 (N.eqb_neq c 43)) by auto.
    cbn [read_digits].
    assert (I0 : is_digit c = false).
    { unfold is_digit. destruct (N.leb_spec 48 c); [|reflexivity].
      destruct (N.leb_spec c 57); [|reflexivity]. exfalso. apply E. lia. }
    rewrite I0. reflexivity.
Qed.

Theorem build_wrong_size : forall prog input ss name w rest, Forall build_setting ss ->
  In name [txt "--min_size"; txt "--max_size"] -> no_number w ->
  build_options (prog :: input :: written_all ss ++ name :: w :: rest) = Ok None.
Proof.
  intros prog input ss name w rest F I K. unfold build_options.
  assert (E : prog :: input :: written_all ss ++ name :: w :: rest
              = [prog; input] ++ concat (map written ss) ++ name :: w :: rest) by reflexivity.
  destruct (loop_next _ _ _ _ _ written_nonempty (build_step_ok _) ss [prog; input] (name :: w :: rest)
              build_defaults E F) as (fuel & R); [discriminate|].
  cbn [length] in R. cbn [length]. rewrite R. rewrite app_assoc in E. clear R F.
  set (argv := prog :: input :: written_all ss ++ name :: w :: rest) in *.
  set (pre := [prog; input] ++ concat (map written ss)) in *.
  assert (E0 : nth_error argv (length pre) = Some name) by (rewrite E; apply nth_app_0).
  assert (E1 : nth_error argv (S (length pre)) = Some w) by (rewrite E; apply nth_app_1).
  clearbody argv pre. unfold build_step. apply stoull_no_number in K.
  cbn [In] in I. repeat destruct I as [I|I]; try (destruct I; fail); subst name; repeat miss E0; hit E0;
    unfold number_arg; rewrite (arg_at _ _ _ E1); cbn [bind]; rewrite K; reflexivity.
Qed.

(** * Block and word sizes that are no numbers *)

Lemma atoi_no_number : forall bits w, starts_no_number w -> atoi bits w = Ok 0%N.
Proof.
  intros bits w H. unfold atoi, read_number. destruct w as [|c w]; [reflexivity|].
  destruct (H c w eq_refl) as (A & B & C & D & E). cbn [skip_spaces].
  assert (S0 : is_space c = false).
  { unfold is_space. unfold space in A. unfold newline in B. cbn [In] in A.
    apply orb_false_intro; [apply N.eqb_neq; intros ->; apply A; auto|].
    destruct (N.leb_spec 9 c) as [L1|]; [|reflexivity].
    destruct (N.leb_spec c 13) as [L2|]; [|reflexivity]. exfalso.
    assert (Q : (c = 9 \/ c = 10 \/ c = 11 \/ c = 12 \/ c = 13)%N) by lia.
    intuition subst; auto 10. }
  rewrite S0. rewrite (proj2 (N.eqb_neq c 45)) by auto. rewrite (proj2 (N.eqb_neq c 43)) by auto.
  cbn [read_digits].
  assert (I0 : is_digit c = false).
  { unfold is_digit. destruct (N.leb_spec 48 c); [|reflexivity].
    destruct (N.leb_spec c 57); [|reflexivity]. exfalso. apply E. lia. }
  rewrite I0. reflexivity.
Qed.

Lemma atoi_too_large : forall bits w, decimal w -> (2 ^ 31 <= decimal_value w)%N ->
  atoi bits w = UB BadCast.
Proof.
  intros bits w D L. unfold atoi. rewrite decimal_number by auto.
  rewrite (proj2 (N.leb_gt _ _)); [reflexivity|].
  apply N.lt_le_trans with (2 := L). reflexivity.
Qed.

Lemma no_number_not_name : forall w names, starts_no_number w ->
  Forall (fun n => exists l, n = 45%N :: l) names -> ~ In w names.
Proof.
  intros w names H F I. rewrite Forall_forall in F. destruct (F _ I) as (l & ->).
  destruct (H _ _ eq_refl) as (_ & _ & _ & D & _). congruence.
Qed.

Lemma fast_names_dash : Forall (fun n => exists l, n = 45%N :: l) fast_build_names.
Proof. repeat (constructor; [eexists; reflexivity|]). constructor. Qed.

Lemma names_dash : Forall (fun n => exists l, n = 45%N :: l) build_names.
Proof. repeat (constructor; [eexists; reflexivity|]). constructor. Qed.

Theorem word_size_no_number : forall fm junk prog input ss w fs, Forall fast_build_setting ss ->
  starts_no_number w ->
  build_fast_main fm junk (prog :: input :: written_all ss ++ [txt "--wsize"; w]) fs = Ok (Some (fs, None)).
Proof.
  intros fm junk prog input ss w fs F K. unfold build_fast_main.
  rewrite (proj2 (Nat.ltb_ge _ _)) by (cbn [length]; rewrite app_length; cbn [length]; lia).
  cbn [arg nth_error bind]. unfold fast_build_options.
  assert (E : prog :: input :: written_all ss ++ [txt "--wsize"; w]
              = [prog; input] ++ concat (map written ss) ++ [txt "--wsize"; w]) by reflexivity.
  destruct (loop_next _ _ _ _ _ written_nonempty (fast_build_step_ok _) ss [prog; input]
              [txt "--wsize"; w] build_defaults E F) as (fuel & R); [discriminate|].
  cbn [length] in R. cbn [length]. rewrite R. rewrite app_assoc in E. clear R F.
  set (argv := prog :: input :: written_all ss ++ [txt "--wsize"; w]) in *.
  set (pre := [prog; input] ++ concat (map written ss)) in *.
  assert (E0 : nth_error argv (length pre) = Some (txt "--wsize")) by (rewrite E; apply nth_app_0).
  assert (E1 : nth_error argv (S (length pre)) = Some w) by (rewrite E; apply nth_app_1).
  assert (L : length argv = S (S (length pre))) by (rewrite E, app_length; cbn [length]; lia).
  change (S (S (length (written_all ss ++ [txt "--wsize"; w])))) with (length argv).
  clearbody argv pre. assert (NI := no_number_not_name _ _ K fast_names_dash).
  unfold fast_build_step. do 6 miss E0. hit E0.
  unfold atoi_arg. rewrite (arg_at _ _ _ E1). cbn [bind]. rewrite atoi_no_number by auto.
  cbn [bind bindo]. miss E1. rewrite <- L, loop_end. reflexivity.
Qed.

Theorem word_size_too_large : forall fm junk prog input ss w rest fs, Forall fast_build_setting ss ->
  decimal w -> (2 ^ 31 <= decimal_value w)%N ->
  build_fast_main fm junk (prog :: input :: written_all ss ++ txt "--wsize" :: w :: rest) fs = UB BadCast.
Proof.
  intros fm junk prog input ss w rest fs F D L0. unfold build_fast_main.
  rewrite (proj2 (Nat.ltb_ge _ _)) by (cbn [length]; rewrite app_length; cbn [length]; lia).
  cbn [arg nth_error bind]. unfold fast_build_options.
  assert (E : prog :: input :: written_all ss ++ txt "--wsize" :: w :: rest
              = [prog; input] ++ concat (map written ss) ++ txt "--wsize" :: w :: rest) by reflexivity.
  destruct (loop_next _ _ _ _ _ written_nonempty (fast_build_step_ok _) ss [prog; input]
              (txt "--wsize" :: w :: rest) build_defaults E F) as (fuel & R); [discriminate|].
  cbn [length] in R. cbn [length]. rewrite R. rewrite app_assoc in E. clear R F.
  set (argv := prog :: input :: written_all ss ++ txt "--wsize" :: w :: rest) in *.
  set (pre := [prog; input] ++ concat (map written ss)) in *.
  assert (E0 : nth_error argv (length pre) = Some (txt "--wsize")) by (rewrite E; apply nth_app_0).
  assert (E1 : nth_error argv (S (length pre)) = Some w) by (rewrite E; apply nth_app_1).
  clearbody argv pre.
  unfold fast_build_step. do 6 miss E0. hit E0.
  unfold atoi_arg. rewrite (arg_at _ _ _ E1). cbn [bind]. rewrite atoi_too_large by auto. reflexivity.
Qed.

(** The block size in the options of the original build tool. *)
Theorem block_size_no_number : forall prog input ss w, Forall build_setting ss -> starts_no_number w ->
  exists o, build_options (prog :: input :: written_all ss ++ [txt "--rank"; txt "il"; w]) = Ok (Some o) /\
    b_rank o = 1%N /\ b_block o = 0%N.
Proof.
  intros prog input ss w F K. unfold build_options.
  assert (E : prog :: input :: written_all ss ++ [txt "--rank"; txt "il"; w]
              = [prog; input] ++ concat (map written ss) ++ [txt "--rank"; txt "il"; w]) by reflexivity.
  destruct (loop_next _ _ _ _ _ written_nonempty (build_step_ok _) ss [prog; input]
              [txt "--rank"; txt "il"; w] build_defaults E F) as (fuel & R); [discriminate|].
  cbn [length] in R. cbn [length]. rewrite R. rewrite app_assoc in E. clear R F.
  set (argv := prog :: input :: written_all ss ++ [txt "--rank"; txt "il"; w]) in *.
  set (pre := [prog; input] ++ concat (map written ss)) in *.
  assert (E0 : nth_error argv (length pre) = Some (txt "--rank")) by (rewrite E; apply nth_app_0).
  assert (E1 : nth_error argv (S (length pre)) = Some (txt "il")) by (rewrite E; apply nth_app_1).
  assert (E2 : nth_error argv (S (S (length pre))) = Some w) by (rewrite E; apply nth_app_2).
  assert (L : length argv = S (S (S (length pre)))) by (rewrite E, app_length; cbn [length]; lia).
  change (S (S (length (written_all ss ++ [txt "--rank"; txt "il"; w])))) with (length argv).
  clearbody argv pre. assert (NI := no_number_not_name _ _ K names_dash).
  unfold build_step. do 2 miss E0. hit E0.
  unfold rank_arg. rewrite (arg_at _ _ _ E1). cbn [bind].
  change (text_eqb (txt "il") (txt "v")) with false. rewrite text_eqb_refl. cbv iota.
  unfold atoi_arg. rewrite (arg_at _ _ _ E2). cbn [bind]. rewrite atoi_no_number by auto.
  cbn [bind bindo]. do 4 miss E2. rewrite <- L, loop_end. eexists. repeat split.
Qed.

(** * From command lines to answers *)

Lemma last_of_in : forall T A (f : T -> option A) ss d (P : A -> Prop),
  P d -> (forall s x, In s ss -> f s = Some x -> P x) -> P (last_of f d ss).
Proof.
  intros T A f ss d P D H. unfold last_of. revert d D. induction ss as [|s ss IH]; intros d D; auto.
  cbn [fold_left]. apply IH; [intros; eapply H; [right|]; eauto|].
  destruct (f s) eqn:E; auto. eapply H; [left|]; eauto.
Qed.

Lemma set_file_same : forall name bytes fs, set_file name bytes fs name = Some bytes.
Proof. intros. unfold set_file. rewrite text_eqb_refl. reflexivity. Qed.

Lemma set_file_other : forall name bytes fs n, n <> name -> set_file name bytes fs n = fs n.
Proof. intros. unfold set_file. rewrite text_eqb_neq by auto. reflexivity. Qed.

Lemma build_to_ok : forall fs input out build bytes result r,
  fs input = Some bytes -> out <> [] -> out <> input -> build true bytes = Ok (result, r) ->
  build_to fs input out build = Ok (Some (set_file out result fs, Some r)).
Proof.
  intros fs input out build bytes result r E N0 D B. unfold build_to. rewrite E.
  rewrite text_eqb_neq by congruence. destruct out; [congruence|]. rewrite B. reflexivity.
Qed.

Lemma write_out_other : forall out text fs n, n <> out -> write_out out text fs n = fs n.
Proof. intros out text fs n D. unfold write_out. destruct out; auto. apply set_file_other, D. Qed.

Theorem cli_end_to_end_table :
  forall fm prog input ss prog' log qs (fs : files) one u lists text queries hc sched time,
  formats_ok fm -> collection_ok one u lists -> (2 <= u)%N ->
  fs input = Some (collection_file one u lists) -> fs log = Some text -> log_of text queries ->
  Forall build_setting ss -> Forall the_query_setting qs ->
  let out := last_of out_of [] ss in
  let runs := last_of runs_of false ss in
  let levelwise := last_of levelwise_of false ss in
  let rank_type := last_of rank_of 0%N ss in
  let block := last_of block_of 512%N ss in
  let kept := kept_lists (last_of min_of 0%N ss) (last_of max_of (2 ^ 64 - 1)%N ss) lists in
  ~ In out ([] :: input :: log :: last_of q_out_of [] qs :: query_names) ->
  ~ In log (last_of q_out_of [] qs :: query_names) ->
  loadable_options rank_type block levelwise ->
  Forall (stored_ok u (built_variant rank_type levelwise) runs) kept ->
  exact_mode u runs (last_of parallel_of true qs) hc sched kept ->
  Forall (query_ok kept) queries -> Forall (Forall (fun i => i < 2 ^ 31)%N) queries ->
  exists fs' r fs'' rs,
    build_tries_main fm (prog :: input :: written_all ss) fs = Ok (Some (fs', Some r)) /\
    (forall n, n <> out -> fs' n = fs n) /\
    query_main fm sched hc time (prog' :: out :: log :: q_written_all qs) fs' = Ok (fs'', Some rs) /\
    (forall n, n <> last_of q_out_of [] qs \/ n = [] -> fs'' n = fs' n) /\
    Forall2 (answers kept) queries rs /\
    (last_of q_out_of [] qs <> [] ->
     fs'' (last_of q_out_of [] qs) = Some (table_header ++ table_rows time 0 (combine queries rs))).
Proof.
  intros fm prog input ss prog' log qs fs one u lists text queries hc sched time FM C U I G T FS FQ
    out runs levelwise rank_type block kept NO NL LO ST EX QO QB.
  destruct (end_to_end fm (last_of min_of 0%N ss) (last_of max_of (2 ^ 64 - 1)%N ss) rank_type block runs
              levelwise one u lists hc (last_of parallel_of true qs) sched queries)
    as (file & rs & B & Q & A); auto.
  cbn [In] in NO, NL.
  assert (NO' : ~ In out query_names) by tauto. assert (NL' : ~ In log query_names) by tauto.
  destruct (tries_reported _ _ _ _ _ _ _ _ _ _ _ C B) as (r & R).
  set (qout := last_of q_out_of [] qs) in *.
  exists (set_file out file fs), r,
    (write_out qout (table_header ++ table_rows time 0 (combine queries rs))
       (write_out qout table_header (set_file out file fs))), rs.
  split; [|split; [|split; [|split; [|split; [exact A|]]]]].
  - unfold build_tries_main. cbn [arg nth_error bind]. rewrite build_options_last by auto. cbn [bindo].
    cbn [b_out b_min b_max b_rank b_block b_runs b_levelwise].
    apply build_to_ok with (1 := I); [intros Q0; apply NO; left; symmetry; exact Q0| |exact R].
    intros Q0. apply NO. right. left. symmetry. exact Q0.
  - intros n D. apply set_file_other, D.
  - unfold query_main. cbn [length Nat.ltb Nat.leb arg nth_error bind].
    rewrite query_options_last by auto. cbn [bind q_out q_parallel].
    fold qout. rewrite (text_eqb_neq qout out) by (intros Q0; tauto). rewrite andb_false_r. cbv zeta.
    rewrite write_out_other by (intros Q0; apply NO; auto).
    rewrite set_file_same.
    assert (L := Q). unfold query_log in L. apply bind_inv in L. destruct L as ((r0, ts) & L & _).
    rewrite L. cbn [bind]. rewrite write_out_other by (intros Q0; apply NL; auto).
    rewrite set_file_other by (intros Q0; apply NO; subst; auto).
    rewrite G, (query_log_loaded _ _ T) by auto. rewrite Q. reflexivity.
  - intros n D. destruct (list_eq_dec N.eq_dec n qout) as [->|X].
    + destruct D as [D| ->]; [congruence|]. reflexivity.
    + rewrite !write_out_other by auto. reflexivity.
  - intros D. unfold write_out at 1. destruct qout; [congruence|]. apply set_file_same.
Qed.

Theorem cli_end_to_end :
  forall fm prog input ss prog' log qs (fs : files) one u lists text queries hc sched time,
  formats_ok fm -> collection_ok one u lists -> (2 <= u)%N ->
  fs input = Some (collection_file one u lists) -> fs log = Some text -> log_of text queries ->
  Forall build_setting ss -> Forall the_query_setting qs ->
  let out := last_of out_of [] ss in
  let runs := last_of runs_of false ss in
  let levelwise := last_of levelwise_of false ss in
  let rank_type := last_of rank_of 0%N ss in
  let block := last_of block_of 512%N ss in
  let kept := kept_lists (last_of min_of 0%N ss) (last_of max_of (2 ^ 64 - 1)%N ss) lists in
  ~ In out ([] :: input :: log :: last_of q_out_of [] qs :: query_names) ->
  ~ In log (last_of q_out_of [] qs :: query_names) ->
  loadable_options rank_type block levelwise ->
  Forall (stored_ok u (built_variant rank_type levelwise) runs) kept ->
  exact_mode u runs (last_of parallel_of true qs) hc sched kept ->
  Forall (query_ok kept) queries -> Forall (Forall (fun i => i < 2 ^ 31)%N) queries ->
  exists fs' r fs'' rs,
    build_tries_main fm (prog :: input :: written_all ss) fs = Ok (Some (fs', Some r)) /\
    (forall n, n <> out -> fs' n = fs n) /\
    query_main fm sched hc time (prog' :: out :: log :: q_written_all qs) fs' = Ok (fs'', Some rs) /\
    (forall n, n <> last_of q_out_of [] qs \/ n = [] -> fs'' n = fs' n) /\
    Forall2 (answers kept) queries rs.
Proof.
  intros fm prog input ss prog' log qs fs one u lists text queries hc sched time FM C U I G T FS FQ
    out runs levelwise rank_type block kept NO NL LO ST EX QO QB.
  destruct (cli_end_to_end_table fm prog input ss prog' log qs fs one u lists text queries hc sched time)
    as (fs' & r & fs'' & rs & H1 & H2 & H3 & H4 & H5 & _); auto. exists fs', r, fs'', rs. auto.
Qed.

Lemma kept_length : forall a b lists, length (kept_lists a b lists) <= length lists.
Proof.
  intros a b lists. unfold kept_lists. induction lists as [|l lists IH]; cbn [filter]; [lia|].
  destruct (_ && _)%bool; cbn [length]; lia.
Qed.

Theorem cli_fast_end_to_end :
  forall fm junk blank prog input ss prog' log qs (fs : files) one u lists text queries hc sched,
  formats_ok fm -> collection_ok one u lists -> junk_ok junk -> blank_ok blank ->
  fs input = Some (collection_file one u lists) -> fs log = Some text -> log_of text queries ->
  Forall fast_build_setting ss -> Forall fast_query_setting qs -> ss <> [] ->
  let out := last_of out_of [] ss in
  let runs := last_of runs_of false ss in
  let wsize := last_of wsize_of 64%N ss in
  let kept := kept_lists (last_of min_of 0%N ss) (last_of max_of (2 ^ 64 - 1)%N ss) lists in
  ~ In out ([] :: input :: log :: fast_query_names) -> ~ In log fast_query_names ->
  In wsize [8; 16; 32; 64]%N -> fast_universe u (word_log wsize) ->
  last_of rank_of 0%N ss <> 1%N ->
  Forall (fast_ok u) kept ->
  fast_exact_mode u (word_log wsize) runs (last_of parallel_of false qs) hc sched kept ->
  queries <> [] -> Forall (query_ok kept) queries ->
  exists fs' r rs,
    build_fast_main fm junk (prog :: input :: written_all ss) fs = Ok (Some (fs', Some r)) /\
    (forall n, n <> out -> fs' n = fs n) /\
    fast_query_main fm blank sched hc (prog' :: out :: log :: q_written_all qs) fs' = Ok (Some rs) /\
    Forall2 (answers kept) queries rs.
Proof.
  intros fm junk blank prog input ss prog' log qs fs one u lists text queries hc sched FM C J BL I G T FS FQ SS
    out runs wsize kept NO NL W U R1 ST EX Q0 QO.
  assert (RB : (last_of rank_of 0%N ss < 2 ^ 32)%N).
  { apply (last_of_in _ _ rank_of ss 0%N (fun r => r < 2 ^ 32)%N); [reflexivity|].
    intros [] x _; cbn; intros Q; inversion Q; reflexivity. }
  destruct (fast_end_to_end fm junk (last_of min_of 0%N ss) (last_of max_of (2 ^ 64 - 1)%N ss)
              (last_of rank_of 0%N ss) runs (last_of levelwise_of false ss) (word_log wsize) one u lists blank
              hc (last_of parallel_of false qs) sched queries)
    as (file & rs & B & Q & A); auto.
  cbn [In] in NO, NL.
  assert (NO' : ~ In out fast_query_names) by tauto.
  destruct (fast_tries_reported _ _ _ _ _ _ _ _ _ _ _ _ C B) as (r & R).
  exists (set_file out file fs), r, rs. split; [|split; [|split; [|exact A]]].
  - unfold build_fast_main.
    assert (L : length (prog :: input :: written_all ss) <? 3 = false).
    { apply Nat.ltb_ge. assert (S0 := settings_count written written_nonempty ss).
      fold (written_all ss) in S0. destruct ss; [congruence|]. cbn [length] in *. lia. }
    rewrite L. cbn [arg nth_error bind]. rewrite fast_build_options_last by auto. cbn [bindo].
    cbn [b_out b_min b_max b_rank b_runs b_levelwise b_wsize].
    replace (existsb (N.eqb (last_of wsize_of 64%N ss)) [64; 32; 16; 8]%N) with true
      by (fold wsize; cbn [In] in W; intuition subst; match goal with H : _ = wsize |- _ => rewrite <- H end; reflexivity).
    apply build_to_ok with (1 := I); [intros Q1; apply NO; left; symmetry; exact Q1| |exact R].
    intros Q1. apply NO. right. left. symmetry. exact Q1.
  - intros n D. apply set_file_other, D.
  - unfold fast_query_main. cbn [length Nat.ltb Nat.leb].
    rewrite fast_query_options_last by auto. cbn [bindo q_parallel arg nth_error bind].
    rewrite set_file_same. rewrite set_file_other by (intros Q1; apply NO; subst; auto).
    rewrite G, (fast_query_log_loaded _ _ T).
    + cbn [oget bind]. rewrite Q. reflexivity.
    + (* ids below the number of lists *)
      apply Forall_forall. intros q Iq. rewrite Forall_forall in QO. destruct (QO _ Iq) as (_ & QF).
      eapply Forall_impl; [|exact QF]. intros i Li. cbv beta in *.
      destruct C as (_ & _ & C3 & _).
      assert (K : length kept <= length lists) by apply kept_length.
      apply N.lt_trans with (2 ^ 32)%N; [|reflexivity]. lia.
Qed.

(** * More about single arguments *)

(** Everything after the digits is ignored. *)
Theorem stoull_trailing : forall w c rest, decimal w -> (decimal_value w < 2 ^ 64)%N ->
  ~ (48 <= c <= 57)%N -> stoull (w ++ c :: rest) = Some (decimal_value w).
Proof.
  intros w c rest (N0 & F) L H. destruct F as [|d w Hd F]; [congruence|].
  unfold stoull, read_number. cbn [app skip_spaces]. rewrite digit_not_space by auto.
  destruct (N.eqb_spec d 45); [lia|]. destruct (N.eqb_spec d 43); [lia|].
  assert (Z : is_digit c = false).
  { unfold is_digit. destruct (N.leb_spec 48 c); [|reflexivity].
    destruct (N.leb_spec c 57); [|reflexivity]. exfalso. apply H. lia. }
  assert (R : forall v a, Forall (fun c => 48 <= c <= 57)%N v ->
    read_digits (v ++ c :: rest) (Some a) = Some (fold_left (fun a c => a * 10 + (c - 48))%N v a)).
  { intros v a G. revert a. induction G; intros a; cbn [app read_digits fold_left].
    - rewrite Z. reflexivity.
    - rewrite digit_is by auto. apply IHG. }
  cbn [read_digits]. rewrite digit_is by auto. rewrite R by auto.
  unfold decimal_value in *. cbn [fold_left] in *.
  rewrite (proj2 (N.ltb_lt _ _)) by auto. reflexivity.
Qed.

(** A minus sign counts from 2^64 down. *)
Theorem stoull_negative : forall w, decimal w -> (0 < decimal_value w < 2 ^ 64)%N ->
  stoull (45%N :: w) = Some (2 ^ 64 - decimal_value w)%N.
Proof.
  intros w D L. assert (E := decimal_number w D). destruct D as (N0 & F).
  destruct F as [|d w Hd F]; [congruence|].
  unfold read_number in E. cbn [skip_spaces] in E. rewrite digit_not_space in E by auto.
  destruct (N.eqb_spec d 45); [lia|]. destruct (N.eqb_spec d 43); [lia|].
  apply (f_equal snd) in E. unfold snd in E. unfold stoull, read_number. cbn [skip_spaces].
  change (is_space 45) with false. cbv iota. rewrite N.eqb_refl. rewrite E.
  rewrite (proj2 (N.ltb_lt _ _)) by tauto. f_equal. apply N.mod_small. lia.
Qed.

Lemma option_name_as_value :
  ~ (forall prog input ss,
       Forall (fun s => match s with OutFile _ => True | _ => build_setting s end) ss ->
       build_options (prog :: input :: written_all ss)
       = Ok (Some (mkBuildOpts (last_of min_of 0 ss) (last_of max_of (2 ^ 64 - 1) ss) (last_of rank_of 0 ss)
                     (last_of block_of 512 ss) 64 (last_of runs_of false ss)
                     (last_of levelwise_of false ss) (last_of verbose_of false ss) (last_of out_of [] ss)))%N).
Proof.
  intros H. specialize (H [] [] [OutFile (txt "--levelwise"); Ignored (txt "t")]).
  assert (F : Forall (fun s => match s with OutFile _ => True | _ => build_setting s end)
                [OutFile (txt "--levelwise"); Ignored (txt "t")]).
  { constructor; [exact I|]. constructor; [|constructor].
    unfold build_setting, setting_ok, build_names. cbn [map In].
    intros Q. repeat destruct Q as [Q|Q]; try discriminate Q. destruct Q. }
  apply H in F. vm_compute in F. discriminate F.
Qed.

Lemma no_arguments : forall fm prog fs, build_tries_main fm [prog] fs = UB NullDeref.
Proof. reflexivity. Qed.

Lemma unknown_word_size : forall fm junk prog input ss fs, Forall fast_build_setting ss -> ss <> [] ->
  ~ In (last_of wsize_of 64%N ss) [8; 16; 32; 64]%N ->
  build_fast_main fm junk (prog :: input :: written_all ss) fs = Ok (Some (fs, None)).
Proof.
  intros fm junk prog input ss fs F SS W. unfold build_fast_main.
  assert (L : length (prog :: input :: written_all ss) <? 3 = false).
  { apply Nat.ltb_ge. assert (S0 := settings_count written written_nonempty ss).
    fold (written_all ss) in S0. destruct ss; [congruence|]. cbn [length] in *. lia. }
  rewrite L. cbn [arg nth_error bind]. rewrite fast_build_options_last by auto. cbn [bindo b_wsize].
  cbn [existsb]. cbn [In] in W.
  rewrite !(proj2 (N.eqb_neq _ _)) by (intros Q; rewrite Q in W; tauto). reflexivity.
Qed.

(** A file that cannot be opened: nothing is built, nothing is answered. *)
Lemma missing_collection : forall fm prog input ss fs, Forall build_setting ss -> fs input = None ->
  build_tries_main fm (prog :: input :: written_all ss) fs = Ok (Some (fs, None)).
Proof.
  intros fm prog input ss fs F E. unfold build_tries_main. cbn [arg nth_error bind].
  rewrite build_options_last by auto. cbn [bindo]. unfold build_to. rewrite E. reflexivity.
Qed.
