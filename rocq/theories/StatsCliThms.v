(** Proofs about the command lines of the statistics tools. *)

From Coq Require Import String.
From Verif Require Import Base Facts FlatTrie LevelTrie FastTrie ParallelFor Intersection Tries Serialize Tools
  Text SpecText TextThms Cli SpecCli CliThms CliTools Measures Stats StatsCli SpecStatsCli
  Spec SpecTools SpecMeasures SpecStats StatsThms StatsTools StatsMeasures.

Lemma s_written_nonempty : forall s, s_written s <> [].
Proof. destruct s; discriminate. Qed.

Definition s_effect (s : stats_setting) (o : N) : N :=
  match s with MinLength w => decimal_value w | Other _ => o end.

Lemma s_effects : forall ss o, fold_left (fun o s => s_effect s o) ss o = last_of min_length_of o ss.
Proof.
  induction ss as [|s ss IH]; intros o; auto. cbn [fold_left]. rewrite IH. unfold last_of. cbn [fold_left].
  destruct s; reflexivity.
Qed.

Lemma stats_step_ok : forall argv pre s post o, argv = pre ++ s_written s ++ post -> stats_setting_ok s ->
  stats_step argv (length pre, o) = Ok (Some (length pre + pred (length (s_written s)), s_effect s o)).
Proof.
  intros argv pre s post o E K. unfold stats_step.
  destruct s as [w|w]; cbn [s_written stats_setting_ok s_effect length pred app] in *.
  - destruct K as (D & L).
    assert (E0 : nth_error argv (length pre) = Some (txt "--min_length")) by (rewrite E; apply nth_app_0).
    assert (E1 : nth_error argv (S (length pre)) = Some w) by (rewrite E; apply nth_app_1).
    rewrite (when_hit _ _ _ _ _ _ E0). rewrite (number_arg_ok _ _ _ _ _ _ E1) by auto.
    rewrite Nat.add_1_r. reflexivity.
  - assert (E0 : nth_error argv (length pre) = Some w) by (rewrite E; apply nth_app_0).
    rewrite (when_miss _ _ _ _ _ _ _ E0 K). rewrite Nat.add_0_r. reflexivity.
Qed.

Theorem stats_options_last : forall ss, Forall stats_setting_ok ss ->
  stats_options (s_written_all ss) = Ok (Some (last_of min_length_of 0%N ss)).
Proof.
  intros ss F. unfold stats_options.
  change 0 with (@length (list N) []) at 1.
  rewrite (loop_all (s_written_all ss) _ s_written stats_setting_ok s_effect s_written_nonempty
             (stats_step_ok _) ss []); auto.
  rewrite s_effects. reflexivity.
Qed.

Theorem stats_main_ok : forall A (tool : N -> option (list N) -> result A) prog file ss fs,
  prog <> txt "--min_length" -> file <> txt "--min_length" -> Forall stats_setting_ok ss ->
  stats_main tool (prog :: file :: s_written_all ss) fs
  = (let* a := tool (last_of min_length_of 0%N ss) (fs file) in Ok (Totals a)).
Proof.
  intros A tool prog file ss fs Hp Hf F. unfold stats_main. cbn [length Nat.ltb Nat.leb arg nth_error bind].
  change (prog :: file :: s_written_all ss) with (s_written_all (Other prog :: Other file :: ss)).
  rewrite stats_options_last by (constructor; [exact Hp|constructor; [exact Hf|exact F]]). reflexivity.
Qed.

(** The option without a value, at the end. *)
Theorem stats_missing_value : forall A (tool : N -> option (list N) -> result A) ss fs,
  Forall stats_setting_ok ss -> ss <> [] ->
  stats_main tool (s_written_all ss ++ [txt "--min_length"]) fs = UB NullDeref.
Proof.
  intros A tool ss fs F Hne. unfold stats_main.
  assert (L : 2 <= length (s_written_all ss ++ [txt "--min_length"])).
  { assert (C := settings_count s_written s_written_nonempty ss). unfold s_written_all. rewrite app_length. cbn [length].
    destruct ss; [congruence|]. cbn [length] in C. lia. }
  rewrite (proj2 (Nat.ltb_ge _ _)) by lia.
  destruct (nth_error (s_written_all ss ++ [txt "--min_length"]) 1) as [c|] eqn:Ec;
    [|apply nth_error_None in Ec; lia].
  rewrite (arg_at _ _ _ Ec). cbn [bind]. unfold stats_options.
  change 0 with (@length (list N) []) at 1.
  destruct (loop_next (s_written_all ss ++ [txt "--min_length"]) (stats_step (s_written_all ss ++ [txt "--min_length"]))
              s_written stats_setting_ok s_effect s_written_nonempty (stats_step_ok _) ss [] [txt "--min_length"] 0%N)
    as (fuel & E); auto; [discriminate|].
  rewrite E. unfold stats_step. cbn [app].
  rewrite (when_hit _ _ _ _ _ _ (nth_app_0 (s_written_all ss) (txt "--min_length") [])).
  assert (Q : S (length (s_written_all ss)) = length (s_written_all ss ++ [txt "--min_length"]))
    by (rewrite app_length; cbn [length]; lia).
  rewrite Q. rewrite number_arg_end. reflexivity.
Qed.

(** A value that is no number: an exception. *)
Theorem stats_wrong_number : forall A (tool : N -> option (list N) -> result A) ss w rest fs,
  Forall stats_setting_ok ss -> no_number w ->
  stats_main tool (s_written_all ss ++ txt "--min_length" :: w :: rest) fs = Ok Thrown.
Proof.
  intros A tool ss w rest fs F Hw. unfold stats_main.
  set (argv := s_written_all ss ++ txt "--min_length" :: w :: rest).
  assert (L : 2 <= length argv) by (unfold argv; rewrite app_length; cbn [length]; lia).
  rewrite (proj2 (Nat.ltb_ge _ _)) by lia.
  destruct (nth_error argv 1) as [c|] eqn:Ec; [|apply nth_error_None in Ec; lia].
  rewrite (arg_at _ _ _ Ec). cbn [bind]. unfold stats_options.
  change 0 with (@length (list N) []) at 1.
  destruct (loop_next argv (stats_step argv)
              s_written stats_setting_ok s_effect s_written_nonempty (stats_step_ok _) ss [] (txt "--min_length" :: w :: rest) 0%N)
    as (fuel & E); auto; [discriminate|].
  rewrite E. unfold stats_step. cbn [app].
  rewrite (when_hit _ _ _ _ _ _ (nth_app_0 (s_written_all ss) (txt "--min_length") (w :: rest))).
  unfold number_arg.
  assert (E1 : nth_error argv (S (length (s_written_all ss))) = Some w) by (unfold argv; apply nth_app_1).
  fold (s_written_all ss).
  rewrite (arg_at _ _ w E1). cbn [bind].
  rewrite stoull_no_number by auto. reflexivity.
Qed.

Theorem stats_usage : forall A (tool : N -> option (list N) -> result A) prog fs,
  stats_main tool [prog] fs = Ok Usage.
Proof. reflexivity. Qed.

(** The name of the option in the place of the collection is taken as both. *)
Theorem stats_no_collection : forall A (tool : N -> option (list N) -> result A) prog w fs,
  prog <> txt "--min_length" -> decimal w -> (decimal_value w < 2 ^ 64)%N ->
  stats_main tool [prog; txt "--min_length"; w] fs
  = (let* a := tool (decimal_value w) (fs (txt "--min_length")) in Ok (Totals a)).
Proof.
  intros A tool prog w fs Hp D L. unfold stats_main. cbn [length Nat.ltb Nat.leb].
  rewrite (arg_at [prog; txt "--min_length"; w] 1 (txt "--min_length") eq_refl). cbn [bind].
  change [prog; txt "--min_length"; w] with (s_written_all [Other prog; MinLength w]).
  rewrite stats_options_last; [reflexivity|]. constructor; [exact Hp|]. constructor; [split; auto|constructor].
Qed.

(** Down to the totals. *)
Theorem measures_main_spec : forall prog file ss fs one u lists fuel,
  prog <> txt "--min_length" -> file <> txt "--min_length" -> Forall stats_setting_ok ss ->
  fs file = Some (collection_file one u lists) -> collection_ok one u lists -> (3 <= u)%N ->
  let m := last_of min_length_of 0%N ss in
  let K := long_lists m lists in
  Forall (fun l => increasing l /\ below u l) K -> length lists < fuel ->
  exists rs ts trs, Forall2 (fun l r => Rle l = Ok r) K rs /\
    Forall2 (prefix_total prefix_of_member u) K ts /\
    Forall2 (prefix_total prefix_outside_runs u) K trs /\
    measures_main fuel (prog :: file :: s_written_all ss) fs
    = Ok (Totals (mkMeasured (total_length K) (N.of_nat (length K))
            (gap_bits K + (if length K =? 0 then 0 else 32 + joint_charges u K)) (sumN rs)
            (N.of_nat (list_sum ts)) (N.of_nat (list_sum trs)))).
Proof.
  intros prog file ss fs one u lists fuel Hp Hf F Hfs Hc Hu m K HK Hfu.
  destruct (measures_spec m one u lists fuel Hc Hu HK Hfu) as (rs & ts & trs & H1 & H2 & H3 & H4).
  exists rs, ts, trs. split; auto. split; auto. split; auto.
  unfold measures_main. rewrite stats_main_ok by auto. rewrite Hfs. fold m. fold K in H4. rewrite H4. reflexivity.
Qed.

Theorem cbv_main_spec : forall prog file ss fs hyb one u lists l more fuel,
  prog <> txt "--min_length" -> file <> txt "--min_length" -> Forall stats_setting_ok ss ->
  fs file = Some (collection_file one u (lists ++ l :: more)) ->
  let m := last_of min_length_of 0%N ss in
  collection_ok one u (lists ++ l :: more) -> Forall increasing lists ->
  Forall (fun l => m < N.of_nat (length l))%N lists -> (N.of_nat (length l) <= m)%N ->
  1 + length lists <= fuel ->
  cbv_coding_main fuel hyb (prog :: file :: s_written_all ss) fs
  = Ok (Totals (mkTotals (total_length lists) (N.of_nat (length lists))
          [0%N; 0%N; sumN (map (fun l => hyb (member_bits l)) lists)])).
Proof.
  intros. unfold cbv_coding_main. rewrite stats_main_ok by auto. rewrite H2.
  rewrite cbv_first_short by auto. reflexivity.
Qed.

Theorem classic_main_spec : forall prog file ss fs delta gamma fib one u lists l fuel,
  prog <> txt "--min_length" -> file <> txt "--min_length" -> Forall stats_setting_ok ss ->
  fs file = Some (collection_file one u (lists ++ [l])) ->
  let m := last_of min_length_of 0%N ss in
  collection_ok one u (lists ++ [l]) -> (m < N.of_nat (length l))%N -> 3 + length lists <= fuel ->
  let counted := long_lists m (lists ++ [l]) ++ [last_repeated l] in
  classic_coders_main fuel delta gamma fib (prog :: file :: s_written_all ss) fs
  = Ok (Totals (mkTotals (total_length counted) (N.of_nat (length counted))
          [sumN (map delta counted); sumN (map gamma counted); sumN (map fib counted)])).
Proof.
  intros. unfold classic_coders_main. rewrite stats_main_ok by auto. rewrite H2.
  rewrite classic_last_long by auto. reflexivity.
Qed.

Theorem pom_main_spec : forall prog file ss fs delta gamma fib one u lists l fuel,
  prog <> txt "--min_length" -> file <> txt "--min_length" -> Forall stats_setting_ok ss ->
  fs file = Some (collection_file one u (lists ++ [l])) ->
  let m := last_of min_length_of 0%N ss in
  collection_ok one u (lists ++ [l]) ->
  Forall (fun l => increasing l /\ Forall (fun x => 0 < x)%N l) (long_lists m (lists ++ [l])) ->
  (m < N.of_nat (length l))%N -> 3 + length lists <= fuel ->
  let counted := long_lists m (lists ++ [l]) ++ [last_repeated l] in
  exists suffixes, Forall2 (fun l r => pom_list l = Ok r) counted suffixes /\
  pom_main fuel delta gamma fib (prog :: file :: s_written_all ss) fs
  = Ok (Totals (mkTotals (total_length counted) (N.of_nat (length counted))
          [sumN (map (fun r => delta (sort_values (fst r))) suffixes);
           sumN (map (fun r => gamma (sort_values (fst r))) suffixes);
           sumN (map (fun r => fib (sort_values (fst r))) suffixes);
           sumN (map snd suffixes)])).
Proof.
  intros prog file ss fs delta gamma fib one u lists l fuel Hp Hf F Hfs m Hc HK Hl Hfu counted.
  destruct (pom_last_long delta gamma fib m one u lists l fuel Hc HK Hl Hfu) as (suf & HF & E).
  exists suf. split; [exact HF|]. unfold pom_main. rewrite stats_main_ok by auto. rewrite Hfs.
  fold m. rewrite E. reflexivity.
Qed.

Example stats_cli_example :
  let lists := [[1; 2; 9]; [4]; [3; 12]]%N in
  let fs := fun f => if text_eqb f (txt "coll") then Some (collection_file 1 16 lists) else None in
  let line := [Other (txt "-v"); MinLength (txt "7"); MinLength (txt "1")] in
  Forall stats_setting_ok line /\ last_of min_length_of 0%N line = 1%N /\
  measures_main 4 (txt "measures" :: txt "coll" :: s_written_all line) fs
  = Ok (Totals (mkMeasured 5 2 (11 + 32 + 4) (5 + 6) (10 + 8) (10 + 8))) /\
  measures_main 4 [txt "measures"; txt "coll"; txt "--min_length"; txt "ten"] fs = Ok Thrown /\
  measures_main 4 [txt "measures"; txt "coll"; txt "--min_length"] fs = UB NullDeref.
Proof.
  cbv zeta. split; [|split; [reflexivity|split; [vm_compute; reflexivity|split; vm_compute; reflexivity]]].
  constructor; [vm_compute; discriminate|].
  constructor; [split; [split; [discriminate|]|vm_compute; reflexivity]|];
  [|constructor; [split; [split; [discriminate|]|vm_compute; reflexivity]|constructor]];
  constructor; try constructor; vm_compute; discriminate.
Qed.
