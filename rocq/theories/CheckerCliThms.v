(** Proofs about the command lines of the checking programs. *)

From Coq Require Import String Sorted.
From Verif Require Import Base Facts FlatTrie LevelTrie FastTrie ParallelFor Intersection Tries Serialize
  Tools Spec SpecTries SpecOrder SpecFiles SpecTools SerializeThms InterRefute ParForThms ToolsThms FastToolsThms
  Reference ReferenceFacts Text SpecText TextThms Report Table Cli SpecCli CliThms CliTools
  Checker SpecChecker KeepThms CheckerThms CheckerFast EncodeCheck CheckerCli SpecCheckerCli.

Ltac not_name ::=
  match goal with
  | |- txt _ <> txt _ => discriminate
  | H : decimal ?w |- ?w <> txt _ => intros Q; exact (decimal_not_dash _ _ H Q)
  | H : ~ In ?w _ |- ?w <> txt _ => intros Q; apply H; subst w; cbn [map In check_names fast_check_names]; tauto
  end.

(** * Options *)

Lemma check_step_ok : forall argv pre s post o, argv = pre ++ written s ++ post -> check_setting s ->
  check_step argv (length pre, o) = Ok (Some (length pre + pred (length (written s)), effect s o)).
Proof.
  intros argv pre s post o E K.
  assert (E0 : forall a l, written s = a :: l -> nth_error argv (length pre) = Some a).
  { intros a l W. rewrite E, W. apply nth_app_0. }
  assert (E1 : forall a b l, written s = a :: b :: l -> nth_error argv (S (length pre)) = Some b).
  { intros a b l W. rewrite E, W. apply nth_app_1. }
  assert (E2 : forall a b c l, written s = a :: b :: c :: l ->
    nth_error argv (S (S (length pre))) = Some c).
  { intros a b c l W. rewrite E, W. apply nth_app_2. }
  clear E. unfold check_step.
  destruct s; cbn [written check_setting setting_ok effect length pred] in *;
    try specialize (E0 _ _ eq_refl); try specialize (E1 _ _ _ eq_refl);
    try specialize (E2 _ _ _ _ eq_refl); try contradiction;
    rewrite ?Nat.add_1_r, ?Nat.add_0_r;
    try replace (length pre + 2) with (S (S (length pre))) by lia.
  - destruct K as (D & L). hit E0. value E1. do 4 miss E1. reflexivity.
  - miss E0. hit E0. rewrite rank_v by auto. cbn [bindo]. do 3 miss E1. reflexivity.
  - destruct K as (D & L). miss E0. hit E0. rewrite (rank_il _ _ _ _ E1 E2) by auto. cbn [bindo].
    do 3 miss E2. reflexivity.
  - destruct K as (A & B & K). miss E0. hit E0. rewrite (rank_other _ _ _ _ E1) by auto.
    cbn [bindo]. do 3 miss E1. reflexivity.
  - do 2 miss E0. hit E0. value E1. do 2 miss E1. reflexivity.
  - do 3 miss E0. hit E0. value E1. miss E1. reflexivity.
  - do 4 miss E0. hit E0. value E1. reflexivity.
  - do 5 miss E0. reflexivity.
Qed.

Lemma last_of_none : forall T A (f : T -> option A) ss d, Forall (fun s => f s = None) ss -> last_of f d ss = d.
Proof.
  intros T A f ss d F. unfold last_of. induction F as [|s ss K F IH]; auto. cbn [fold_left]. rewrite K. exact IH.
Qed.

Theorem check_options_last : forall prog input ss, Forall check_setting ss ->
  check_options (prog :: input :: written_all ss)
  = Ok (Some (mkBuildOpts (last_of min_of 0 ss) (2 ^ 64 - 1) (last_of rank_of 0 ss)
                (last_of block_of 512 ss) 64 (last_of runs_of false ss)
                (last_of levelwise_of false ss) false (last_of out_of [] ss)))%N.
Proof.
  intros prog input ss F. unfold check_options.
  rewrite (loop_all (prog :: input :: written_all ss) _ written check_setting effect written_nonempty
             (check_step_ok _) ss [prog; input]); auto.
  rewrite effects. cbn [build_defaults b_min b_max b_rank b_block b_wsize b_runs b_levelwise b_verbose b_out].
  rewrite (last_of_none _ _ max_of), (last_of_none _ _ wsize_of), (last_of_none _ _ verbose_of); [reflexivity| | |];
    (apply Forall_impl with (2 := F); intros s K; destruct s; try reflexivity; destruct K).
Qed.

Lemma stoi_arg_ok : forall O argv set i (o : O) w, nth_error argv i = Some w -> decimal w ->
  (decimal_value w < 2 ^ 16)%N -> stoi_arg argv set i o = Ok (Some (i, set (decimal_value w) o)).
Proof.
  intros O argv set i o w E D L. unfold stoi_arg. rewrite (arg_at _ _ _ E). cbn [bind].
  rewrite stoi32_decimal by auto.
  rewrite (proj2 (N.ltb_lt _ _)) by (apply N.lt_trans with (1 := L); reflexivity).
  rewrite N.mod_small by auto. reflexivity.
Qed.

Lemma fast_check_step_ok : forall argv pre s post o, argv = pre ++ written s ++ post -> fast_check_setting s ->
  fast_check_step argv (length pre, o) = Ok (Some (length pre + pred (length (written s)), effect s o)).
Proof.
  intros argv pre s post o E K.
  assert (E0 : forall a l, written s = a :: l -> nth_error argv (length pre) = Some a).
  { intros a l W. rewrite E, W. apply nth_app_0. }
  assert (E1 : forall a b l, written s = a :: b :: l -> nth_error argv (S (length pre)) = Some b).
  { intros a b l W. rewrite E, W. apply nth_app_1. }
  assert (E2 : forall a b c l, written s = a :: b :: c :: l ->
    nth_error argv (S (S (length pre))) = Some c).
  { intros a b c l W. rewrite E, W. apply nth_app_2. }
  clear E. unfold fast_check_step.
  destruct s; cbn [written fast_check_setting setting_ok effect length pred] in *;
    try specialize (E0 _ _ eq_refl); try specialize (E1 _ _ _ eq_refl);
    try specialize (E2 _ _ _ _ eq_refl); try contradiction;
    rewrite ?Nat.add_1_r, ?Nat.add_0_r;
    try replace (length pre + 2) with (S (S (length pre))) by lia.
  - destruct K as (D & L). hit E0. value E1. do 4 miss E1. reflexivity.
  - miss E0. hit E0. rewrite rank_v by auto. cbn [bindo]. do 3 miss E1. reflexivity.
  - destruct K as (D & L). miss E0. hit E0. rewrite (rank_il _ _ _ _ E1 E2) by auto. cbn [bindo].
    do 3 miss E2. reflexivity.
  - destruct K as (A & B & K). miss E0. hit E0. rewrite (rank_other _ _ _ _ E1) by auto.
    cbn [bindo]. do 3 miss E1. reflexivity.
  - do 2 miss E0. hit E0. value E1. do 2 miss E1. reflexivity.
  - do 3 miss E0. hit E0. value E1. miss E1. reflexivity.
  - destruct K as (D & L). do 4 miss E0. hit E0. rewrite (stoi_arg_ok _ _ _ _ _ _ E1) by auto. reflexivity.
  - do 5 miss E0. reflexivity.
Qed.

Theorem fast_check_options_last : forall prog input ss, Forall fast_check_setting ss ->
  fast_check_options (prog :: input :: written_all ss)
  = Ok (Some (mkBuildOpts (last_of min_of 0 ss) (2 ^ 64 - 1) (last_of rank_of 0 ss)
                (last_of block_of 512 ss) (last_of wsize_of 64 ss) (last_of runs_of false ss)
                false false (last_of out_of [] ss)))%N.
Proof.
  intros prog input ss F. unfold fast_check_options.
  rewrite (loop_all (prog :: input :: written_all ss) _ written fast_check_setting effect written_nonempty
             (fast_check_step_ok _) ss [prog; input]); auto.
  rewrite effects. cbn [build_defaults b_min b_max b_rank b_block b_wsize b_runs b_levelwise b_verbose b_out].
  rewrite (last_of_none _ _ max_of), (last_of_none _ _ levelwise_of), (last_of_none _ _ verbose_of); [reflexivity| | |];
    (apply Forall_impl with (2 := F); intros s K; destruct s; try reflexivity; destruct K).
Qed.

(** * The encoding checkers *)

Lemma settings_long : forall ss : list setting, ss <> [] -> 1 <= length (written_all ss).
Proof.
  intros [|s ss] N0; [congruence|]. unfold written_all. cbn [map concat]. rewrite app_length.
  destruct s; cbn; lia.
Qed.

Lemma encode_main_runs : forall prog input ss fs, ss <> [] -> Forall check_setting ss ->
  encode_main (prog :: input :: written_all ss) fs
  = check_file fs input (verify_encode (last_of min_of 0%N ss) (last_of rank_of 0%N ss)
                           (last_of runs_of false ss) (last_of levelwise_of false ss)).
Proof.
  intros prog input ss fs N0 F. unfold encode_main. apply settings_long in N0.
  rewrite (proj2 (Nat.ltb_ge _ _)) by (cbn [length]; lia). cbn [arg nth_error bind].
  rewrite check_options_last by auto. reflexivity.
Qed.

Theorem encode_main_reports : forall prog input ss fs one u lists,
  ss <> [] -> Forall check_setting ss -> fs input = Some (collection_file one u lists) ->
  collection_ok one u lists -> (if last_of levelwise_of false ss then 2 <= u else 3 <= u)%N ->
  let judged := longer_than (last_of min_of 0 ss mod 2 ^ 32)%N lists in
  (last_of runs_of false ss = true -> last_of levelwise_of false ss = false -> forall l, In l judged ->
     exists r, kept_set 1 (rounded u) l r /\ mixed_block r) ->
  exists bad,
    encode_main (prog :: input :: written_all ss) fs
      = Ok (Some (mkEnd 0 (Some (bad, length judged, total_values judged)))) /\
    reports (fun l => increasing l /\ below (rounded u) l) judged bad.
Proof.
  intros prog input ss fs one u lists N0 F I C U judged M. rewrite encode_main_runs by auto.
  destruct (encode_reports (last_of min_of 0%N ss) (last_of rank_of 0%N ss) _ _ one u lists C U M)
    as (bad & E & R).
  exists bad. split; auto. unfold check_file. rewrite I, E. reflexivity.
Qed.

Theorem encode_main_stops : forall prog input ss fs one u lists l r,
  ss <> [] -> Forall check_setting ss -> fs input = Some (collection_file one u lists) ->
  collection_ok one u lists -> (3 <= u)%N ->
  last_of runs_of false ss = true -> last_of levelwise_of false ss = false ->
  In l (longer_than (last_of min_of 0 ss mod 2 ^ 32)%N lists) -> kept_set 1 (rounded u) l r -> ~ mixed_block r ->
  encode_main (prog :: input :: written_all ss) fs = UB OutOfBounds.
Proof.
  intros prog input ss fs one u lists l r N0 F I C U Hr Hl J K M. rewrite encode_main_runs by auto.
  unfold check_file. rewrite I, Hr, Hl. rewrite (encode_stops _ _ _ _ _ _ _ C U J K M). reflexivity.
Qed.

Theorem encode_alone : forall prog input fs, encode_main [prog; input] fs = Ok (Some (mkEnd 1 None)).
Proof. reflexivity. Qed.

Theorem encode_same : forall prog input ss ss' fs,
  ss <> [] -> ss' <> [] -> Forall check_setting ss -> Forall check_setting ss' ->
  last_of min_of 0%N ss = last_of min_of 0%N ss' -> last_of runs_of false ss = last_of runs_of false ss' ->
  last_of levelwise_of false ss = last_of levelwise_of false ss' ->
  (last_of rank_of 0 ss =? 0)%N = (last_of rank_of 0 ss' =? 0)%N ->
  encode_main (prog :: input :: written_all ss) fs = encode_main (prog :: input :: written_all ss') fs.
Proof.
  intros prog input ss ss' fs A B F F' M R L K. rewrite !encode_main_runs by auto. rewrite M, R, L.
  unfold check_file. destruct (fs input); auto. rewrite (encode_rank _ _ _ _ _ _ K). reflexivity.
Qed.

Lemma check_file_status : forall V fs input (verify : list N -> result V) e,
  check_file fs input verify = Ok (Some e) -> e_status e = 0%N.
Proof.
  intros V fs input verify e H. unfold check_file in H. destruct (fs input); [|injection H as <-; reflexivity].
  apply bind_inv in H. destruct H as (v & _ & H). injection H as <-. reflexivity.
Qed.

Lemma bindo_inv : forall A B (m : result (option A)) (f : A -> result (option B)) b,
  bindo m f = Ok (Some b) -> exists a, m = Ok (Some a) /\ f a = Ok (Some b).
Proof. intros A B [[a|]| |] f b H; cbn in H; try discriminate. eauto. Qed.

Theorem encode_status : forall argv fs e, 3 <= length argv -> encode_main argv fs = Ok (Some e) -> e_status e = 0%N.
Proof.
  intros argv fs e L H. unfold encode_main in H. rewrite (proj2 (Nat.ltb_ge _ _)) in H by lia.
  apply bind_inv in H. destruct H as (i & _ & H). apply bindo_inv in H. destruct H as (o & _ & H).
  eapply check_file_status. exact H.
Qed.

Theorem fast_encode_status : forall junk argv fs e, 2 <= length argv ->
  fast_encode_main junk argv fs = Ok (Some e) -> e_status e = 0%N.
Proof.
  intros junk argv fs e L H. unfold fast_encode_main in H. rewrite (proj2 (Nat.ltb_ge _ _)) in H by lia.
  apply bind_inv in H. destruct H as (i & _ & H). apply bindo_inv in H. destruct H as (o & _ & H).
  eapply check_file_status. exact H.
Qed.

Theorem encode_missing : forall prog input ss fs, ss <> [] -> Forall check_setting ss -> fs input = None ->
  encode_main (prog :: input :: written_all ss) fs = Ok (Some (mkEnd 0 None)).
Proof. intros. rewrite encode_main_runs by auto. unfold check_file. rewrite H1. reflexivity. Qed.

Lemma fast_encode_main_runs : forall junk prog input ss fs, Forall fast_check_setting ss ->
  fast_encode_main junk (prog :: input :: written_all ss) fs
  = check_file fs input (verify_fast junk (last_of min_of 0%N ss) (last_of rank_of 0%N ss)
                           (last_of runs_of false ss) (word_checked (last_of wsize_of 64%N ss))).
Proof.
  intros junk prog input ss fs F. unfold fast_encode_main.
  rewrite (proj2 (Nat.ltb_ge _ _)) by (cbn [length]; lia). cbn [arg nth_error bind].
  rewrite fast_check_options_last by auto. reflexivity.
Qed.

Theorem fast_encode_main_reports : forall junk prog input ss fs one u lists,
  Forall fast_check_setting ss -> fs input = Some (collection_file one u lists) ->
  let lw := word_checked (last_of wsize_of 64%N ss) in
  collection_ok one u lists -> fast_universe u lw ->
  (forall i, u16_member (j_hwr (junk i))) ->
  (last_of runs_of false ss = true -> forall i, j_empty (junk i) = Some false) ->
  let judged := longer_than (last_of min_of 0 ss mod 2 ^ 32)%N lists in
  (last_of rank_of 0%N ss = 0%N -> forall l, In l judged ->
     (increasing l /\ below (rounded u) l) \/
     exists r, kept_set (2 ^ N.of_nat lw) (rounded u) l r /\ 10 <= length r) ->
  exists bad,
    fast_encode_main junk (prog :: input :: written_all ss) fs
      = Ok (Some (mkEnd 0 (Some (bad, length judged, total_values judged)))) /\
    reports (fun l => increasing l /\ below (rounded u) l) judged bad.
Proof.
  intros junk prog input ss fs one u lists F I lw C U J0 J1 judged M. rewrite fast_encode_main_runs by auto.
  destruct (fast_encode_reports junk (last_of min_of 0%N ss) (last_of rank_of 0%N ss) _ _ one u lists C U J0 J1 M)
    as (bad & E & R).
  exists bad. split; auto. unfold check_file. rewrite I. unfold lw in E. rewrite E. reflexivity.
Qed.

(** * Missing and wrong values *)

Lemma stoi_arg_end : forall O argv set (o : O), stoi_arg argv set (length argv) o = UB NullDeref.
Proof. intros. unfold stoi_arg. rewrite arg_end. reflexivity. Qed.

Lemma check_step_end : forall argv pre name o, argv = pre ++ [name] -> In name check_names ->
  check_step argv (length pre, o) = UB NullDeref.
Proof.
  intros argv pre name o E I. apply last_arg in E. destruct E as (E0 & E1).
  unfold check_names in I. cbn [map In] in I. unfold check_step.
  repeat destruct I as [I|I]; try (destruct I; fail); subst name; repeat miss E0; hit E0; rewrite E1;
    rewrite ?number_arg_end, ?text_arg_end, ?bool_arg_end, ?rank_arg_end; reflexivity.
Qed.

Lemma fast_check_step_end : forall argv pre name o, argv = pre ++ [name] -> In name fast_check_names ->
  fast_check_step argv (length pre, o) = UB NullDeref.
Proof.
  intros argv pre name o E I. apply last_arg in E. destruct E as (E0 & E1).
  unfold fast_check_names in I. cbn [map In] in I. unfold fast_check_step.
  repeat destruct I as [I|I]; try (destruct I; fail); subst name; repeat miss E0; hit E0; rewrite E1;
    rewrite ?number_arg_end, ?text_arg_end, ?bool_arg_end, ?rank_arg_end, ?stoi_arg_end; reflexivity.
Qed.

Theorem check_missing_value : forall prog input ss name fs, Forall check_setting ss -> In name check_names ->
  encode_main (prog :: input :: written_all ss ++ [name]) fs = UB NullDeref.
Proof.
  intros prog input ss name fs F I. unfold encode_main.
  rewrite (proj2 (Nat.ltb_ge _ _)) by (cbn [length]; rewrite app_length; cbn [length]; lia).
  cbn [arg nth_error bind]. unfold check_options.
  assert (E : prog :: input :: written_all ss ++ [name]
              = [prog; input] ++ concat (map written ss) ++ [name]) by reflexivity.
  destruct (loop_next _ _ _ _ _ written_nonempty (check_step_ok _) ss [prog; input] [name]
              build_defaults E F) as (fuel & R); [discriminate|].
  cbn [length] in R. cbn [length]. rewrite R. rewrite app_assoc in E.
  rewrite (check_step_end _ _ _ _ E I). reflexivity.
Qed.

Theorem fast_check_missing_value : forall junk prog input ss name fs, Forall fast_check_setting ss ->
  In name fast_check_names ->
  fast_encode_main junk (prog :: input :: written_all ss ++ [name]) fs = UB NullDeref.
Proof.
  intros junk prog input ss name fs F I. unfold fast_encode_main.
  rewrite (proj2 (Nat.ltb_ge _ _)) by (cbn [length]; lia).
  cbn [arg nth_error bind]. unfold fast_check_options.
  assert (E : prog :: input :: written_all ss ++ [name]
              = [prog; input] ++ concat (map written ss) ++ [name]) by reflexivity.
  destruct (loop_next _ _ _ _ _ written_nonempty (fast_check_step_ok _) ss [prog; input] [name]
              build_defaults E F) as (fuel & R); [discriminate|].
  cbn [length] in R. cbn [length]. rewrite R. rewrite app_assoc in E.
  rewrite (fast_check_step_end _ _ _ _ E I). reflexivity.
Qed.

Theorem check_wrong_size : forall prog input ss w rest fs, Forall check_setting ss -> no_number w ->
  encode_main (prog :: input :: written_all ss ++ txt "--min_size" :: w :: rest) fs = Ok None.
Proof.
  intros prog input ss w rest fs F K. unfold encode_main.
  rewrite (proj2 (Nat.ltb_ge _ _)) by (cbn [length]; rewrite app_length; cbn [length]; lia).
  cbn [arg nth_error bind]. unfold check_options.
  assert (E : prog :: input :: written_all ss ++ txt "--min_size" :: w :: rest
              = [prog; input] ++ concat (map written ss) ++ txt "--min_size" :: w :: rest) by reflexivity.
  destruct (loop_next _ _ _ _ _ written_nonempty (check_step_ok _) ss [prog; input]
              (txt "--min_size" :: w :: rest) build_defaults E F) as (fuel & R); [discriminate|].
  cbn [length] in R. cbn [length]. rewrite R. rewrite app_assoc in E. clear R F.
  set (argv := prog :: input :: written_all ss ++ txt "--min_size" :: w :: rest) in *.
  set (pre := [prog; input] ++ concat (map written ss)) in *.
  assert (E0 : nth_error argv (length pre) = Some (txt "--min_size")) by (rewrite E; apply nth_app_0).
  assert (E1 : nth_error argv (S (length pre)) = Some w) by (rewrite E; apply nth_app_1).
  clearbody argv pre. unfold check_step. apply stoull_no_number in K.
  hit E0. unfold number_arg. rewrite (arg_at _ _ _ E1). cbn [bind]. rewrite K. reflexivity.
Qed.

Lemma stoi32_no_number : forall w,
  (decimal w /\ (2 ^ 31 <= decimal_value w)%N) \/ starts_no_number w -> stoi32 w = None.
Proof.
  intros w [(D & L)|H].
  - rewrite stoi32_decimal by auto. rewrite (proj2 (N.ltb_ge _ _)) by auto. reflexivity.
  - assert (Q := stoull_no_number w (or_intror H)). unfold stoull in Q. unfold stoi32.
    destruct w as [|c w]; [reflexivity|].
    destruct (H c w eq_refl) as (A & B & C & D & E).
    revert Q. unfold read_number. cbn [skip_spaces].
    assert (S0 : is_space c = false).
    { unfold is_space. unfold space in A. unfold newline in B. cbn [In] in A.
      apply orb_false_intro; [apply N.eqb_neq; intros ->; apply A; auto|].
      destruct (N.leb_spec 9 c) as [L1|]; [|reflexivity].
      destruct (N.leb_spec c 13) as [L2|]; [|reflexivity]. exfalso.
      assert (Q : (c = 9 \/ c = 10 \/ c = 11 \/ c = 12 \/ c = 13)%N) by lia.
      intuition subst; auto 10. }
    rewrite S0. rewrite (proj2 (N.eqb_neq c 45)) by auto. rewrite (proj2 (N.eqb_neq c 43)) by auto.
    cbn [read_digits].
    assert (I0 : is_digit c = false).
    { unfold is_digit. destruct (N.leb_spec 48 c); [|reflexivity].
      destruct (N.leb_spec c 57); [|reflexivity]. exfalso. apply E. lia. }
    rewrite I0. reflexivity.
Qed.

Theorem fast_check_wrong_word : forall junk prog input ss w rest fs, Forall fast_check_setting ss ->
  (decimal w /\ (2 ^ 31 <= decimal_value w)%N) \/ starts_no_number w ->
  fast_encode_main junk (prog :: input :: written_all ss ++ txt "--wsize" :: w :: rest) fs = Ok None.
Proof.
  intros junk prog input ss w rest fs F K. unfold fast_encode_main.
  rewrite (proj2 (Nat.ltb_ge _ _)) by (cbn [length]; lia).
  cbn [arg nth_error bind]. unfold fast_check_options.
  assert (E : prog :: input :: written_all ss ++ txt "--wsize" :: w :: rest
              = [prog; input] ++ concat (map written ss) ++ txt "--wsize" :: w :: rest) by reflexivity.
  destruct (loop_next _ _ _ _ _ written_nonempty (fast_check_step_ok _) ss [prog; input]
              (txt "--wsize" :: w :: rest) build_defaults E F) as (fuel & R); [discriminate|].
  cbn [length] in R. cbn [length]. rewrite R. rewrite app_assoc in E. clear R F.
  set (argv := prog :: input :: written_all ss ++ txt "--wsize" :: w :: rest) in *.
  set (pre := [prog; input] ++ concat (map written ss)) in *.
  assert (E0 : nth_error argv (length pre) = Some (txt "--wsize")) by (rewrite E; apply nth_app_0).
  assert (E1 : nth_error argv (S (length pre)) = Some w) by (rewrite E; apply nth_app_1).
  clearbody argv pre. unfold fast_check_step. apply stoi32_no_number in K.
  do 4 miss E0. hit E0. unfold stoi_arg. rewrite (arg_at _ _ _ E1). cbn [bind]. rewrite K. reflexivity.
Qed.

(** * The intersection checkers *)

Lemma stoi64_decimal : forall w, decimal w ->
  stoi64 w = if N.ltb (decimal_value w) (2 ^ 31) then Some (decimal_value w) else None.
Proof. intros w H. unfold stoi64. rewrite decimal_number by auto. reflexivity. Qed.

Theorem check_log_loaded : forall text queries, log_of text queries ->
  Forall (Forall (fun i => i < 2 ^ 31)%N) queries -> check_query_log (Some text) = Some queries.
Proof. intros. apply log_loaded with (2 ^ 31)%N; auto. apply stoi64_decimal. Qed.

Theorem check_log_fails : forall text queries q i, log_of text queries -> In q queries -> In i q ->
  (2 ^ 31 <= i)%N -> check_query_log (Some text) = None.
Proof. intros. eapply log_fails with (bound := (2 ^ 31)%N); eauto. apply stoi64_decimal. Qed.

Lemma intersection_check_runs : forall prog sequences log rest fs check text queries file v,
  fs log = Some text -> log_of text queries -> Forall (Forall (fun i => i < 2 ^ 31)%N) queries ->
  fs sequences = Some file -> check file queries = Ok v ->
  intersection_check (prog :: sequences :: log :: rest) fs check = Ok (Some (mkEnd 0 (Some v))).
Proof.
  intros prog sequences log rest fs check text queries file v L T Q S C. unfold intersection_check.
  rewrite (proj2 (Nat.ltb_ge _ _)) by (cbn [length]; lia). cbn [arg nth_error bind].
  rewrite L, (check_log_loaded _ _ T Q), S. cbn [oget bind]. rewrite C. reflexivity.
Qed.

Theorem intersection_main_verdict :
  forall fm min_size max_size rank_type block runs levelwise one u lists hc sched sort prog sequences log rest text queries,
  formats_ok fm -> collection_ok one u lists -> (2 <= u)%N ->
  loadable_options rank_type block levelwise ->
  Forall (stored_ok u (built_variant rank_type levelwise) runs) (kept_lists min_size max_size lists) ->
  (1 <= hc < 2 ^ 16)%N -> (3 <= u \/ hc <= 3)%N ->
  (forall nq, valid_scheduler (fst (sched nq)) /\ valid_scheduler (snd (sched nq))) -> valid_sort sort ->
  log_of text queries -> Forall (Forall (fun i => i < 2 ^ 31)%N) queries ->
  queries <> [] -> Forall (query_ok (kept_lists min_size max_size lists)) queries ->
  exists file v,
    build_tries fm min_size max_size rank_type block runs levelwise (collection_file one u lists) = Ok file /\
    (forall fs, fs sequences = Some file -> fs log = Some text ->
       intersection_main fm sched hc sort (prog :: sequences :: log :: rest) fs = Ok (Some (mkEnd 0 (Some v)))) /\
    verdict (fun k q => exists r,
      (let* ts := each_ok (bin_make u (built_variant rank_type levelwise) runs)
                          (lists_at (kept_lists min_size max_size lists) q) in
       Intersect Bin (fst (sched k)) (snd (sched k)) hc (map bin_ops ts) runs true) = Ok r /\
      is_intersection (lists_at (kept_lists min_size max_size lists) q) r) queries v /\
    (runs = false -> v = (false, length (short_queries queries))).
Proof.
  intros fm mi ma rank block runs lw one u lists hc sched sort prog sequences log rest text queries
    FM C U LO ST HC HU SC SO LG IDS QN QO.
  destruct (checker_verdict fm mi ma rank block runs lw one u lists hc sched sort queries
              FM C U LO ST HC HU SC SO QN QO) as (file & v & B & K & V & R).
  exists file, v. split; [exact B|]. split; [|split; [exact V|exact R]].
  intros fs S L. eapply intersection_check_runs; eauto.
Qed.

Theorem fast_intersection_main_verdict :
  forall fm junk min_size max_size rank_type runs levelwise one u lists blank hc sched sort prog sequences log rest text queries,
  formats_ok fm -> collection_ok one u lists -> fast_universe u 6 ->
  (rank_type < 2 ^ 32)%N -> rank_type <> 1%N ->
  junk_ok junk -> blank_ok blank -> Forall (fast_ok u) (kept_lists min_size max_size lists) ->
  (runs = true -> forall i, j_empty (junk i) = Some false) ->
  (1 <= hc < 2 ^ 16)%N -> (64 < u \/ hc = 1)%N ->
  (forall nq, valid_scheduler (fst (sched nq)) /\ valid_scheduler (snd (sched nq))) -> valid_sort sort ->
  log_of text queries -> Forall (Forall (fun i => i < 2 ^ 31)%N) queries ->
  queries <> [] -> Forall (query_ok (kept_lists min_size max_size lists)) queries ->
  exists file v,
    build_fast_tries fm junk min_size max_size rank_type runs levelwise 6 (collection_file one u lists)
      = Ok file /\
    (forall fs, fs sequences = Some (without_word_size file) -> fs log = Some text ->
       fast_intersection_main fm (blank 6) sched hc sort (prog :: sequences :: log :: rest) fs
       = Ok (Some (mkEnd 0 (Some v)))) /\
    verdict (fun k q => exists r,
      (let* ts := each_ok (fun i => fast_make u 6 (j_hwr (junk (N.to_nat i))) (j_empty (junk (N.to_nat i))) runs
                                      (nth (N.to_nat i) (kept_lists min_size max_size lists) [])) q in
       Intersect (Fast 6) (fst (sched k)) (snd (sched k)) hc (map fast_ops ts) runs true) = Ok r /\
      is_intersection (lists_at (kept_lists min_size max_size lists) q) r) queries v /\
    (runs = false -> v = (false, length (short_queries queries))).
Proof.
  intros fm junk mi ma rank runs lw one u lists blank hc sched sort prog sequences log rest text queries
    FM C U R0 R1 J B0 ST JE HC HU SC SO LG IDS QN QO.
  destruct (fast_checker_verdict fm junk mi ma rank runs lw one u lists blank hc sched sort queries
              FM C U R0 R1 J B0 ST JE HC HU SC SO QN QO) as (file & v & B & K & V & R).
  exists file, v. split; [exact B|]. split; [|split; [exact V|exact R]].
  intros fs S L. eapply intersection_check_runs; eauto.
Qed.

Theorem intersection_status : forall argv fs check e, 3 <= length argv ->
  intersection_check argv fs check = Ok (Some e) -> e_status e = 0%N.
Proof.
  intros argv fs check e L H. unfold intersection_check in H. rewrite (proj2 (Nat.ltb_ge _ _)) in H by lia.
  apply bind_inv in H. destruct H as (s & _ & H). apply bind_inv in H. destruct H as (l & _ & H).
  destruct (check_query_log (fs l)); [|discriminate].
  apply bind_inv in H. destruct H as (f & _ & H). apply bind_inv in H. destruct H as (v & _ & H).
  injection H as <-. reflexivity.
Qed.

Theorem intersection_main_status : forall fm sched hc sort argv fs e, 3 <= length argv ->
  intersection_main fm sched hc sort argv fs = Ok (Some e) -> e_status e = 0%N.
Proof. intros fm sched hc sort argv fs e. apply intersection_status. Qed.

Theorem fast_intersection_main_status : forall fm blank sched hc sort argv fs e, 3 <= length argv ->
  fast_intersection_main fm blank sched hc sort argv fs = Ok (Some e) -> e_status e = 0%N.
Proof. intros fm blank sched hc sort argv fs e. apply intersection_status. Qed.

Theorem intersection_large_id : forall fm sched hc sort prog sequences log rest fs text queries q i,
  fs log = Some text -> log_of text queries -> In q queries -> In i q -> (2 ^ 31 <= i)%N ->
  intersection_main fm sched hc sort (prog :: sequences :: log :: rest) fs = Ok None.
Proof.
  intros fm sched hc sort prog sequences log rest fs text queries q i L T Q I B.
  unfold intersection_main, intersection_check.
  rewrite (proj2 (Nat.ltb_ge _ _)) by (cbn [length]; lia). cbn [arg nth_error bind].
  rewrite L, (check_log_fails _ _ _ _ T Q I B). reflexivity.
Qed.

Theorem intersection_no_file : forall fm sched hc sort prog sequences log rest fs,
  fs sequences = None -> fs log = None ->
  intersection_main fm sched hc sort (prog :: sequences :: log :: rest) fs = UB Indeterminate.
Proof.
  intros fm sched hc sort prog sequences log rest fs S L. unfold intersection_main, intersection_check.
  rewrite (proj2 (Nat.ltb_ge _ _)) by (cbn [length]; lia). cbn [arg nth_error bind]. rewrite L, S. reflexivity.
Qed.

(** * The script *)

Lemma sorted_unique : forall a b, StronglySorted lt a -> StronglySorted lt b ->
  (forall i, In i a <-> In i b) -> a = b.
Proof.
  induction a as [|x a IH]; intros [|y b] A B I.
  - reflexivity.
  - exfalso. apply (proj2 (I y)). left. reflexivity.
  - exfalso. apply (proj1 (I x)). left. reflexivity.
  - inversion A as [|? ? A1 A2]; subst. inversion B as [|? ? B1 B2]; subst.
    rewrite Forall_forall in A2, B2.
    assert (x = y).
    { destruct (proj1 (I x) (or_introl eq_refl)) as [|P]; auto.
      destruct (proj2 (I y) (or_introl eq_refl)) as [|Q]; auto.
      apply A2 in Q. apply B2 in P. lia. }
    subst y. f_equal. apply IH; auto. intros i. split; intros K.
    + destruct (proj1 (I i) (or_intror K)) as [<-|]; auto. apply A2 in K. lia.
    + destruct (proj2 (I i) (or_intror K)) as [<-|]; auto. apply B2 in K. lia.
Qed.

Lemma reports_unique : forall ok lists a b, reports ok lists a -> reports ok lists b -> a = b.
Proof.
  intros ok lists a b (A & IA) (B & IB). apply sorted_unique; auto. intros i. rewrite IA, IB. tauto.
Qed.

Definition script_settings (rank : setting) (runs levelwise : string) : list setting :=
  [MinSize (txt "4096"); rank; Runs (txt runs); Levelwise (txt levelwise)].

Definition script_ranks : list (list string * setting) :=
  [(["v"], RankV); (["v5"], RankOther (txt "v5")); (["il"; "128"], RankIl (txt "128"));
   (["il"; "256"], RankIl (txt "256")); (["il"; "512"], RankIl (txt "512"))]%string.

Lemma script_line_settings : forall prog collection rank s runs lw, In (rank, s) script_ranks ->
  script_line prog collection rank runs lw = prog :: collection :: written_all (script_settings s runs lw).
Proof.
  intros prog collection rank s runs lw I. unfold script_ranks in I. cbn [In] in I.
  repeat destruct I as [I|I]; try (destruct I; fail); injection I as <- <-; reflexivity.
Qed.

Ltac known := let Q := fresh in intros Q; vm_compute in Q; repeat destruct Q as [Q|Q]; try discriminate Q; destruct Q.

Lemma script_settings_ok : forall rank s runs lw, In (rank, s) script_ranks ->
  In runs ["t"; "f"]%string -> In lw ["t"; "f"]%string -> Forall check_setting (script_settings s runs lw).
Proof.
  intros rank s runs lw I R L.
  assert (D : forall w, w <> [] -> forallb is_digit w = true -> decimal w).
  { intros w N0 F. split; auto. apply Forall_forall. intros c K. rewrite forallb_forall in F.
    apply F in K. unfold is_digit in K. apply andb_prop in K. destruct K as (A & B).
    apply N.leb_le in A. apply N.leb_le in B. lia. }
  assert (T : forall w, In w ["t"; "f"]%string -> ~ In (txt w) check_names).
  { intros w [<-|[<-|[]]]; known. }
  unfold script_settings. constructor; [|constructor; [|constructor; [|constructor; [|constructor]]]].
  - split; [apply D; [discriminate|reflexivity]|reflexivity].
  - unfold script_ranks in I. cbn [In] in I.
    repeat destruct I as [I|I]; try (destruct I; fail); injection I as _ <-;
      cbn [check_setting setting_ok]; auto;
      try (split; [apply D; [discriminate|reflexivity]|reflexivity]).
    split; [discriminate|]. split; [discriminate|]. known.
  - apply T. exact R.
  - apply T. exact L.
Qed.

Lemma script_min : forall s runs lw rank, In (rank, s) script_ranks ->
  last_of min_of 0%N (script_settings s runs lw) = 4096%N.
Proof.
  intros s runs lw rank I. unfold script_ranks in I. cbn [In] in I.
  repeat destruct I as [I|I]; try (destruct I; fail); injection I as _ <-; reflexivity.
Qed.

Lemma script_runs : forall s runs lw rank, In (rank, s) script_ranks ->
  last_of runs_of false (script_settings s runs lw) = is_t (txt runs).
Proof.
  intros s runs lw rank I. unfold script_ranks in I. cbn [In] in I.
  repeat destruct I as [I|I]; try (destruct I; fail); injection I as _ <-; reflexivity.
Qed.

Lemma script_levelwise : forall s runs lw rank, In (rank, s) script_ranks ->
  last_of levelwise_of false (script_settings s runs lw) = is_t (txt lw).
Proof.
  intros s runs lw rank I. unfold script_ranks in I. cbn [In] in I.
  repeat destruct I as [I|I]; try (destruct I; fail); injection I as _ <-; reflexivity.
Qed.

Lemma script_lines : forall prog collection argv, In argv (encoding_script prog collection) ->
  exists rank s runs lw, In (rank, s) script_ranks /\ In runs ["t"; "f"]%string /\ In lw ["t"; "f"]%string /\
    argv = script_line prog collection rank runs lw.
Proof.
  intros prog collection argv I. unfold encoding_script in I. cbv zeta in I. cbn [In] in I.
  repeat destruct I as [<-|I]; try (destruct I; fail);
    eexists; eexists; eexists; eexists; (split; [|split; [|split; [|reflexivity]]]);
    unfold script_ranks; cbn [In]; eauto 10.
Qed.

Theorem script_covers : forall prog collection rank runs levelwise,
  In rank [["v"]; ["v5"]; ["il"; "128"]; ["il"; "256"]; ["il"; "512"]]%string ->
  In runs ["t"; "f"]%string -> In levelwise ["t"; "f"]%string ->
  In (script_line prog collection rank runs levelwise) (encoding_script prog collection).
Proof.
  intros prog collection rank runs levelwise HR HN HL. unfold encoding_script. cbv zeta. cbn [In] in HR, HN, HL.
  generalize (script_line prog collection). intros line.
  repeat destruct HR as [<-|HR]; try (destruct HR; fail);
    repeat destruct HN as [<-|HN]; try (destruct HN; fail);
    repeat destruct HL as [<-|HL]; try (destruct HL; fail); cbn [In]; auto 25.
Qed.

Theorem script_reports : forall prog collection fs one u lists,
  fs collection = Some (collection_file one u lists) -> collection_ok one u lists -> (3 <= u)%N ->
  let judged := longer_than 4096 lists in
  (forall l, In l judged -> exists r, kept_set 1 (rounded u) l r /\ mixed_block r) ->
  exists bad,
    reports (fun l => increasing l /\ below (rounded u) l) judged bad /\
    Forall (fun argv => encode_main argv fs
                        = Ok (Some (mkEnd 0 (Some (bad, length judged, total_values judged)))))
           (encoding_script prog collection).
Proof.
  intros prog collection fs one u lists I C U judged M.
  assert (K : forall argv, In argv (encoding_script prog collection) -> exists bad,
    encode_main argv fs = Ok (Some (mkEnd 0 (Some (bad, length judged, total_values judged)))) /\
    reports (fun l => increasing l /\ below (rounded u) l) judged bad).
  { intros argv L. destruct (script_lines _ _ _ L) as (rank & s & runs & lw & K1 & K2 & K3 & ->).
    rewrite (script_line_settings _ _ _ _ _ _ K1).
    destruct (encode_main_reports prog collection (script_settings s runs lw) fs one u lists) as (bad & E & R);
      auto.
    - discriminate.
    - eapply script_settings_ok; eauto.
    - destruct (last_of levelwise_of false _); lia.
    - rewrite (script_min _ _ _ _ K1). intros _ _. exact M.
    - rewrite (script_min _ _ _ _ K1) in E, R. exists bad. split; [exact E|exact R]. }
  destruct (K (script_line prog collection ["v"] "f" "f")%string) as (bad & _ & R); [left; reflexivity|].
  exists bad. split; auto. apply Forall_forall. intros argv L. destruct (K argv L) as (bad' & E & R').
  rewrite (reports_unique _ _ _ _ R R'). exact E.
Qed.

Theorem script_repeats : forall prog collection fs rank rank' runs levelwise,
  In rank [["v5"]; ["il"; "128"]; ["il"; "256"]; ["il"; "512"]]%string ->
  In rank' [["v5"]; ["il"; "128"]; ["il"; "256"]; ["il"; "512"]]%string ->
  In runs ["t"; "f"]%string -> In levelwise ["t"; "f"]%string ->
  encode_main (script_line prog collection rank runs levelwise) fs
  = encode_main (script_line prog collection rank' runs levelwise) fs.
Proof.
  intros prog collection fs rank rank' runs lw I I' R L.
  assert (K : forall r, In r [["v5"]; ["il"; "128"]; ["il"; "256"]; ["il"; "512"]]%string ->
    exists s, In (r, s) script_ranks /\ (last_of rank_of 0 (script_settings s runs lw) =? 0)%N = false).
  { intros r J. cbn [In] in J. repeat destruct J as [<-|J]; try (destruct J; fail); unfold script_ranks; cbn [In];
      eexists; split; eauto 10. }
  destruct (K _ I) as (s & J & E). destruct (K _ I') as (s' & J' & E').
  rewrite (script_line_settings _ _ _ _ _ _ J), (script_line_settings _ _ _ _ _ _ J').
  apply encode_same; try discriminate.
  - eapply script_settings_ok; eauto.
  - eapply script_settings_ok; eauto.
  - rewrite (script_min _ _ _ _ J), (script_min _ _ _ _ J'). reflexivity.
  - rewrite (script_runs _ _ _ _ J), (script_runs _ _ _ _ J'). reflexivity.
  - rewrite (script_levelwise _ _ _ _ J), (script_levelwise _ _ _ _ J'). reflexivity.
  - rewrite E, E'. reflexivity.
Qed.

Lemma set_keeps : forall u l, (3 <= u <= 2 ^ 48)%N -> l <> [] -> shorter 32 l -> increasing l ->
  below (rounded u) l -> kept_set 1 (rounded u) l l.
Proof.
  intros u l U N0 S I B. destruct (flat_any_list u l U N0 S) as (t & s & r & K & _ & _ & _ & E).
  assert (Q : kept_set 1 (rounded u) l r) by (exists s; auto).
  rewrite <- (proj2 (bin_same_iff u l r Q) (conj I B)) at 2. exact Q.
Qed.

Theorem script_accepts : forall prog collection fs one u lists,
  fs collection = Some (collection_file one u lists) -> collection_ok one u lists -> (3 <= u)%N ->
  let judged := longer_than 4096 lists in
  (forall l, In l judged -> increasing l /\ below u l /\ mixed_block l) ->
  Forall (fun argv => encode_main argv fs
                      = Ok (Some (mkEnd 0 (Some ([], length judged, total_values judged)))))
         (encoding_script prog collection).
Proof.
  intros prog collection fs one u lists I C U judged M.
  assert (B : forall l, In l judged -> increasing l /\ below (rounded u) l /\ mixed_block l).
  { intros l J. destruct (M l J) as (A & B & D). split; auto. split; auto.
    apply below_mono with u; auto. apply rounded_ge. lia. }
  destruct (script_reports prog collection fs one u lists I C U) as (bad & R & F).
  - intros l J. exists l. destruct (B l J) as (B1 & B2 & B3). split; auto. apply set_keeps; auto.
    + split; auto. destruct C as (_ & C & _). apply N.lt_le_incl. apply N.lt_trans with (1 := C). reflexivity.
    + intros ->. destruct B3 as (x & y & [] & _).
    + destruct C as (_ & _ & _ & C & _). apply filter_In in J. destruct J as (J & _).
      rewrite Forall_forall in C. apply C in J. unfold shorter in *. apply N.lt_trans with (1 := J). reflexivity.
  - assert (bad = []) as ->; [|exact F].
    apply reports_unique with (1 := R). split; [constructor|]. intros i. split; [intros []|].
    intros (l & J & Q). apply Q. apply nth_error_In in J. destruct (B l J) as (B1 & B2 & _). auto.
Qed.
