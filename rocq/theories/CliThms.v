(** Proofs about the command lines. *)

From Coq Require Import String.
From Verif Require Import Base Facts FlatTrie LevelTrie FastTrie ParallelFor Intersection Tries Serialize
  Tools Text SpecText TextThms Cli SpecCli.

Lemma text_eqb_refl : forall a, text_eqb a a = true.
Proof. induction a as [|x a IH]; cbn [text_eqb]; auto. rewrite N.eqb_refl, IH. reflexivity. Qed.

Lemma text_eqb_eq : forall a b, text_eqb a b = true <-> a = b.
Proof.
  induction a as [|x a IH]; intros [|y b]; cbn [text_eqb]; split; intros H; try congruence; auto.
  - apply andb_prop in H. destruct H as (A & B). apply N.eqb_eq in A. apply IH in B. congruence.
  - injection H as -> ->. rewrite N.eqb_refl. cbn. apply IH. reflexivity.
Qed.

Lemma text_eqb_neq : forall a b, a <> b -> text_eqb a b = false.
Proof.
  intros a b H. destruct (text_eqb a b) eqn:E; auto. apply text_eqb_eq in E. congruence.
Qed.

Lemma text_eqb_t : forall w, text_eqb w (txt "t") = is_t w.
Proof.
  intros w. unfold is_t. destruct (list_eq_dec N.eq_dec w (txt "t")) as [->|D].
  - apply text_eqb_refl.
  - apply text_eqb_neq, D.
Qed.

(** * Arguments *)

Lemma arg_at : forall argv i a, nth_error argv i = Some a -> arg argv i = Ok a.
Proof. intros argv i a H. unfold arg. rewrite H. reflexivity. Qed.

Lemma arg_end : forall argv, arg argv (length argv) = UB NullDeref.
Proof.
  intros argv. unfold arg. rewrite (proj2 (nth_error_None argv (length argv))) by lia.
  rewrite Nat.eqb_refl. reflexivity.
Qed.

Lemma when_miss : forall O argv name (body : nat -> O -> _) i o a, nth_error argv i = Some a ->
  a <> txt name -> when_arg argv name body (i, o) = Ok (Some (i, o)).
Proof.
  intros. unfold when_arg. cbn [fst snd]. rewrite (arg_at _ _ a) by auto. cbn [bind].
  rewrite text_eqb_neq by auto. reflexivity.
Qed.

Lemma when_hit : forall O argv name (body : nat -> O -> _) i o, nth_error argv i = Some (txt name) ->
  when_arg argv name body (i, o) = body (S i) o.
Proof.
  intros. unfold when_arg. cbn [fst snd]. rewrite (arg_at _ _ _ H). cbn [bind].
  rewrite text_eqb_refl. reflexivity.
Qed.

Lemma number_arg_ok : forall O argv set i (o : O) w, nth_error argv i = Some w -> decimal w ->
  (decimal_value w < 2 ^ 64)%N -> number_arg argv set i o = Ok (Some (i, set (decimal_value w) o)).
Proof.
  intros. unfold number_arg. rewrite (arg_at _ _ w) by auto. cbn [bind].
  rewrite stoull_decimal by auto. rewrite (proj2 (N.ltb_lt _ _)) by auto. reflexivity.
Qed.

Lemma text_arg_ok : forall O argv set i (o : O) w, nth_error argv i = Some w ->
  text_arg argv set i o = Ok (Some (i, set w o)).
Proof. intros. unfold text_arg. rewrite (arg_at _ _ w) by auto. reflexivity. Qed.

Lemma bool_arg_ok : forall O argv set i (o : O) w, nth_error argv i = Some w ->
  bool_arg argv set i o = Ok (Some (i, set (is_t w) o)).
Proof. intros. unfold bool_arg. rewrite (arg_at _ _ w) by auto. cbn [bind]. rewrite text_eqb_t. reflexivity. Qed.

Lemma atoi_arg_ok : forall O argv bits set i (o : O) w, nth_error argv i = Some w -> decimal w ->
  (decimal_value w < 2 ^ 31)%N -> (decimal_value w < 2 ^ bits)%N ->
  atoi_arg argv bits set i o = Ok (Some (i, set (decimal_value w) o)).
Proof.
  intros O argv bits set i o w E D L B. unfold atoi_arg. rewrite (arg_at _ _ w) by auto. cbn [bind].
  unfold atoi. rewrite decimal_number by auto.
  rewrite (proj2 (N.leb_le _ _)) by lia. cbn [bind]. rewrite N.mod_small by auto. reflexivity.
Qed.

Lemma decimal_not_dash : forall w l, decimal w -> w = 45%N :: l -> False.
Proof. intros w l (_ & F) ->. inversion F. lia. Qed.

(** * The loop *)

Section LOOP.
  Context {O T : Type} (argv : list (list N)) (step : nat * O -> result (option (nat * O)))
          (wr : T -> list (list N)) (ok : T -> Prop) (eff : T -> O -> O).
  Hypothesis wr_nonempty : forall s, wr s <> [].
  Hypothesis step_ok : forall pre s post o, argv = pre ++ wr s ++ post -> ok s ->
    step (length pre, o) = Ok (Some (length pre + pred (length (wr s)), eff s o)).

  Lemma loop_settings : forall ss pre post o fuel, argv = pre ++ concat (map wr ss) ++ post ->
    Forall ok ss ->
    arg_loop (length ss + fuel) (length argv) step (length pre) o
    = arg_loop fuel (length argv) step (length (pre ++ concat (map wr ss)))
        (fold_left (fun o s => eff s o) ss o).
  Proof.
    induction ss as [|s ss IH]; intros pre post o fuel E F.
    - cbn [map concat]. rewrite app_nil_r. reflexivity.
    - apply Forall_cons_iff in F. destruct F as (K & F). cbn [map concat] in *. rewrite <- app_assoc in E.
      assert (W := wr_nonempty s).
      assert (L : 0 < length (wr s)) by (destruct (wr s); [congruence|cbn; lia]).
      cbn [length Nat.add arg_loop].
      rewrite (proj2 (Nat.ltb_lt _ _)) by (rewrite E, !app_length; lia).
      rewrite (step_ok _ _ _ _ E) by auto. cbn [bindo].
      replace (S (length pre + pred (length (wr s)))) with (length (pre ++ wr s))
        by (rewrite app_length; lia).
      rewrite app_assoc in E. rewrite (IH _ _ _ _ E) by auto.
      rewrite <- app_assoc. reflexivity.
  Qed.

  Lemma loop_end : forall fuel o, arg_loop fuel (length argv) step (length argv) o = Ok (Some o).
  Proof. intros [|fuel] o; cbn [arg_loop]; rewrite Nat.ltb_irrefl; reflexivity. Qed.

  Lemma settings_count : forall ss, length ss <= length (concat (map wr ss)).
  Proof.
    clear - wr_nonempty. induction ss as [|s ss IH]; cbn [map concat length]; [lia|].
    rewrite app_length. assert (W := wr_nonempty s). destruct (wr s); [congruence|cbn [length]; lia].
  Qed.

  Lemma loop_all : forall ss pre o, argv = pre ++ concat (map wr ss) -> Forall ok ss ->
    arg_loop (length argv) (length argv) step (length pre) o
    = Ok (Some (fold_left (fun o s => eff s o) ss o)).
  Proof.
    intros ss pre o E F. assert (C := settings_count ss).
    replace (length argv) with (length ss + (length argv - length ss)) at 1
      by (rewrite E, app_length; lia).
    assert (E' : argv = pre ++ concat (map wr ss) ++ []) by (rewrite app_nil_r; auto).
    rewrite (loop_settings _ _ _ _ _ E') by auto. rewrite <- E. apply loop_end.
  Qed.

  (** The first step after the settings. *)
  Lemma loop_next : forall ss pre post o, argv = pre ++ concat (map wr ss) ++ post -> Forall ok ss ->
    post <> [] ->
    exists fuel, arg_loop (length argv) (length argv) step (length pre) o
      = bindo (step (length (pre ++ concat (map wr ss)), fold_left (fun o s => eff s o) ss o))
          (fun st => let (i, o) := st in arg_loop fuel (length argv) step (S i) o).
  Proof.
    intros ss pre post o E F N0.
    assert (C := settings_count ss).
    assert (P : 0 < length post) by (destruct post; [congruence|cbn; lia]).
    assert (L : length argv = length pre + length (concat (map wr ss)) + length post)
      by (rewrite E, !app_length; lia).
    exists (length argv - length ss - 1).
    replace (arg_loop (length argv)) with (@arg_loop O (length ss + S (length argv - length ss - 1)))
      by (f_equal; lia).
    rewrite (loop_settings _ _ _ _ _ E) by auto. cbn [arg_loop].
    rewrite (proj2 (Nat.ltb_lt _ _)) by (rewrite app_length; lia). reflexivity.
  Qed.
End LOOP.

(** * The build tools *)

Definition effect (s : setting) (o : build_opts) : build_opts :=
  match s with
  | MinSize w => set_min (decimal_value w) o
  | MaxSize w => set_max (decimal_value w) o
  | RankV => set_rank 0 o
  | RankIl w => set_block (decimal_value w) (set_rank 1 o)
  | RankOther _ => set_rank 2 o
  | Runs w => set_runs (is_t w) o
  | OutFile w => set_out w o
  | Levelwise w => set_levelwise (is_t w) o
  | WordSize w => set_wsize (decimal_value w) o
  | Verbose w => set_verbose (is_t w) o
  | VerboseFlag => set_verbose true o
  | Ignored _ => o
  end.

Lemma effects : forall ss o, fold_left (fun o s => effect s o) ss o
  = mkBuildOpts (last_of min_of (b_min o) ss) (last_of max_of (b_max o) ss)
      (last_of rank_of (b_rank o) ss) (last_of block_of (b_block o) ss)
      (last_of wsize_of (b_wsize o) ss) (last_of runs_of (b_runs o) ss)
      (last_of levelwise_of (b_levelwise o) ss) (last_of verbose_of (b_verbose o) ss)
      (last_of out_of (b_out o) ss).
Proof.
  induction ss as [|s ss IH]; intros o; [destruct o; reflexivity|].
  cbn [fold_left]. rewrite IH. unfold last_of. cbn [fold_left]. destruct s; reflexivity.
Qed.

Lemma nth_app_0 : forall (pre : list (list N)) a post, nth_error (pre ++ a :: post) (length pre) = Some a.
Proof. intros. rewrite nth_error_app2, Nat.sub_diag by lia. reflexivity. Qed.

Lemma nth_app_1 : forall (pre : list (list N)) a b post,
  nth_error (pre ++ a :: b :: post) (S (length pre)) = Some b.
Proof.
  intros. rewrite nth_error_app2 by lia. replace (S (length pre) - length pre) with 1 by lia. reflexivity.
Qed.

Lemma nth_app_2 : forall (pre : list (list N)) a b c post,
  nth_error (pre ++ a :: b :: c :: post) (S (S (length pre))) = Some c.
Proof.
  intros. rewrite nth_error_app2 by lia. replace (S (S (length pre)) - length pre) with 2 by lia. reflexivity.
Qed.

Ltac not_name :=
  match goal with
  | |- txt _ <> txt _ => discriminate
  | H : decimal ?w |- ?w <> txt _ => intros Q; exact (decimal_not_dash _ _ H Q)
  | H : ~ In ?w _ |- ?w <> txt _ => intros Q; apply H; subst w; cbn [map In build_names fast_build_names
      fast_build_valued query_names fast_query_names]; tauto
  end.

Ltac miss E := erewrite when_miss by (try exact E; not_name); cbn [bindo].
Ltac hit E := rewrite (when_hit _ _ _ _ _ _ E).

Lemma rank_v : forall argv i o, nth_error argv i = Some (txt "v") ->
  rank_arg argv i o = Ok (Some (i, set_rank 0 o)).
Proof. intros argv i o E. unfold rank_arg. rewrite (arg_at _ _ _ E). reflexivity. Qed.

Lemma rank_il : forall argv i o w, nth_error argv i = Some (txt "il") -> nth_error argv (S i) = Some w ->
  decimal w -> (decimal_value w < 2 ^ 31)%N ->
  rank_arg argv i o = Ok (Some (S i, set_block (decimal_value w) (set_rank 1 o))).
Proof.
  intros argv i o w E E' D L. unfold rank_arg. rewrite (arg_at _ _ _ E). cbn [bind].
  change (text_eqb (txt "il") (txt "v")) with false. rewrite text_eqb_refl.
  apply atoi_arg_ok with (1 := E'); auto. clear - L. apply N.lt_trans with (1 := L). reflexivity.
Qed.

Lemma rank_other : forall argv i o w, nth_error argv i = Some w -> w <> txt "v" -> w <> txt "il" ->
  rank_arg argv i o = Ok (Some (i, set_rank 2 o)).
Proof.
  intros argv i o w E A B. unfold rank_arg. rewrite (arg_at _ _ _ E). cbn [bind].
  rewrite !text_eqb_neq by auto. reflexivity.
Qed.

Lemma written_nonempty : forall s, written s <> [].
Proof. destruct s; discriminate. Qed.

Ltac value E1 :=
  first [ rewrite (number_arg_ok _ _ _ _ _ _ E1) by tauto
        | rewrite (text_arg_ok _ _ _ _ _ _ E1)
        | rewrite (bool_arg_ok _ _ _ _ _ _ E1) ]; cbn [bindo].

Lemma build_step_ok : forall argv pre s post o, argv = pre ++ written s ++ post -> build_setting s ->
  build_step argv (length pre, o) = Ok (Some (length pre + pred (length (written s)), effect s o)).
Proof.
  intros argv pre s post o E K.
  assert (E0 : forall a l, written s = a :: l -> nth_error argv (length pre) = Some a).
  { intros a l W. rewrite E, W. apply nth_app_0. }
  assert (E1 : forall a b l, written s = a :: b :: l -> nth_error argv (S (length pre)) = Some b).
  { intros a b l W. rewrite E, W. apply nth_app_1. }
  assert (E2 : forall a b c l, written s = a :: b :: c :: l ->
    nth_error argv (S (S (length pre))) = Some c).
  { intros a b c l W. rewrite E, W. apply nth_app_2. }
  clear E. unfold build_step.
  destruct s; cbn [written build_setting setting_ok effect length pred] in *;
    try specialize (E0 _ _ eq_refl); try specialize (E1 _ _ _ eq_refl);
    try specialize (E2 _ _ _ _ eq_refl); try contradiction;
    rewrite ?Nat.add_1_r, ?Nat.add_0_r;
    try replace (length pre + 2) with (S (S (length pre))) by lia.
  - destruct K as (D & L). hit E0. value E1. do 6 miss E1. reflexivity.
  - destruct K as (D & L). miss E0. hit E0. value E1. do 5 miss E1. reflexivity.
  - do 2 miss E0. hit E0. rewrite rank_v by auto. cbn [bindo]. do 4 miss E1. reflexivity.
  - destruct K as (D & L). do 2 miss E0. hit E0. rewrite (rank_il _ _ _ _ E1 E2) by auto. cbn [bindo].
    do 4 miss E2. reflexivity.
  - destruct K as (A & B & K). do 2 miss E0. hit E0. rewrite (rank_other _ _ _ _ E1) by auto.
    cbn [bindo]. do 4 miss E1. reflexivity.
  - do 3 miss E0. hit E0. value E1. do 3 miss E1. reflexivity.
  - do 4 miss E0. hit E0. value E1. do 2 miss E1. reflexivity.
  - do 5 miss E0. hit E0. value E1. miss E1. reflexivity.
  - do 6 miss E0. hit E0. value E1. reflexivity.
  - do 7 miss E0. reflexivity.
Qed.

Theorem build_options_last : forall prog input ss, Forall build_setting ss ->
  build_options (prog :: input :: written_all ss)
  = Ok (Some (mkBuildOpts (last_of min_of 0 ss) (last_of max_of (2 ^ 64 - 1) ss) (last_of rank_of 0 ss)
                (last_of block_of 512 ss) 64 (last_of runs_of false ss)
                (last_of levelwise_of false ss) (last_of verbose_of false ss) (last_of out_of [] ss)))%N.
Proof.
  intros prog input ss F. unfold build_options.
  rewrite (loop_all (prog :: input :: written_all ss) _ written build_setting effect written_nonempty
             (build_step_ok _) ss [prog; input]); auto.
  rewrite effects. cbn [build_defaults b_min b_max b_rank b_block b_wsize b_runs b_levelwise b_verbose b_out].
  assert (W : last_of wsize_of 64%N ss = 64%N).
  { clear - F. unfold last_of. induction F as [|s ss K F IH]; auto. cbn [fold_left].
    destruct s; try exact IH. destruct K. }
  rewrite W. reflexivity.
Qed.

Lemma fast_build_step_ok : forall argv pre s post o, argv = pre ++ written s ++ post ->
  fast_build_setting s ->
  fast_build_step argv (length pre, o) = Ok (Some (length pre + pred (length (written s)), effect s o)).
Proof.
  intros argv pre s post o E K.
  assert (E0 : forall a l, written s = a :: l -> nth_error argv (length pre) = Some a).
  { intros a l W. rewrite E, W. apply nth_app_0. }
  assert (E1 : forall a b l, written s = a :: b :: l -> nth_error argv (S (length pre)) = Some b).
  { intros a b l W. rewrite E, W. apply nth_app_1. }
  assert (E2 : forall a b c l, written s = a :: b :: c :: l ->
    nth_error argv (S (S (length pre))) = Some c).
  { intros a b c l W. rewrite E, W. apply nth_app_2. }
  clear E. unfold fast_build_step.
  destruct s; cbn [written fast_build_setting setting_ok effect length pred] in *;
    try specialize (E0 _ _ eq_refl); try specialize (E1 _ _ _ eq_refl);
    try specialize (E2 _ _ _ _ eq_refl); try contradiction;
    rewrite ?Nat.add_1_r, ?Nat.add_0_r;
    try replace (length pre + 2) with (S (S (length pre))) by lia.
  - destruct K as (D & L). hit E0. value E1. do 7 miss E1. reflexivity.
  - destruct K as (D & L). miss E0. hit E0. value E1. do 6 miss E1. reflexivity.
  - do 2 miss E0. hit E0. rewrite rank_v by auto. cbn [bindo]. do 5 miss E1. reflexivity.
  - destruct K as (D & L). do 2 miss E0. hit E0. rewrite (rank_il _ _ _ _ E1 E2) by auto. cbn [bindo].
    do 5 miss E2. reflexivity.
  - destruct K as (A & B & K). do 2 miss E0. hit E0. rewrite (rank_other _ _ _ _ E1) by auto.
    cbn [bindo]. do 5 miss E1. reflexivity.
  - do 3 miss E0. hit E0. value E1. do 4 miss E1. reflexivity.
  - do 4 miss E0. hit E0. value E1. do 3 miss E1. reflexivity.
  - do 5 miss E0. hit E0. value E1. do 2 miss E1. reflexivity.
  - destruct K as (D & L). do 6 miss E0. hit E0.
    rewrite (atoi_arg_ok _ _ _ _ _ _ _ E1) by
      (auto; clear - L; apply N.lt_trans with (1 := L); reflexivity).
    cbn [bindo]. miss E1. reflexivity.
  - do 7 miss E0. hit E0. reflexivity.
  - do 8 miss E0. reflexivity.
Qed.

Theorem fast_build_options_last : forall prog input ss, Forall fast_build_setting ss ->
  fast_build_options (prog :: input :: written_all ss)
  = Ok (Some (mkBuildOpts (last_of min_of 0 ss) (last_of max_of (2 ^ 64 - 1) ss) (last_of rank_of 0 ss)
                (last_of block_of 512 ss) (last_of wsize_of 64 ss) (last_of runs_of false ss)
                (last_of levelwise_of false ss) (last_of verbose_of false ss) (last_of out_of [] ss)))%N.
Proof.
  intros prog input ss F. unfold fast_build_options.
  rewrite (loop_all (prog :: input :: written_all ss) _ written fast_build_setting effect
             written_nonempty (fast_build_step_ok _) ss [prog; input]); auto.
  rewrite effects. reflexivity.
Qed.

(** * The query tools *)

Definition q_effect (s : query_setting) (o : query_opts) : query_opts :=
  match s with
  | QOut w => mkQueryOpts w (q_verbose o) (q_parallel o)
  | QVerbose w => mkQueryOpts (q_out o) (is_t w) (q_parallel o)
  | QVerboseFlag => mkQueryOpts (q_out o) true (q_parallel o)
  | QParallel w => mkQueryOpts (q_out o) (q_verbose o) (is_t w)
  | QIgnored _ => o
  end.

Lemma q_effects : forall ss o, fold_left (fun o s => q_effect s o) ss o
  = mkQueryOpts (last_of q_out_of (q_out o) ss) (last_of q_verbose_of (q_verbose o) ss)
      (last_of parallel_of (q_parallel o) ss).
Proof.
  induction ss as [|s ss IH]; intros o; [destruct o; reflexivity|].
  cbn [fold_left]. rewrite IH. unfold last_of. cbn [fold_left]. destruct s; reflexivity.
Qed.

Lemma q_written_nonempty : forall s, q_written s <> [].
Proof. destruct s; discriminate. Qed.

Lemma query_step_ok : forall argv pre s post o, argv = pre ++ q_written s ++ post ->
  the_query_setting s ->
  query_step argv (length pre, o) = Ok (Some (length pre + pred (length (q_written s)), q_effect s o)).
Proof.
  intros argv pre s post o E K.
  assert (E0 : forall a l, q_written s = a :: l -> nth_error argv (length pre) = Some a).
  { intros a l W. rewrite E, W. apply nth_app_0. }
  assert (E1 : forall a b l, q_written s = a :: b :: l -> nth_error argv (S (length pre)) = Some b).
  { intros a b l W. rewrite E, W. apply nth_app_1. }
  clear E. unfold query_step.
  destruct s; cbn [q_written the_query_setting q_effect length pred] in *;
    try specialize (E0 _ _ eq_refl); try specialize (E1 _ _ _ eq_refl); try contradiction;
    rewrite ?Nat.add_1_r, ?Nat.add_0_r.
  - hit E0. value E1. do 2 miss E1. reflexivity.
  - miss E0. hit E0. value E1. miss E1. reflexivity.
  - do 2 miss E0. hit E0. value E1. reflexivity.
  - do 3 miss E0. reflexivity.
Qed.

Theorem query_options_last : forall prog sequences log ss,
  ~ In sequences query_names -> ~ In log query_names -> Forall the_query_setting ss ->
  query_options (prog :: sequences :: log :: q_written_all ss)
  = Ok (Some (mkQueryOpts (last_of q_out_of [] ss) (last_of q_verbose_of false ss)
                (last_of parallel_of true ss))).
Proof.
  intros prog sequences log ss A B F. unfold query_options.
  rewrite (loop_all (prog :: sequences :: log :: q_written_all ss) _ q_written the_query_setting q_effect
             q_written_nonempty (query_step_ok _) (QIgnored sequences :: QIgnored log :: ss) [prog]);
    auto.
  rewrite q_effects. reflexivity.
Qed.

Lemma fast_query_step_ok : forall argv pre s post o, argv = pre ++ q_written s ++ post ->
  fast_query_setting s ->
  fast_query_step argv (length pre, o) = Ok (Some (length pre + pred (length (q_written s)), q_effect s o)).
Proof.
  intros argv pre s post o E K.
  assert (E0 : forall a l, q_written s = a :: l -> nth_error argv (length pre) = Some a).
  { intros a l W. rewrite E, W. apply nth_app_0. }
  assert (E1 : forall a b l, q_written s = a :: b :: l -> nth_error argv (S (length pre)) = Some b).
  { intros a b l W. rewrite E, W. apply nth_app_1. }
  clear E. unfold fast_query_step.
  destruct s; cbn [q_written fast_query_setting q_effect length pred] in *;
    try specialize (E0 _ _ eq_refl); try specialize (E1 _ _ _ eq_refl); try contradiction;
    rewrite ?Nat.add_1_r, ?Nat.add_0_r.
  - hit E0. cbn [bindo pred]. miss E0. reflexivity.
  - miss E0. hit E0. value E1. reflexivity.
  - do 2 miss E0. reflexivity.
Qed.

Theorem fast_query_options_last : forall prog sequences log ss,
  ~ In sequences fast_query_names -> ~ In log fast_query_names -> Forall fast_query_setting ss ->
  fast_query_options (prog :: sequences :: log :: q_written_all ss)
  = Ok (Some (mkQueryOpts [] (last_of q_verbose_of false ss) (last_of parallel_of false ss))).
Proof.
  intros prog sequences log ss A B F. unfold fast_query_options.
  rewrite (loop_all (prog :: sequences :: log :: q_written_all ss) _ q_written fast_query_setting q_effect
             q_written_nonempty (fast_query_step_ok _) (QIgnored sequences :: QIgnored log :: ss) [prog]);
    auto.
  rewrite q_effects. cbn [q_out q_verbose q_parallel].
  assert (W : last_of q_out_of [] (QIgnored sequences :: QIgnored log :: ss) = []).
  { clear - F. unfold last_of. cbn [fold_left q_out_of].
    induction F as [|s ss K F IH]; auto. cbn [fold_left].
    destruct s; try exact IH. destruct K. }
  rewrite W. reflexivity.
Qed.
