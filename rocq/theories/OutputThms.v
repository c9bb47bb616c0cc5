(** Which files the tools change. *)

From Coq Require Import String.
From Verif Require Import Base FlatTrie LevelTrie FastTrie ParallelFor Intersection Tries Serialize Tools
  Text Report Table Cli Facts SpecText SpecCli SpecTools SpecOutput CliThms CliTools EndsTools.

(** What --out can be after any number of steps. *)
Definition out_ok (argv : list (list N)) (w : list N) : Prop := w = [] \/ named_output argv w.

Lemma arg_inv : forall argv i a, arg argv i = Ok a -> nth_error argv i = Some a.
Proof.
  intros argv i a E. unfold arg in E. destruct (nth_error argv i); [congruence|]. destruct (i =? length argv); discriminate.
Qed.

(** An option other than --out does not change it. *)
Definition keeps {O} (out : O -> list N) (body : nat -> O -> result (option (nat * O))) : Prop :=
  forall i o i' o', body i o = Ok (Some (i', o')) -> out o' = out o.

Lemma when_keeps : forall O (out : O -> list N) argv name body st i' o', keeps out body ->
  when_arg argv name body st = Ok (Some (i', o')) -> out o' = out (snd st).
Proof.
  intros O out argv name body st i' o' K E. unfold when_arg in E. apply bind_inv in E. destruct E as (a & _ & E).
  destruct (text_eqb a (txt name)); [eapply K; eauto|]. assert (st = (i', o')) as -> by congruence. reflexivity.
Qed.

Lemma number_keeps : forall O (out : O -> list N) argv set, (forall v o, out (set v o) = out o) ->
  keeps out (number_arg argv set).
Proof.
  intros O out argv set K i o i' o' E. unfold number_arg in E. apply bind_inv in E. destruct E as (a & _ & E).
  destruct (stoull a) as [v|]; [|discriminate]. assert (o' = set v o) as -> by congruence. apply K.
Qed.
Lemma bool_keeps : forall O (out : O -> list N) argv set, (forall v o, out (set v o) = out o) ->
  keeps out (bool_arg argv set).
Proof.
  intros O out argv set K i o i' o' E. unfold bool_arg in E. apply bind_inv in E. destruct E as (a & _ & E).
  assert (o' = set (text_eqb a (txt "t")) o) as -> by congruence. apply K.
Qed.
Lemma atoi_keeps : forall O (out : O -> list N) argv bits set, (forall v o, out (set v o) = out o) ->
  keeps out (atoi_arg argv bits set).
Proof.
  intros O out argv bits set K i o i' o' E. unfold atoi_arg in E. apply bind_inv in E. destruct E as (a & _ & E).
  apply bind_inv in E. destruct E as (v & _ & E). assert (o' = set v o) as -> by congruence. apply K.
Qed.
Lemma rank_keeps : forall argv, keeps b_out (rank_arg argv).
Proof.
  intros argv i o i' o' E. unfold rank_arg in E. apply bind_inv in E. destruct E as (a & _ & E).
  destruct (text_eqb a (txt "v")); [assert (o' = set_rank 0 o) as -> by congruence; reflexivity|].
  destruct (text_eqb a (txt "il")).
  - apply (atoi_keeps _ b_out) in E; [|reflexivity]. rewrite E. reflexivity.
  - assert (o' = set_rank 2 o) as -> by congruence. reflexivity.
Qed.
Lemma flag_keeps : forall O (out : O -> list N) (f : O -> O), (forall o, out (f o) = out o) ->
  keeps out (fun i o => Ok (Some (pred i, f o))).
Proof. intros O out f K i o i' o' E. assert (o' = f o) as -> by congruence. apply K. Qed.

Lemma when_out : forall O (out : O -> list N) argv set st i' o', (forall v o, out (set v o) = v) ->
  out_ok argv (out (snd st)) -> when_arg argv "--out" (text_arg argv set) st = Ok (Some (i', o')) ->
  out_ok argv (out o').
Proof.
  intros O out argv set st i' o' S P E. unfold when_arg in E. apply bind_inv in E. destruct E as (a & A & E).
  destruct (text_eqb a (txt "--out")) eqn:T.
  - apply text_eqb_eq in T. subst a. unfold text_arg in E. apply bind_inv in E. destruct E as (v & V & E).
    assert (o' = set v (snd st)) as -> by congruence. rewrite S. destruct v as [|c v]; [left; reflexivity|].
    right. split; [discriminate|]. exists (fst st). split; apply arg_inv; auto.
  - assert (st = (i', o')) as -> by congruence. exact P.
Qed.

Lemma loop_keeps : forall O argc (step : nat * O -> result (option (nat * O))) (P : O -> Prop),
  (forall i o i' o', P o -> step (i, o) = Ok (Some (i', o')) -> P o') ->
  forall fuel i o o', P o -> arg_loop fuel argc step i o = Ok (Some o') -> P o'.
Proof.
  intros O argc step P S. induction fuel as [|fuel IH]; intros i o o' P0 E; cbn [arg_loop] in E;
    destruct (i <? argc); try discriminate; try congruence.
  apply bindo_inv in E. destruct E as ([i1 o1] & E1 & E2). eapply IH; [|exact E2]. eapply S; eauto.
Qed.

Ltac keep_step out :=
  match goal with
  | P : out_ok _ (out ?o), H : bindo (when_arg _ "--out" _ _) _ = Ok (Some _) |- _ =>
      apply bindo_inv in H; let i := fresh "i" in let o1 := fresh "o" in let A := fresh "A" in
      destruct H as ([i o1] & A & H); apply (when_out _ out) in A; [clear P|reflexivity|exact P]
  | P : out_ok _ (out ?o), H : bindo (when_arg _ _ _ _) _ = Ok (Some _) |- _ =>
      apply bindo_inv in H; let i := fresh "i" in let o1 := fresh "o" in let A := fresh "A" in
      destruct H as ([i o1] & A & H); apply (when_keeps _ out) in A;
      [cbn [snd] in A; rewrite <- A in P; clear A
      |auto using number_keeps, bool_keeps, atoi_keeps, rank_keeps, flag_keeps]
  | P : out_ok _ (out ?o), H : when_arg _ _ _ _ = Ok (Some _) |- _ =>
      apply (when_keeps _ out) in H;
      [cbn [snd] in H; rewrite <- H in P; clear H
      |auto using number_keeps, bool_keeps, atoi_keeps, rank_keeps, flag_keeps]
  end.

Lemma build_out : forall argv o, build_options argv = Ok (Some o) -> out_ok argv (b_out o).
Proof.
  intros argv o E. eapply (loop_keeps _ _ _ (fun o => out_ok argv (b_out o))); [| |exact E]; [|left; reflexivity].
  clear. intros i o i' o' P E. unfold build_step in E. repeat keep_step b_out. assumption.
Qed.

Lemma fast_build_out : forall argv o, fast_build_options argv = Ok (Some o) -> out_ok argv (b_out o).
Proof.
  intros argv o E. eapply (loop_keeps _ _ _ (fun o => out_ok argv (b_out o))); [| |exact E]; [|left; reflexivity].
  clear. intros i o i' o' P E. unfold fast_build_step in E. repeat keep_step b_out. assumption.
Qed.

Lemma query_out : forall argv o, query_options argv = Ok (Some o) -> out_ok argv (q_out o).
Proof.
  intros argv o E. eapply (loop_keeps _ _ _ (fun o => out_ok argv (q_out o))); [| |exact E]; [|left; reflexivity].
  clear. intros i o i' o' P E. unfold query_step in E. repeat keep_step q_out. assumption.
Qed.

Lemma set_file_changes : forall name bytes fs n, set_file name bytes fs n <> fs n -> n = name.
Proof.
  intros name bytes fs n D. unfold set_file in D. destruct (text_eqb n name) eqn:E; [|congruence].
  apply text_eqb_eq, E.
Qed.

Lemma build_to_changes : forall fs input out build fs' r, build_to fs input out build = Ok (Some (fs', r)) ->
  fs' input = fs input /\ forall n, fs' n <> fs n -> n = out /\ out <> [].
Proof.
  intros fs input out build fs' r E. unfold build_to in E.
  assert (ID : fs = fs' -> fs' input = fs input /\ forall n, fs' n <> fs n -> n = out /\ out <> []).
  { intros <-. split; [reflexivity|]. intros n D. congruence. }
  destruct (fs input) as [bytes|] eqn:I; [|apply ID; congruence].
  destruct (text_eqb input out) eqn:T; [discriminate|].
  destruct out as [|c out].
  - apply bind_inv in E. destruct E as ([x y] & _ & E). apply ID. congruence.
  - apply bind_inv in E. destruct E as ([result y] & _ & E).
    assert (fs' = set_file (c :: out) result fs) as -> by congruence. split.
    + rewrite set_file_other; [exact I|]. intros Q. subst input. rewrite text_eqb_refl in T. discriminate.
    + intros n D. apply set_file_changes in D. split; [exact D|discriminate].
Qed.

Theorem build_changes : forall fm argv fs fs' r, build_tries_main fm argv fs = Ok (Some (fs', r)) ->
  (forall n, fs' n <> fs n -> named_output argv n) /\
  (forall input, nth_error argv 1 = Some input -> fs' input = fs input).
Proof.
  intros fm argv fs fs' r E. unfold build_tries_main in E. apply bind_inv in E. destruct E as (input & A & E).
  apply bindo_inv in E. destruct E as (o & O & E). apply build_out in O. apply build_to_changes in E.
  destruct E as (I & C). apply arg_inv in A. split.
  - intros n D. apply C in D. destruct D as (-> & D). destruct O as [O|O]; [congruence|exact O].
  - intros i Q. assert (i = input) as -> by congruence. exact I.
Qed.

Theorem fast_build_changes : forall fm junk argv fs fs' r, build_fast_main fm junk argv fs = Ok (Some (fs', r)) ->
  (forall n, fs' n <> fs n -> named_output argv n) /\
  (forall input, nth_error argv 1 = Some input -> fs' input = fs input).
Proof.
  intros fm junk argv fs fs' r E. unfold build_fast_main in E.
  assert (ID : fs = fs' -> (forall n, fs' n <> fs n -> named_output argv n) /\
     (forall input, nth_error argv 1 = Some input -> fs' input = fs input)).
  { intros <-. split; [intros n D; congruence|auto]. }
  destruct (_ <? _); [apply ID; congruence|].
  apply bind_inv in E. destruct E as (input & A & E).
  apply bindo_inv in E. destruct E as (o & O & E). apply fast_build_out in O.
  destruct (existsb _ _); [|apply ID; congruence]. apply build_to_changes in E.
  destruct E as (I & C). apply arg_inv in A. split.
  - intros n D. apply C in D. destruct D as (-> & D). destruct O as [O|O]; [congruence|exact O].
  - intros i Q. assert (i = input) as -> by congruence. exact I.
Qed.

Lemma write_out_changes : forall out text fs n, write_out out text fs n <> fs n -> n = out /\ out <> [].
Proof.
  intros out text fs n D. unfold write_out in D. destruct out as [|c out]; [congruence|].
  apply set_file_changes in D. split; [exact D|discriminate].
Qed.

Lemma write_twice : forall out t1 t2 fs n, write_out out t2 (write_out out t1 fs) n <> fs n -> n = out /\ out <> [].
Proof.
  intros out t1 t2 fs n D. destruct out as [|c out]; [cbn in D; congruence|]. split; [|discriminate].
  unfold write_out in D. unfold set_file in D. destruct (text_eqb n (c :: out)) eqn:E; [apply text_eqb_eq, E|congruence].
Qed.

Theorem query_changes : forall fm sched hc time argv fs fs' r,
  query_main fm sched hc time argv fs = Ok (fs', r) ->
  (forall n, fs' n <> fs n -> named_output argv n) /\
  (forall sequences, nth_error argv 1 = Some sequences -> fs' sequences = fs sequences).
Proof.
  intros fm sched hc time argv fs fs' r E. unfold query_main in E.
  assert (ID : fs = fs' -> (forall n, fs' n <> fs n -> named_output argv n) /\
     (forall input, nth_error argv 1 = Some input -> fs' input = fs input)).
  { intros <-. split; [intros n D; congruence|auto]. }
  destruct (_ <? _); [apply ID; congruence|].
  apply bind_inv in E. destruct E as (sequences & A & E). apply bind_inv in E. destruct E as (log & _ & E).
  apply bind_inv in E. destruct E as (o & O & E). destruct o as [o|]; [|apply ID; congruence].
  apply query_out in O. destruct (negb _ && _)%bool eqn:T; [discriminate|]. cbv zeta in E.
  set (fs1 := write_out (q_out o) table_header fs) in *.
  assert (D : exists text, fs' = fs1 \/ fs' = write_out (q_out o) text fs1).
  { destruct (fs1 sequences).
    - apply bind_inv in E. destruct E as (x & _ & E). destruct (load_query_log _).
      + apply bind_inv in E. destruct E as (rs & _ & E). eexists. right. symmetry.
        exact (f_equal (fun m => match m with Ok (x, _) => x | _ => fs' end) E).
      + exists []. left. congruence.
    - destruct (load_query_log _).
      + apply bind_inv in E. destruct E as (rs & _ & E). eexists. right. symmetry.
        exact (f_equal (fun m => match m with Ok (x, _) => x | _ => fs' end) E).
      + exists []. left. congruence. }
  clear E. destruct D as (text & D).
  assert (C : forall n, fs' n <> fs n -> n = q_out o /\ q_out o <> []).
  { intros n N0. destruct D as [-> | ->]; [eapply write_out_changes; eauto|eapply write_twice; eauto]. }
  split.
  - intros n N0. apply C in N0. destruct N0 as (-> & N0). destruct O as [O|O]; [congruence|exact O].
  - intros s Q. apply arg_inv in A. assert (s = sequences) as -> by congruence.
    apply andb_false_iff in T.
    assert (X : q_out o = [] \/ sequences <> q_out o).
    { destruct T as [T|T].
      - left. apply negb_false_iff, text_eqb_eq in T. exact T.
      - right. intros Q'. rewrite Q', text_eqb_refl in T. discriminate. }
    assert (U : forall text f, write_out (q_out o) text f sequences = f sequences).
    { intros text' f. destruct X as [X|X]; [rewrite X; reflexivity|apply write_out_other, X]. }
    unfold fs1 in D. destruct D as [-> | ->]; rewrite ?U; reflexivity.
Qed.

(** The output over the input. *)
Theorem build_over_input : forall fm prog input ss fs bytes, Forall build_setting ss ->
  input <> [] -> last_of out_of [] ss = input -> fs input = Some bytes ->
  build_tries_main fm (prog :: input :: written_all ss) fs = UB Indeterminate.
Proof.
  intros fm prog input ss fs bytes F _ O I. unfold build_tries_main. cbn [arg nth_error bind].
  rewrite build_options_last by auto. cbn [bindo b_out]. rewrite O. unfold build_to. rewrite I, text_eqb_refl. reflexivity.
Qed.

Theorem fast_build_over_input : forall fm junk prog input ss fs bytes, Forall fast_build_setting ss ->
  input <> [] -> last_of out_of [] ss = input -> In (last_of wsize_of 64%N ss) [8; 16; 32; 64]%N -> fs input = Some bytes ->
  build_fast_main fm junk (prog :: input :: written_all ss) fs = UB Indeterminate.
Proof.
  intros fm junk prog input ss fs bytes F NE O W I. unfold build_fast_main.
  assert (L : length (prog :: input :: written_all ss) <? 3 = false).
  { apply Nat.ltb_ge. destruct ss as [|s ss]; [cbn in O; congruence|].
    assert (S0 := settings_count written written_nonempty (s :: ss)). fold (written_all (s :: ss)) in S0.
    cbn [length] in *. lia. }
  rewrite L. cbn [arg nth_error bind]. rewrite fast_build_options_last by auto. cbn [bindo b_out b_wsize].
  replace (existsb (N.eqb (last_of wsize_of 64%N ss)) [64; 32; 16; 8]%N) with true.
  - rewrite O. unfold build_to. rewrite I, text_eqb_refl. reflexivity.
  - symmetry. apply existsb_exists. exists (last_of wsize_of 64%N ss). split; [cbn [In] in *; tauto|apply N.eqb_refl].
Qed.
