(** The build tools always end; so do the query tools, one query after the other, and the
    parsing of every command line. *)

From Coq Require Import String.
From Verif Require Import Base Split FlatTrie LevelTrie FastTrie ParallelFor Intersection Tries Serialize Tools
  Text Report Table Cli Facts ToolsFacts SpecEnds CliThms EndsFacts EndsLevel EndsCalls.

Lemma ends_each_ok : forall X Y (f : X -> result Y) l, (forall x, ends (f x)) -> ends (each_ok f l).
Proof. intros X Y f l F. induction l as [|x l IH]; cbn [each_ok]; end_steps; auto. Qed.

Lemma ends_bin_build : forall v s u, ends (bin_build v s u).
Proof. intros [il|il] s u; cbn [bin_build]; end_steps; auto using ends_flat_build, ends_level_build. Qed.
Lemma ends_bin_encode : forall t, ends (bin_encodeRuns t).
Proof. intros [t|t]; cbn [bin_encodeRuns]; end_steps; auto using ends_flat_encode, ends_level_encode. Qed.
Lemma ends_bin_decode : forall t d, ends (bin_decode t d).
Proof. intros [t|t] d; cbn [bin_decode]; auto using ends_flat_decode, ends_level_decode. Qed.
Lemma ends_bin_make : forall u v enc s, ends (bin_make u v enc s).
Proof. intros. unfold bin_make. end_steps; auto using ends_bin_build, ends_bin_encode. Qed.
Lemma ends_fast_make : forall u lw jh je enc s, ends (fast_make u lw jh je enc s).
Proof. intros. unfold fast_make. end_steps; auto using ends_fast_build, ends_fast_encode. Qed.

Lemma ends_read_bytes : forall k input, ends (read_bytes k input).
Proof. induction k as [|k IH]; intros [|b input]; cbn [read_bytes]; end_steps. apply IH. Qed.
Lemma ends_read_le : forall k input, ends (read_le k input).
Proof. intros. unfold read_le. end_steps. apply ends_read_bytes. Qed.
Lemma ends_read_obool : forall input, ends (read_obool input).
Proof. intros. unfold read_obool. end_steps. apply ends_read_le. Qed.
Lemma ends_read_bool : forall input, ends (read_bool input).
Proof. intros. unfold read_bool. end_steps. apply ends_read_obool. Qed.

Lemma read_bytes_length : forall k input l rest, read_bytes k input = Ok (l, rest) ->
  length input = k + length rest.
Proof.
  induction k as [|k IH]; intros input l rest E; cbn [read_bytes] in E; [injection E as <- <-; auto|].
  destruct input as [|b input]; [discriminate|]. apply bind_inv in E. destruct E as ([l' rest'] & E1 & E2).
  injection E2 as <- <-. apply IH in E1. cbn [length]. lia.
Qed.

Lemma read_eof_length : forall k input n rest, read_eof k input = Some (n, rest) ->
  length input = k + length rest.
Proof.
  intros k input n rest E. unfold read_eof in E. destruct (read_bytes k input) as [[l r]|e|] eqn:R; try discriminate.
  injection E as <- <-. eapply read_bytes_length; eauto.
Qed.

Lemma seek_length : forall n input, length (seek_list n input) <= length input.
Proof. intros. unfold seek_list. destruct (N.leb _ _); [apply Nat.le_0_l|]. rewrite skipn_length. lia. Qed.

Lemma ends_count_sets : forall fuel a b input n, length input <= fuel -> ends (count_sets fuel a b input n).
Proof.
  induction fuel as [|fuel IH]; intros a b input n F; cbn [count_sets];
    destruct (read_eof 4 input) as [[m rest]|] eqn:R; try discriminate; apply read_eof_length in R; [lia|].
  apply IH. assert (S := seek_length m rest). lia.
Qed.

Lemma ends_inv_list : forall n input, ends (read_inv_list n input).
Proof. induction n as [|n IH]; intros; cbn [read_inv_list]; end_steps; auto using ends_read_le. Qed.

Lemma inv_list_length : forall n input l rest, read_inv_list n input = Ok (l, rest) -> length rest <= length input.
Proof.
  induction n as [|n IH]; intros input l rest E; cbn [read_inv_list] in E; [injection E as <- <-; auto|].
  apply bind_inv in E. destruct E as ([x r1] & E1 & E). apply bind_inv in E. destruct E as ([l2 r2] & E2 & E).
  assert (r2 = rest) as -> by congruence. apply IH in E2. unfold read_le in E1. apply bind_inv in E1.
  destruct E1 as ([l3 r3] & E3 & E4). assert (r3 = r1) as -> by congruence. apply read_bytes_length in E3. lia.
Qed.

Lemma ends_report_loop : forall fuel a b visit input i out x y, (forall i il, ends (visit i il)) ->
  length input <= fuel -> ends (report_loop fuel a b visit input i out x y).
Proof.
  induction fuel as [|fuel IH]; intros a b visit input i out x y V F; cbn [report_loop];
    destruct (read_eof 4 input) as [[m rest]|] eqn:R; try discriminate; apply read_eof_length in R; [lia|].
  destruct (keep_list a b m).
  - apply ends_bind; [apply ends_inv_list|]. intros [il rest'] L. apply inv_list_length in L.
    apply ends_bind; [auto|]. intros [bytes sz] _. apply IH; auto. lia.
  - apply IH; auto. assert (S := seek_length m rest). lia.
Qed.

Lemma ends_report_file : forall given a b header visit input, (forall u i il, ends (visit u i il)) ->
  ends (report_file given a b header visit input).
Proof.
  intros. unfold report_file. end_steps; auto using ends_read_le, ends_count_sets, ends_report_loop.
Qed.

Lemma ends_bin_serialize : forall c t, ends (bin_serialize c t).
Proof. intros c [t|t]; cbn [bin_serialize]; unfold level_serialize; end_steps. Qed.

Theorem ends_report_tries : forall fm a b rank block runs levelwise given input,
  ends (report_tries fm a b rank block runs levelwise given input).
Proof.
  intros. apply ends_report_file. intros. cbv zeta. end_steps; auto using ends_bin_make, ends_bin_serialize.
Qed.

Theorem ends_report_fast : forall fm junk a b rank runs levelwise lw given input,
  ends (report_fast_tries fm junk a b rank runs levelwise lw given input).
Proof. intros. apply ends_report_file. intros. cbv zeta. end_steps; auto using ends_fast_make. Qed.

Lemma ends_store_loop : forall fuel a b store input i out, (forall i il, ends (store i il)) ->
  length input <= fuel -> ends (build_loop fuel a b store input i out).
Proof.
  induction fuel as [|fuel IH]; intros a b store input i out V F; cbn [build_loop];
    destruct (read_eof 4 input) as [[m rest]|] eqn:R; try discriminate; apply read_eof_length in R; [lia|].
  destruct (keep_list a b m).
  - apply ends_bind; [apply ends_inv_list|]. intros [il rest'] L. apply inv_list_length in L.
    apply ends_bind; [auto|]. intros bytes _. apply IH; auto. lia.
  - apply IH; auto. assert (S := seek_length m rest). lia.
Qed.

Lemma ends_build_file : forall a b header store input, (forall u i il, ends (store u i il)) ->
  ends (build_file a b header store input).
Proof.
  intros. unfold build_file. end_steps; auto using ends_read_le, ends_count_sets, ends_store_loop.
Qed.

Theorem ends_build_tries : forall fm a b rank block runs levelwise input,
  ends (build_tries fm a b rank block runs levelwise input).
Proof. intros. apply ends_build_file. intros. cbv zeta. end_steps; auto using ends_bin_make, ends_bin_serialize. Qed.

Theorem ends_build_fast_tries : forall fm junk a b rank runs levelwise lw input,
  ends (build_fast_tries fm junk a b rank runs levelwise lw input).
Proof. intros. apply ends_build_file. intros. cbv zeta. end_steps; auto using ends_fast_make. Qed.

(** * Command lines *)

Lemma ends_bindo : forall A B (m : result (option A)) (f : A -> result (option B)),
  ends m -> (forall a, m = Ok (Some a) -> ends (f a)) -> ends (bindo m f).
Proof. intros A B [[a|]|e|] f M F; cbn; [apply F; auto|discriminate|discriminate|destruct (M eq_refl)]. Qed.

Lemma ends_arg : forall argv i, ends (arg argv i).
Proof. intros. unfold arg. end_steps. Qed.

Lemma ends_when : forall O argv name (body : nat -> O -> result (option (nat * O))) st,
  (forall i o, ends (body i o)) -> ends (when_arg argv name body st).
Proof. intros. unfold when_arg. end_steps; auto using ends_arg. Qed.

Lemma ends_number : forall O argv set i (o : O), ends (number_arg argv set i o).
Proof. intros. unfold number_arg. end_steps; auto using ends_arg. Qed.
Lemma ends_text : forall O argv set i (o : O), ends (text_arg argv set i o).
Proof. intros. unfold text_arg. end_steps; auto using ends_arg. Qed.
Lemma ends_boolarg : forall O argv set i (o : O), ends (bool_arg argv set i o).
Proof. intros. unfold bool_arg. end_steps; auto using ends_arg. Qed.
Lemma ends_atoi : forall bits a, ends (atoi bits a).
Proof. intros. unfold atoi. end_steps. Qed.
Lemma ends_atoiarg : forall O argv bits set i (o : O), ends (atoi_arg argv bits set i o).
Proof. intros. unfold atoi_arg. end_steps; auto using ends_arg, ends_atoi. Qed.
Lemma ends_rankarg : forall argv i o, ends (rank_arg argv i o).
Proof. intros. unfold rank_arg. end_steps; auto using ends_arg, ends_atoiarg. Qed.

(** A step of the loop never goes back before the argument it started with. *)
Definition forward {O} (body : nat -> O -> result (option (nat * O))) : Prop :=
  forall i o i' o', body (S i) o = Ok (Some (i', o')) -> i <= i'.

Lemma when_forward : forall O argv name (body : nat -> O -> result (option (nat * O))) i o i' o',
  forward body -> when_arg argv name body (i, o) = Ok (Some (i', o')) -> i <= i'.
Proof.
  intros O argv name body i o i' o' F E. unfold when_arg in E. cbn [fst snd] in E.
  apply bind_inv in E. destruct E as (a & _ & E). destruct (text_eqb a (txt name)); [eapply F; eauto|].
  assert (i = i') by congruence. lia.
Qed.

Lemma number_forward : forall O argv set, forward (@number_arg O argv set).
Proof.
  intros O argv set i o i' o' E. unfold number_arg in E. apply bind_inv in E. destruct E as (a & _ & E).
  destruct (stoull a); [|discriminate]. assert (S i = i') by congruence. lia.
Qed.
Lemma text_forward : forall O argv set, forward (@text_arg O argv set).
Proof.
  intros O argv set i o i' o' E. unfold text_arg in E. apply bind_inv in E. destruct E as (a & _ & E).
  assert (S i = i') by congruence. lia.
Qed.
Lemma bool_forward : forall O argv set, forward (@bool_arg O argv set).
Proof.
  intros O argv set i o i' o' E. unfold bool_arg in E. apply bind_inv in E. destruct E as (a & _ & E).
  assert (S i = i') by congruence. lia.
Qed.
Lemma atoi_forward : forall O argv bits set, forward (@atoi_arg O argv bits set).
Proof.
  intros O argv bits set i o i' o' E. unfold atoi_arg in E. apply bind_inv in E. destruct E as (a & _ & E).
  apply bind_inv in E. destruct E as (v & _ & E). assert (S i = i') by congruence. lia.
Qed.
Lemma rank_forward : forall argv, forward (rank_arg argv).
Proof.
  intros argv i o i' o' E. unfold rank_arg in E. apply bind_inv in E. destruct E as (a & _ & E).
  destruct (text_eqb a (txt "v")); [assert (S i = i') by congruence; lia|].
  destruct (text_eqb a (txt "il")); [apply atoi_forward in E; lia|]. assert (S i = i') by congruence. lia.
Qed.
Lemma flag_forward : forall O (f : O -> O), forward (fun i o => Ok (Some (pred i, f o))).
Proof. intros O f i o i' o' E. assert (i = i') by (cbn in E; congruence). lia. Qed.

Lemma bindo_inv : forall A B (m : result (option A)) (f : A -> result (option B)) b,
  bindo m f = Ok (Some b) -> exists a, m = Ok (Some a) /\ f a = Ok (Some b).
Proof. intros A B [[a|]|e|] f b E; cbn in E; try discriminate. eauto. Qed.

Lemma ends_arg_loop : forall O argc (step : nat * O -> result (option (nat * O))),
  (forall st, ends (step st)) -> (forall i o i' o', step (i, o) = Ok (Some (i', o')) -> i <= i') ->
  forall fuel i o, argc <= fuel + i -> ends (arg_loop fuel argc step i o).
Proof.
  intros O argc step E F. induction fuel as [|fuel IH]; intros i o L; cbn [arg_loop];
    destruct (Nat.ltb_spec i argc); try discriminate; [lia|].
  apply ends_bindo; [auto|]. intros [i' o'] S. apply F in S. apply IH. lia.
Qed.

Ltac steps_forward :=
  repeat match goal with
  | H : bindo _ _ = Ok (Some _) |- _ =>
      apply bindo_inv in H; let i := fresh "i" in let o := fresh "o" in let A := fresh "A" in
      destruct H as ([i o] & A & H);
      apply when_forward in A;
      [|eauto using number_forward, text_forward, bool_forward, atoi_forward, rank_forward, flag_forward]
  end;
  match goal with
  | H : when_arg _ _ _ _ = Ok (Some _) |- _ =>
      apply when_forward in H;
      [|eauto using number_forward, text_forward, bool_forward, atoi_forward, rank_forward, flag_forward]
  end.

Ltac steps_end :=
  repeat (apply ends_bindo; [|intros]);
  apply ends_when; intros; auto using ends_number, ends_text, ends_boolarg, ends_atoiarg, ends_rankarg;
  discriminate.

Lemma ends_build_options : forall argv, ends (build_options argv).
Proof.
  intros. apply ends_arg_loop; [| |lia].
  - intros st. unfold build_step. steps_end.
  - intros i o i' o' E. unfold build_step in E. steps_forward. lia.
Qed.
Lemma ends_fast_build_options : forall argv, ends (fast_build_options argv).
Proof.
  intros. apply ends_arg_loop; [| |lia].
  - intros st. unfold fast_build_step. steps_end.
  - intros i o i' o' E. unfold fast_build_step in E. steps_forward. lia.
Qed.
Lemma ends_query_options : forall argv, ends (query_options argv).
Proof.
  intros. apply ends_arg_loop; [| |lia].
  - intros st. unfold query_step. steps_end.
  - intros i o i' o' E. unfold query_step in E. steps_forward. lia.
Qed.
Lemma ends_fast_query_options : forall argv, ends (fast_query_options argv).
Proof.
  intros. apply ends_arg_loop; [| |lia].
  - intros st. unfold fast_query_step. steps_end.
  - intros i o i' o' E. unfold fast_query_step in E. steps_forward. lia.
Qed.

Theorem ends_build_tries_main : forall fm argv fs, ends (build_tries_main fm argv fs).
Proof.
  intros. unfold build_tries_main. apply ends_bind; [apply ends_arg|]. intros input _.
  apply ends_bindo; [apply ends_build_options|]. intros o _. unfold build_to.
  end_steps; apply ends_report_tries.
Qed.

Theorem ends_build_fast_main : forall fm junk argv fs, ends (build_fast_main fm junk argv fs).
Proof.
  intros. unfold build_fast_main. destruct (_ <? _); [discriminate|]. apply ends_bind; [apply ends_arg|]. intros input _.
  apply ends_bindo; [apply ends_fast_build_options|]. intros o _. destruct (existsb _ _); [|discriminate].
  unfold build_to. end_steps; apply ends_report_fast.
Qed.

(** * Queries *)

Lemma ends_repeat : forall answer, (forall rep, ends (answer rep)) -> ends (repeat_query answer).
Proof. intros. apply ends_for. auto. Qed.

Lemma ends_run_queries : forall T (P : T -> Prop) (pick : N -> result T) answer,
  (forall i, ends (pick i)) -> (forall i t, pick i = Ok t -> P t) ->
  (forall nq rep ts, Forall P ts -> ends (answer nq rep ts)) ->
  forall queries nq, ends (run_queries pick answer nq queries).
Proof.
  intros T P pick answer EP PP EA. induction queries as [|q queries IH]; intros nq; cbn [run_queries]; [discriminate|].
  apply ends_bind; [apply ends_each_ok; auto|]. intros ts E.
  assert (Forall P ts).
  { revert ts E. induction q as [|x q IHq]; intros ts E; cbn [each_ok] in E; [injection E as <-; auto|].
    apply bind_inv in E. destruct E as (y & E1 & E). apply bind_inv in E. destruct E as (ys & E2 & E).
    injection E as <-. constructor; eauto. }
  apply ends_bind.
  - end_steps. apply ends_repeat. auto.
  - intros a _. end_steps. apply IH.
Qed.

Section Loads.
Variable c : codecs.
Hypothesis CE : codecs_end c.

Lemma ends_load_scalars : forall input, ends (load_scalars input).
Proof. intros. unfold load_scalars. end_steps; auto using ends_read_le, ends_read_bool. Qed.

Lemma ends_load_bvs : forall n input, ends (load_bvs (c_bv c) n input).
Proof. destruct CE as (A & _ & _). induction n as [|n IH]; intros; cbn [load_bvs]; end_steps; auto. Qed.
Lemma ends_load_ranks : forall vs input, ends (load_ranks (c_rank c) vs input).
Proof. destruct CE as (_ & _ & A). induction vs as [|v vs IH]; intros; cbn [load_ranks]; end_steps; auto. Qed.
Lemma ends_load_il : forall n input, ends (load_il c n input).
Proof. destruct CE as (A & _ & B). induction n as [|n IH]; intros; cbn [load_il]; end_steps; auto. Qed.

Lemma ends_bin_load : forall old input, ends (bin_load c old input).
Proof.
  destruct CE as (A & B & C). intros [t|t] input; cbn [bin_load]; unfold flat_load, level_load;
    end_steps; auto using ends_load_scalars, ends_load_bvs, ends_load_ranks, ends_load_il.
Qed.

Lemma ends_load_words : forall k n input, ends (load_words k n input).
Proof. induction n as [|n IH]; intros; cbn [load_words]; end_steps; auto using ends_read_le. Qed.

Lemma ends_fast_load : forall old input, ends (fast_load c old input).
Proof.
  destruct CE as (A & B & C). intros. unfold fast_load.
  end_steps; auto using ends_read_le, ends_read_bool, ends_read_obool, ends_load_words.
Qed.
End Loads.

Lemma ends_load_collection : forall fm file, formats_end fm -> ends (load_collection fm file).
Proof.
  intros fm file (V & V5 & IL). unfold load_collection. end_steps; auto using ends_read_le, ends_read_bool.
  match goal with |- context [loaded_object fm ?r ?b ?l] => set (obj := loaded_object fm r b l) end.
  assert (OE : ends obj) by (subst obj; unfold loaded_object; end_steps).
  assert (OC : forall c old, obj = Ok (c, old) -> codecs_end c).
  { subst obj. unfold loaded_object. intros c old E.
    repeat match goal with H : (if ?b then _ else _) = Ok _ |- _ => destruct b end; try discriminate;
      match goal with H : Ok (?x, _) = Ok (?y, _) |- _ => assert (x = y) as <- by congruence end; auto. }
  clearbody obj. assert (L : forall n input, ends (load_sequences n obj input)); [|apply L]. intros k.
  induction k as [|k IH]; intros input; cbn [load_sequences]; [discriminate|].
  apply ends_bind; [exact OE|]. intros [c old] E. apply OC in E. end_steps; auto using ends_bin_load.
Qed.

Lemma vgetN_in : forall A (v : list A) i x, vgetN v i = Ok x -> In x v.
Proof.
  intros A v i x E. unfold vgetN in E. destruct (N.ltb _ _); [|discriminate].
  apply vget_inv in E. eapply nth_error_In; eauto.
Qed.

Lemma ends_answer : forall s1 s2 hc ts runs parallel, Forall (fun t => parallel = true -> 2 <= t_height (bin_ops t)) ts ->
  ends (Intersect Bin s1 s2 hc (map bin_ops ts) runs parallel).
Proof.
  intros s1 s2 hc ts runs parallel P. apply ends_Intersect; auto.
  - apply Forall_forall. intros T IT. apply in_map_iff in IT. destruct IT as (t & <- & _). apply bin_ops_end.
  - intros T E. split; [auto|]. intros Q. destruct ts as [|t ts]; [discriminate|]. cbn in E.
    assert (T = bin_ops t) as -> by congruence. inversion P; subst; auto.
Qed.

(** The log of queries over a file. *)
Theorem ends_query_log : forall fm sched hc parallel file queries, formats_end fm ->
  (forall runs ts, load_collection fm file = Ok (runs, ts) ->
     Forall (fun t => parallel = true -> 2 <= t_height (bin_ops t)) ts) ->
  ends (query_log fm sched hc parallel file queries).
Proof.
  intros fm sched hc parallel file queries F H. unfold query_log. apply ends_bind; [apply ends_load_collection, F|].
  intros [runs seqs] L. specialize (H _ _ L). rewrite Forall_forall in H.
  apply ends_run_queries with (P := fun t => parallel = true -> 2 <= t_height (bin_ops t)); auto using ends_vgetN.
  - intros i t E. apply vgetN_in in E. apply H, E.
  - intros nq rep ts P. apply ends_answer, P.
Qed.

Theorem ends_query_main : forall fm sched hc time argv fs, formats_end fm ->
  (forall o name file runs ts, query_options argv = Ok (Some o) -> fs name = Some file ->
     load_collection fm file = Ok (runs, ts) ->
     Forall (fun t => q_parallel o = true -> 2 <= t_height (bin_ops t)) ts) ->
  ends (query_main fm sched hc time argv fs).
Proof.
  intros fm sched hc time argv fs F P. unfold query_main. destruct (_ <? _); [discriminate|].
  apply ends_bind; [apply ends_arg|]. intros sequences _. apply ends_bind; [apply ends_arg|]. intros log _.
  apply ends_bind; [apply ends_query_options|]. intros [o|] E; [|discriminate].
  destruct (_ && _)%bool eqn:T; [discriminate|]. cbv zeta.
  assert (W : write_out (q_out o) table_header fs sequences = fs sequences).
  { unfold write_out, set_file. destruct (q_out o) as [|x y]; [reflexivity|].
    destruct (text_eqb sequences (x :: y)) eqn:Q; [|reflexivity]. apply text_eqb_eq in Q. subst sequences.
    rewrite text_eqb_refl in T. discriminate. }
  rewrite W. destruct (fs sequences) as [file|] eqn:S0.
  - apply ends_bind; [apply ends_load_collection, F|]. intros x _. destruct (load_query_log _); [|discriminate].
    apply ends_bind; [|discriminate]. apply ends_query_log; eauto.
  - destruct (load_query_log _); [|discriminate]. apply ends_bind; [|discriminate].
    apply ends_run_queries with (P := fun _ => False); auto using ends_vgetN.
    + intros i t Q. apply vgetN_in in Q. exact Q.
    + intros nq rep ts Q. apply ends_answer. destruct ts; [constructor|]. inversion Q. contradiction.
Qed.
