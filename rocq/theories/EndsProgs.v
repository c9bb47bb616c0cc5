(** Lemmas for the statements about calls that end, and a call that does not. *)

From Coq Require Import String.
From Verif Require Import Base FlatTrie LevelTrie FastTrie ParallelFor Intersection Tries Serialize Tools
  Text Report Table Cli Facts SpecEnds EndsFacts EndsLevel SpecCli EndsCalls EndsTools CliThms.

Lemma bin_decode_ends : forall t d, t_height (bin_ops t) <= 63 -> ends (bin_decode t d).
Proof. intros t d _. apply ends_bin_decode. Qed.

Lemma fast_decode_ends : forall t d, words_fit t -> 1 <= x_height t -> x_height_u t <= 63 -> ends (fast_decode t d).
Proof. intros t d W H _. apply ends_fast_decode; auto. Qed.

Lemma bin_intersect_ends : forall s1 s2 hc ts runs parallel, Forall (fun t => t_height (bin_ops t) <= 63) ts ->
  (parallel = true -> Forall (fun t => 2 <= t_height (bin_ops t)) ts) ->
  ends (Intersect Bin s1 s2 hc (map bin_ops ts) runs parallel).
Proof.
  intros s1 s2 hc ts runs parallel _ P. apply ends_Intersect; auto.
  - apply Forall_forall. intros T IT. apply in_map_iff in IT. destruct IT as (t & <- & _). apply bin_ops_end.
  - intros T E. split; [exact I|]. intros Q. specialize (P Q). destruct ts as [|t ts]; [discriminate|].
    cbn in E. assert (T = bin_ops t) as -> by congruence. inversion P; subst. destruct t; assumption.
Qed.

Lemma fast_intersect_ends : forall lw s1 s2 hc ts runs parallel, lw <= 6 ->
  Forall (fun t => 1 <= x_height t /\ x_height t + lw <= 64) ts ->
  (parallel = true -> Forall (fun t => 2 <= x_height t) ts) ->
  ends (Intersect (Fast lw) s1 s2 hc (map fast_ops ts) runs parallel).
Proof.
  intros lw s1 s2 hc ts runs parallel L F P. apply ends_Intersect; auto.
  - apply Forall_forall. intros T IT. apply in_map_iff in IT. destruct IT as (t & <- & _). apply fast_ops_end.
  - intros T E. destruct ts as [|t ts]; [discriminate|]. cbn in E. assert (T = fast_ops t) as -> by congruence.
    inversion F; subst. split; [apply H1|]. intros Q. specialize (P Q). inversion P; subst. assumption.
Qed.

(** A stored height of 0: the level is never one below it, and the left child of the
    root is the root. *)
Lemma endless : forall t b rest, x_height t = 0 -> x_bTrie t = true :: b :: rest ->
  forall fuel d p l, fast_recursiveDecode fuel t d p 0 l = OutOfFuel.
Proof.
  intros t b rest H B. induction fuel as [|fuel IH]; intros d p l; cbn [fast_recursiveDecode]; rewrite H; cbn [Nat.eqb]; auto.
  unfold fast_getNode. rewrite B. cbn [vget nth_error Nat.mul Nat.add bind].
  replace (N.eqb (node_code true b) 2 || N.eqb (node_code true b) 3)%bool with true by (destruct b; reflexivity).
  unfold fast_getLeftChild. rewrite H. cbn [Nat.leb bind]. rewrite IH. reflexivity.
Qed.

Definition damage (input : list N) : list N := 0%N :: tl input.

Theorem decode_endless : exists t file t',
  fast_build 3 None None [1; 2]%N 50 = Ok t /\ file = fst (fast_serialize plain_codecs 0 0 t) /\
  fast_load plain_codecs t (damage file) = Ok (t', []) /\
  words_fit t' /\ x_runs_encoded t' = false /\
  forall fuel d, fast_recursiveDecode fuel t' d 0 0 0 = OutOfFuel.
Proof.
  eexists. eexists. eexists. split; [vm_compute; reflexivity|]. split; [reflexivity|].
  split; [vm_compute; reflexivity|]. split; [split; [cbn; lia|]|].
  - repeat (constructor; [vm_compute; discriminate|]). constructor.
  - split; [reflexivity|]. intros fuel d. eapply endless; reflexivity.
Qed.

Theorem query_ends : forall fm sched hc time argv fs, formats_end fm ->
  (forall name file runs ts, fs name = Some file -> load_collection fm file = Ok (runs, ts) ->
     Forall (fun t => 2 <= t_height (bin_ops t) <= 63) ts) ->
  ends (query_main fm sched hc time argv fs).
Proof.
  intros fm sched hc time argv fs F H. apply ends_query_main; [auto|]. intros o name file runs ts _ E L.
  specialize (H _ _ _ _ E L). rewrite Forall_forall in *. intros t I _. apply H, I.
Qed.

Theorem query_one_thread_ends : forall fm sched hc time prog sequences log ss fs, formats_end fm ->
  (forall name file runs ts, fs name = Some file -> load_collection fm file = Ok (runs, ts) ->
     Forall (fun t => t_height (bin_ops t) <= 63) ts) ->
  ~ In sequences query_names -> ~ In log query_names ->
  Forall the_query_setting ss -> last_of parallel_of true ss = false ->
  ends (query_main fm sched hc time (prog :: sequences :: log :: q_written_all ss) fs).
Proof.
  intros fm sched hc time prog sequences log ss fs F _ A B S0 P. apply ends_query_main; [auto|].
  intros o name file runs ts E _ _. rewrite query_options_last in E by auto. rewrite P in E.
  assert (q_parallel o = false) as -> by (assert (E' := f_equal (fun m => match m with Ok (Some x) => q_parallel x | _ => true end) E); symmetry; exact E').
  apply Forall_forall. discriminate.
Qed.

(** * The query tool of fast tries *)

Lemma ends_load_loop : forall c blank ids, codecs_end c ->
  forall n i np input tries, ends (load_tries_loop c blank n i ids np input tries).
Proof.
  intros c blank ids F. induction n as [|n IH]; intros; cbn [load_tries_loop]; [discriminate|].
  apply ends_bind; [apply ends_fast_load, F|]. intros [t rest] _. end_steps; auto.
Qed.

Lemma pointer_in : forall tries i t, trie_pointer tries i = Some t -> exists j, In (j, t) tries.
Proof.
  intros tries i t E. unfold trie_pointer in E. destruct (find _ tries) as [[j t']|] eqn:Q; [|discriminate].
  apply find_some in Q. cbn in E. assert (t' = t) as -> by congruence. exists j. apply Q.
Qed.

Lemma deref_all : forall (P : fast -> Prop) ps ts, Forall (fun p => forall t, p = Some t -> P t) ps ->
  each_ok deref ps = Ok ts -> Forall P ts.
Proof.
  intros P ps. induction ps as [|p ps IH]; intros ts F E; cbn [each_ok] in E.
  - assert (ts = []) as -> by congruence. constructor.
  - apply bind_inv in E. destruct E as (t & E1 & E). apply bind_inv in E. destruct E as (ts' & E2 & E).
    assert (ts = t :: ts') as -> by congruence. inversion F; subst. constructor; [|eauto].
    destruct p as [t'|]; [|discriminate]. cbn in E1. assert (t' = t) as -> by congruence. auto.
Qed.

Lemma fast_log_ends : forall fm blank sched hc parallel file queries, formats_end fm ->
  fast_heights fm blank parallel file -> ends (fast_query_log fm blank sched hc parallel file queries).
Proof.
  intros fm blank sched hc parallel file queries F H. unfold fast_query_log. apply ends_bind.
  { unfold read_fast_header. end_steps; auto using ends_read_le, ends_read_obool. }
  intros [[[[rank_type runs] levelwise] wsize] rest] E. cbv zeta. apply ends_bind; [destruct runs; discriminate|].
  intros r _. apply ends_bind.
  { unfold load_tries. end_steps; auto using ends_read_le. apply ends_load_loop.
    unfold fast_codecs. destruct F as (F1 & F2 & _). destruct (N.eqb rank_type 0); assumption. }
  intros tries L. specialize (H _ _ _ _ _ _ _ E L). rewrite Forall_forall in H. unfold map_queries.
  set (P := fun t => (if parallel then 2 else 1) <= x_height t /\ x_height t + word_log wsize <= 64).
  apply ends_run_queries with (P := fun p => forall t, p = Some t -> P t).
  - discriminate.
  - intros i p Q t ->. assert (Q' : trie_pointer tries i = Some t) by congruence. apply pointer_in in Q'.
    destruct Q' as (j & Q'). apply (H _ Q').
  - intros nq rep ps PS. apply ends_bind.
    { apply ends_each_ok. intros [t|]; discriminate. }
    intros ts D. apply (deref_all P) in D; [|exact PS]. apply fast_intersect_ends.
    + unfold word_log. repeat destruct (N.eqb _ _); lia.
    + eapply Forall_impl; [|exact D]. unfold P. intros t [Q1 Q2]. destruct parallel; lia.
    + intros ->. eapply Forall_impl; [|exact D]. unfold P. cbn beta. intros t [Q1 Q2]. exact Q1.
Qed.

Theorem fast_query_ends : forall fm blank sched hc argv fs, formats_end fm ->
  (forall name file, fs name = Some file -> fast_heights fm blank true file) ->
  ends (fast_query_main fm blank sched hc argv fs).
Proof.
  intros fm blank sched hc argv fs F H. unfold fast_query_main. destruct (_ <? _); [discriminate|].
  apply ends_bindo; [apply ends_fast_query_options|]. intros o _.
  apply ends_bind; [apply ends_arg|]. intros sequences _. apply ends_bind; [apply ends_arg|]. intros log _.
  destruct (fast_load_query_log _); [|discriminate]. destruct (fs sequences) as [file|] eqn:S0; [|discriminate].
  cbn [oget bind]. apply ends_bind; [|discriminate]. apply fast_log_ends; [auto|]. specialize (H _ _ S0).
  destruct (q_parallel o); [exact H|]. intros qs rank_type runs levelwise wsize rest tries E L.
  specialize (H _ _ _ _ _ _ _ E L). eapply Forall_impl; [|exact H]. cbn beta iota. intros p (Q1 & Q2). split; [|exact Q2]. lia.
Qed.

(** * The formats of the examples *)

Lemma ends_load_bits : forall fuel n input, ends (load_bits fuel n input).
Proof.
  induction fuel as [|fuel IH]; intros n input; cbn [load_bits]; destruct (N.eqb n 0); try discriminate.
  apply ends_bind; [apply ends_read_le|]. intros [x rest] _. cbv zeta. apply ends_bind; [apply IH|]. intros [v r] _. discriminate.
Qed.

Lemma ends_strip : forall prefix input, ends (strip prefix input).
Proof.
  induction prefix as [|p prefix IH]; intros [|x input]; cbn [strip]; try discriminate.
  destruct (N.eqb p x); [apply IH|discriminate].
Qed.

Lemma plain_codecs_end : codecs_end plain_codecs.
Proof.
  assert (B : forall input, ends (bv_load sdsl_bv input)).
  { intros input. cbn [sdsl_bv bv_load]. apply ends_bind; [apply ends_read_le|]. intros [n rest] _. apply ends_load_bits. }
  split; [exact B|]. split; [exact B|]. intros input v. cbn [plain_codecs c_rank dir_rank rk_load].
  apply ends_bind; [apply ends_strip|]. discriminate.
Qed.
