(** Run encoding, decoding and Intersect end on objects in any state. *)

From Verif Require Import Base Split FlatTrie LevelTrie FastTrie ParallelFor Intersection Tries Facts Tree
  BuildFast WordBits SpecEnds EndsFacts EndsLevel.

(** * Reading a trie *)

Lemma ends_flat_getNode : forall t i l, ends (flat_getNode t i l).
Proof. intros. unfold flat_getNode. end_steps. Qed.
Lemma ends_flat_left : forall t i l, ends (flat_getLeftChild t i l).
Proof. intros. unfold flat_getLeftChild. end_steps. Qed.
Lemma ends_flat_right : forall t i l, ends (flat_getRightChild t i l).
Proof. intros. unfold flat_getRightChild. end_steps. Qed.
Lemma ends_level_getNode : forall t i l, ends (level_getNode t i l).
Proof. intros. unfold level_getNode. end_steps. Qed.
Lemma ends_rank1_pred : forall v i, ends (rank1_pred v i).
Proof. intros. unfold rank1_pred. end_steps. Qed.
Lemma ends_level_left : forall t i l, ends (level_getLeftChild t i l).
Proof. intros. unfold level_getLeftChild. end_steps. apply ends_rank1_pred. Qed.
Lemma ends_level_right : forall t i l, ends (level_getRightChild t i l).
Proof. intros. unfold level_getRightChild. end_steps. apply ends_rank1_pred. Qed.
Lemma ends_fast_getNode : forall t i l, ends (fast_getNode t i l).
Proof. intros. unfold fast_getNode. end_steps. Qed.
Lemma ends_fast_left : forall t i l, ends (fast_getLeftChild t i l).
Proof. intros. unfold fast_getLeftChild. end_steps. Qed.
Lemma ends_fast_right : forall t i l, ends (fast_getRightChild t i l).
Proof. intros. unfold fast_getRightChild. end_steps. Qed.
Lemma ends_fast_getWord : forall t i, ends (fast_getWord t i).
Proof. intros. unfold fast_getWord. end_steps. Qed.

Lemma ends_word_bits : forall lw w base v, lw <= 6 -> (w <= wmax lw)%N -> ends (word_bits (word_fuel lw) lw w base v).
Proof.
  intros lw w base v L W. rewrite (word_bits_from (2 ^ lw) 0); auto.
  - discriminate.
  - rewrite of_nat_pow2. lia.
  - unfold wmax in W. rewrite N.ones_equiv, wbits_pow2 in W.
    assert (2 ^ pow2 lw <> 0)%N by (apply N.pow_nonzero; discriminate). lia.
  - intros; lia.
Qed.

(** * Run encoding *)

Lemma ends_push_one : forall st l x, ends (push_one st l x).
Proof. intros. unfold push_one. end_steps. Qed.
Lemma ends_add_pos : forall st l d, ends (add_pos st l d).
Proof. intros. unfold add_pos. end_steps. Qed.
Lemma ends_sub4 : forall st l, ends (sub4_pos st l).
Proof. intros. unfold sub4_pos. end_steps. Qed.
Lemma ends_pop_ones : forall k st l, ends (pop_ones k st l).
Proof. intros. unfold pop_ones. end_steps. Qed.
Lemma ends_wc_leaf : forall st l n b, ends (wc_leaf st l n b).
Proof. intros. unfold wc_leaf. end_steps; auto using ends_push_one, ends_add_pos. Qed.

Ltac end_writes := repeat (end_step; cbv beta);
  auto using ends_push_one, ends_add_pos, ends_sub4, ends_pop_ones, ends_wc_leaf.

Lemma ends_writeCompress : forall height getNode getLeft getRight,
  (forall i l, ends (getNode i l)) -> (forall i l, ends (getLeft i l)) -> (forall i l, ends (getRight i l)) ->
  forall fuel st l id b, l < height -> height <= fuel + l ->
  ends (writeCompressTrie height getNode getLeft getRight fuel st l id b).
Proof.
  intros height getNode getLeft getRight GN GL GR.
  induction fuel as [|fuel IH]; intros st l id b L F; [lia|]. cbn [writeCompressTrie].
  apply ends_bind; [auto|]. intros node _. destruct (Nat.eqb_spec (S l) height) as [E|E]; [apply ends_wc_leaf|].
  end_writes; apply IH; lia.
Qed.

Lemma ends_compress_run : forall height getNode getLeft getRight,
  (forall i l, ends (getNode i l)) -> (forall i l, ends (getLeft i l)) -> (forall i l, ends (getRight i l)) ->
  ends (compress_run height getNode getLeft getRight).
Proof.
  intros height getNode getLeft getRight GN GL GR. unfold compress_run. apply ends_bind; [|intros [st b] _; discriminate].
  destruct height as [|h].
  - cbn [writeCompressTrie Nat.eqb repeat snd]. apply ends_bind; [auto|]. intros node _. cbn. discriminate.
  - apply ends_writeCompress; auto; lia.
Qed.

Lemma ends_set_ones : forall v off ones, ends (set_ones v off ones).
Proof. intros. unfold set_ones. end_steps. Qed.
Lemma ends_count_levels : forall h v, ends (count_levels h v).
Proof. intros. unfold count_levels. end_steps. Qed.
Lemma ends_write_levels : forall n ones pos last bt ll, ends (write_levels n ones pos last bt ll).
Proof. intros. unfold write_levels. end_steps; auto using ends_set_ones. Qed.

Theorem ends_flat_encode : forall t, ends (flat_encodeRuns t).
Proof.
  intros. unfold flat_encodeRuns. apply ends_bind.
  - apply ends_compress_run; auto using ends_flat_getNode, ends_flat_left, ends_flat_right.
  - intros st _. unfold flat_writeOnes. end_steps; auto using ends_count_levels, ends_write_levels.
Qed.

Lemma ends_level_sizes : forall h v, ends (level_sizes h v).
Proof. intros. unfold level_sizes. end_steps. Qed.

Theorem ends_level_encode : forall t, ends (level_encodeRuns t).
Proof.
  intros. unfold level_encodeRuns. apply ends_bind.
  - apply ends_compress_run; auto using ends_level_getNode, ends_level_left, ends_level_right.
  - intros st _. unfold level_writeOnes. end_steps; auto using ends_level_sizes, ends_set_ones.
Qed.

Lemma ends_xc_sub4 : forall st l, ends (xc_sub4 st l).
Proof. intros. unfold xc_sub4. end_steps. Qed.

Lemma ends_fast_write : forall t fuel st ws l id b, l < x_height t -> x_height t <= fuel + l ->
  ends (fast_writeCompress fuel t st ws l id b).
Proof.
  intros t. induction fuel as [|fuel IH]; intros st ws l id b L F; [lia|]. cbn [fast_writeCompress].
  destruct (Nat.eqb_spec (S l) (x_height t)) as [E|E].
  - end_writes. apply ends_fast_getWord.
  - end_writes; auto using ends_fast_getNode, ends_fast_left, ends_fast_right, ends_xc_sub4; apply IH; lia.
Qed.

Theorem ends_fast_encode : forall t, ends (fast_encodeRuns t).
Proof.
  intros. unfold fast_encodeRuns. apply ends_bind.
  - destruct (x_height t) as [|h] eqn:E.
    + cbn [fast_writeCompress]. rewrite E. cbn [Nat.eqb repeat snd].
      apply ends_bind; [apply ends_fast_getNode|]. intros node _. cbn. discriminate.
    + rewrite <- E. apply ends_fast_write; lia.
  - intros [[st ws] b] _. unfold fast_writeOnes. end_steps; auto using ends_count_levels, ends_set_ones.
Qed.

(** * Decoding *)

(** The recursion goes down to [stop], or to a level without nodes. *)
Lemma ends_decode : forall height stop getNode getLeft getRight bound,
  (forall i l, ends (getNode i l)) -> (forall i l, ends (getLeft i l)) -> (forall i l, ends (getRight i l)) ->
  (forall i l x, l <> stop -> getNode i l = Ok x -> l < bound) ->
  forall fuel d p id l, l <= bound -> bound < fuel + l ->
  ends (recursiveDecode height stop getNode getLeft getRight fuel d p id l).
Proof.
  intros height stop getNode getLeft getRight bound GN GL GR B.
  induction fuel as [|fuel IH]; intros d p id l L F; [lia|]. cbn [recursiveDecode].
  destruct (Nat.eqb_spec l stop) as [E|E]; [discriminate|].
  apply ends_bind; [auto|]. intros node N0. apply B in N0; auto. end_steps; auto; apply IH; lia.
Qed.

Lemma ends_runs_decode : forall height stop getNode getLeft getRight bound,
  (forall i l, ends (getNode i l)) -> (forall i l, ends (getLeft i l)) -> (forall i l, ends (getRight i l)) ->
  (forall i l x, l <> stop -> getNode i l = Ok x -> l < bound) ->
  forall fuel d p id l, l <= bound -> bound < fuel + l ->
  ends (runsRecursiveDecode height stop getNode getLeft getRight fuel d p id l).
Proof.
  intros height stop getNode getLeft getRight bound GN GL GR B.
  induction fuel as [|fuel IH]; intros d p id l L F; [lia|]. cbn [runsRecursiveDecode].
  destruct (Nat.eqb_spec l stop) as [E|E]; [discriminate|].
  apply ends_bind; [auto|]. intros node N0. apply B in N0; auto. end_steps; auto; apply IH; lia.
Qed.

(** Same for a recursion that meets [stop] before it leaves the trie. *)
Lemma ends_decode_stop : forall height stop getNode getLeft getRight,
  (forall i l, ends (getNode i l)) -> (forall i l, ends (getLeft i l)) -> (forall i l, ends (getRight i l)) ->
  forall fuel d p id l, l <= stop -> stop <= fuel + l ->
  ends (recursiveDecode height stop getNode getLeft getRight fuel d p id l) /\
  ends (runsRecursiveDecode height stop getNode getLeft getRight fuel d p id l).
Proof.
  intros height stop getNode getLeft getRight GN GL GR.
  induction fuel as [|fuel IH]; intros d p id l L F; cbn [recursiveDecode runsRecursiveDecode];
    destruct (Nat.eqb_spec l stop) as [E|E]; try (split; discriminate); [lia|].
  split; (apply ends_bind; [auto|]; intros node N0); end_steps; auto; apply IH; lia.
Qed.

Theorem ends_flat_decode : forall t d, ends (flat_decode t d).
Proof.
  intros. unfold flat_decode. end_steps; apply ends_decode_stop;
    auto using ends_flat_getNode, ends_flat_left, ends_flat_right; lia.
Qed.

Lemma level_getNode_bound : forall t i l x, level_getNode t i l = Ok x -> l < level_getHeight t.
Proof.
  intros t i l x E. unfold level_getNode in E. apply bind_inv in E. destruct E as (bv & V & _).
  apply vget_inv in V. apply nth_error_Some. congruence.
Qed.

Theorem ends_level_decode : forall t d, ends (level_decode t d).
Proof.
  intros. unfold level_decode. end_steps.
  - apply ends_runs_decode with (bound := level_getHeight t);
      auto using ends_level_getNode, ends_level_left, ends_level_right; [|lia|lia].
    intros i l x _. apply level_getNode_bound.
  - apply ends_decode with (bound := level_getHeight t);
      auto using ends_level_getNode, ends_level_left, ends_level_right; [|lia|lia].
    intros i l x _. apply level_getNode_bound.
Qed.

Lemma getWord_fit : forall t i w, words_fit t -> fast_getWord t i = Ok w -> (w <= wmax (x_lw t))%N.
Proof.
  intros t i w (_ & F) E. unfold fast_getWord in E. destruct (_ <? _); [discriminate|].
  apply vget_inv, nth_error_In in E. rewrite Forall_forall in F. auto.
Qed.

Lemma ends_fast_rec : forall t, words_fit t -> forall fuel d p id l, l < x_height t -> x_height t <= fuel + l + 1 ->
  ends (fast_recursiveDecode fuel t d p id l) /\ ends (fast_runsRecursiveDecode fuel t d p id l).
Proof.
  intros t W. induction fuel as [|fuel IH]; intros d p id l L F; cbn [fast_recursiveDecode fast_runsRecursiveDecode];
    destruct (Nat.eqb_spec (S l) (x_height t)) as [E|E]; try lia.
  1, 2: split; (apply ends_bind; [apply ends_fast_getWord|]; intros w X; apply ends_word_bits;
                [apply W|eapply getWord_fit; eauto]).
  split; end_steps; auto using ends_fast_getNode, ends_fast_left, ends_fast_right; apply IH; lia.
Qed.

Theorem ends_fast_decode : forall t d, words_fit t -> 1 <= x_height t -> ends (fast_decode t d).
Proof. intros t d W H. unfold fast_decode. end_steps; apply ends_fast_rec; auto; lia. Qed.

(** * Intersect *)

(** The methods of a trie end. *)
Definition ops_end (T : trie_ops) : Prop :=
  (forall i l, ends (t_getNode T i l)) /\ (forall i l, ends (t_getLeft T i l)) /\
  (forall i l, ends (t_getRight T i l)) /\ (forall i, ends (t_getWord T i)).

Lemma flat_ops_end : forall t, ops_end (flat_ops t).
Proof. intros. repeat split; intros; cbn; auto using ends_flat_getNode, ends_flat_left, ends_flat_right. discriminate. Qed.
Lemma level_ops_end : forall t, ops_end (level_ops t).
Proof. intros. repeat split; intros; cbn; auto using ends_level_getNode, ends_level_left, ends_level_right. discriminate. Qed.
Lemma bin_ops_end : forall t, ops_end (bin_ops t).
Proof. intros [t|t]; [apply flat_ops_end|apply level_ops_end]. Qed.
Lemma fast_ops_end : forall t, ops_end (fast_ops t).
Proof.
  intros. repeat split; intros; cbn;
    auto using ends_fast_getNode, ends_fast_left, ends_fast_right, ends_fast_getWord.
Qed.

Section Inter.
Variable k : kind.
Variable Ts : list trie_ops.
Variable nTries maxLevel : nat.
Hypothesis TE : Forall ops_end Ts.
Hypothesis K : match k with Bin => True | Fast lw => lw <= 6 end.

Lemma ops_of : forall i T, vget Ts i = Ok T -> ops_end T.
Proof. intros i T E. apply vget_inv, nth_error_In in E. rewrite Forall_forall in TE. auto. Qed.

Ltac end_ops := repeat (end_step; cbv beta);
  try (match goal with H : vget Ts _ = Ok ?T |- ends (_ ?T _) => apply (ops_of _ _ H) | H : vget Ts _ = Ok ?T |- ends (_ ?T _ _) => apply (ops_of _ _ H) end).

Lemma land_fit : forall lw a b, (a <= wmax lw)%N -> (N.land a b <= wmax lw)%N.
Proof.
  intros lw a b A. apply N.le_trans with a; [|exact A]. apply N.ldiff_le, N.bits_inj. intros i.
  rewrite N.ldiff_spec, N.land_spec, N.bits_0. destruct (N.testbit a i), (N.testbit b i); reflexivity.
Qed.

Lemma for_inv : forall T (P : T -> Prop) n start (f : nat -> T -> result T) s r,
  P s -> (forall i s s', P s -> f i s = Ok s' -> P s') -> for_loop n start f s = Ok r -> P r.
Proof.
  induction n as [|n IH]; intros start f s r P0 F E; cbn [for_loop] in E; [congruence|].
  apply bind_inv in E. destruct E as (s' & E1 & E2). eapply IH; [|exact F|exact E2]. eauto.
Qed.

Lemma ends_and_leaf : forall active roots prefix r, (forall i, ends (active i)) ->
  ends (and_leaf k Ts nTries active roots prefix r).
Proof.
  intros active roots prefix r A. unfold and_leaf. destruct k as [|lw]; [discriminate|].
  apply ends_bind. { end_ops. apply A. }
  intros w W. apply ends_word_bits; [exact K|].
  apply (for_inv _ (fun w => (w <= wmax lw)%N)) in W; [exact W|lia|].
  intros i s s' P E. cbv beta in E. apply bind_inv in E. destruct E as (a & _ & E). destruct a.
  - apply bind_inv in E. destruct E as (T & _ & E). apply bind_inv in E. destruct E as (root & _ & E).
    apply bind_inv in E. destruct E as (wi & _ & E). assert (s' = N.land s wi) as -> by congruence.
    apply land_fit, P.
  - congruence.
Qed.

Lemma ends_children : forall active l roots, (forall i, ends (active i)) ->
  ends (left_children Ts nTries maxLevel active l roots) /\
  ends (right_children Ts nTries maxLevel active l roots) /\
  ends (both_children Ts nTries maxLevel active l roots).
Proof.
  intros active l roots A. unfold left_children, right_children, both_children. repeat split; end_ops; apply A.
Qed.

Lemma ends_right_prefix : forall l p, ends (right_prefix k maxLevel l p).
Proof. intros. unfold right_prefix. end_ops. Qed.
Lemma ends_push_full : forall l p r, ends (push_full k maxLevel l p r).
Proof. intros. unfold push_full. end_ops. Qed.
Lemma ends_all_active : forall i, ends (all_active i).
Proof. discriminate. Qed.

(** The level on which a branch ends. *)
Definition end_level : nat := match k with Bin => maxLevel | Fast _ => maxLevel - 1 end.

Definition reachable_end (l : nat) : Prop :=
  l <= end_level /\ match k with Bin => True | Fast _ => 1 <= maxLevel end.

Lemma at_end_spec : forall l, reachable_end l -> at_end k maxLevel l = (l =? end_level).
Proof.
  intros l (L & H). unfold at_end, end_level in *. destruct k; [auto|].
  destruct (Nat.eqb_spec (S l) maxLevel), (Nat.eqb_spec l (maxLevel - 1)); auto; lia.
Qed.

Lemma ends_AND : forall fuel l roots p r, reachable_end l -> end_level <= fuel + l ->
  ends (AND k Ts nTries maxLevel fuel l roots p r).
Proof.
  induction fuel as [|fuel IH]; intros l roots p r R F; cbn [AND]; rewrite at_end_spec by auto;
    destruct (Nat.eqb_spec l end_level) as [E|E].
  1, 3: apply ends_bind; [apply ends_and_leaf; intros; discriminate|intros; discriminate].
  { destruct R. lia. }
  assert (R' : reachable_end (S l)) by (destruct R; split; [lia|auto]).
  destruct (ends_children all_active l roots ends_all_active) as (CL & CR & CB).
  end_ops; auto using ends_right_prefix; apply IH; auto; lia.
Qed.

Lemma ends_runs_scan : forall l roots active, ends (runs_scan Ts nTries l roots active).
Proof. intros. unfold runs_scan. end_ops. Qed.

Lemma ends_runsAND : forall fuel l roots active p r, reachable_end l -> end_level <= fuel + l ->
  ends (runsAND k Ts nTries maxLevel fuel l roots active p r).
Proof.
  induction fuel as [|fuel IH]; intros l roots active p r R F; cbn [runsAND]; rewrite at_end_spec by auto;
    destruct (Nat.eqb_spec l end_level) as [E|E].
  1, 3: apply ends_and_leaf; intros; apply ends_aget.
  { destruct R. lia. }
  assert (R' : reachable_end (S l)) by (destruct R; split; [lia|auto]).
  assert (CH : forall temp : active_arr, _) by exact (fun temp => ends_children (aget temp) l roots (fun i => ends_aget _ temp i)).
  apply ends_bind; [apply ends_runs_scan|]. intros [[temp a] o] _. destruct (CH temp) as (CL & CR & CB).
  end_ops; auto using ends_right_prefix, ends_push_full; apply IH; auto; lia.
Qed.

Variable runs : bool.

Lemma ends_copy_arr : forall A (src : list (option A)), ends (copy_arr nTries src).
Proof. intros. unfold copy_arr. end_ops. Qed.

Lemma ends_pa_emit : forall roots active p st, ends (pa_emit nTries runs roots active p st).
Proof. intros. unfold pa_emit. end_ops; auto using ends_copy_arr. Qed.

Lemma ends_pa_scan : forall l roots active, ends (pa_scan Ts nTries runs l roots active).
Proof. intros. unfold pa_scan. end_ops. Qed.

Lemma ends_pa_children : forall l roots,
  ends (pa_left Ts nTries l roots) /\ ends (pa_right Ts nTries l roots) /\ ends (pa_both Ts nTries l roots).
Proof. intros. unfold pa_left, pa_right, pa_both. repeat split; end_ops. Qed.

Lemma ends_partialAND : forall fuel l cut roots active p st, l <= cut -> cut <= fuel + l ->
  ends (partialAND k Ts nTries maxLevel runs fuel l cut roots active p st).
Proof.
  induction fuel as [|fuel IH]; intros l cut roots active p st L F; cbn [partialAND];
    destruct (Nat.eqb_spec l cut) as [E|E]; auto using ends_pa_emit; [lia|].
  apply ends_bind; [apply ends_pa_scan|]. intros [[temp res] node00] _.
  destruct (ends_pa_children l roots) as (CL & CR & CB).
  end_ops; auto using ends_right_prefix, ends_push_full; apply IH; lia.
Qed.

Lemma ends_fill_loop : forall fuel cut nThreads total ints troots tactive i used st, total < fuel + i ->
  ends (fill_loop k Ts nTries maxLevel runs fuel cut nThreads total ints troots tactive i used st).
Proof.
  induction fuel as [|fuel IH]; intros cut nThreads total ints troots tactive i used st F; cbn [fill_loop];
    destruct (N.ltb 1 _ && (i <? total))%bool eqn:E; try discriminate;
    apply andb_prop in E; destruct E as (_ & E); apply Nat.ltb_lt in E; [lia|].
  end_ops; [apply ends_partialAND; lia|]. apply IH. lia.
Qed.

Lemma ends_par_plan : forall cut nThreads, ends (par_plan k Ts nTries maxLevel runs cut nThreads).
Proof.
  intros. unfold par_plan. end_ops; [apply ends_partialAND; lia|apply ends_fill_loop; lia].
Qed.

Lemma plan_levels : forall cut nThreads used levels st,
  par_plan k Ts nTries maxLevel runs cut nThreads = Ok (Work used levels st) -> Forall (fun l => l <= S cut) levels.
Proof.
  intros cut nThreads used levels st E. unfold par_plan in E. apply bind_inv in E. destruct E as (st0 & _ & E).
  destruct (_ =? 0); [discriminate|]. apply bind_inv in E. destruct E as ([[i used'] st1] & _ & E).
  apply bind_inv in E. destruct E as ([levels' st2] & L & E). destruct (_ =? 0); [discriminate|].
  assert (levels' = levels) as -> by congruence. clear E.
  apply (for_inv _ (fun x => Forall (fun l => l <= S cut) (fst x))) in L; [exact L| |].
  - cbn [fst]. apply Forall_forall. intros x X. apply repeat_spec in X. lia.
  - intros j [lv s] [lv' s'] P Q. cbv beta iota in Q. cbn [fst] in *. apply bind_inv in Q. destruct Q as (rt & _ & Q).
    apply bind_inv in Q. destruct Q as (act & _ & Q). apply bind_inv in Q. destruct Q as (p & _ & Q).
    assert (lv' = lv ++ [cut]) as -> by congruence. apply Forall_app. split; [auto|]. constructor; [lia|auto].
Qed.

Lemma ends_run_task : forall tk, reachable_end (tk_level tk) -> ends (run_task k Ts nTries maxLevel runs tk).
Proof.
  intros tk R. assert (end_level <= S maxLevel) by (unfold end_level; destruct k; lia).
  unfold run_task. destruct runs; [apply ends_runsAND; auto; lia|].
  apply ends_bind; [apply ends_AND; auto; lia|]. intros [r f] _. discriminate.
Qed.

Lemma ends_exec_push : forall tr slots, ends (exec_push slots tr).
Proof. induction tr as [|[s x] tr IH]; intros; cbn [exec_push]; end_ops. apply IH. Qed.
Lemma ends_exec_write : forall tr v, ends (exec_write v tr).
Proof. induction tr as [|[s x] tr IH]; intros; cbn [exec_write]; end_ops. apply IH. Qed.
Lemma ends_pf_traces : forall n m acts, ends (pf_traces n m acts).
Proof. intros. unfold pf_traces, pf_ranges. end_ops. Qed.

Lemma ends_par_results : forall s used levels st, Forall reachable_end levels ->
  ends (par_results k Ts nTries maxLevel runs s used levels st).
Proof.
  intros s used levels st L. unfold par_results. apply ends_bind.
  - apply ends_for. intros t outs. apply ends_bind. { unfold get_task. end_ops. }
    intros tk T. apply ends_bind; [|intros; discriminate]. apply ends_run_task.
    unfold get_task in T. apply bind_inv in T. destruct T as (lv & V & T). apply vget_inv, nth_error_In in V.
    apply bind_inv in T. destruct T as (rt & _ & T). apply bind_inv in T. destruct T as (act & _ & T).
    apply bind_inv in T. destruct T as (p & _ & T).
    assert (tk = mkTask lv (snd rt) act p) as -> by congruence. cbn [tk_level]. rewrite Forall_forall in L. auto.
  - intros outs _. apply ends_bind; [apply ends_pf_traces|]. intros. apply ends_exec_push.
Qed.

Lemma ends_par_concat : forall s used inter results, ends (par_concat s used inter results).
Proof. intros. unfold par_concat. end_ops; auto using ends_pf_traces, ends_exec_write. Qed.

Lemma ends_free_loop : forall used st, ends (free_loop runs used st).
Proof. intros. unfold free_loop, free1. end_ops. Qed.
End Inter.

Theorem ends_Intersect : forall k s1 s2 hc Ts runs parallel,
  Forall ops_end Ts -> match k with Bin => True | Fast lw => lw <= 6 end ->
  (forall T, nth_error Ts 0 = Some T ->
     match k with Bin => True | Fast _ => 1 <= t_height T end /\ (parallel = true -> 2 <= t_height T)) ->
  ends (Intersect k s1 s2 hc Ts runs parallel).
Proof.
  intros k s1 s2 hc Ts runs parallel TE K H. unfold Intersect. apply ends_bind; [|intros [r m] _; discriminate].
  unfold Intersect_mem. apply ends_bind; [apply ends_vget|]. intros T0 V. apply vget_inv in V.
  destruct (H T0 V) as (H1 & H2). destruct (same_height _ _); cbn [negb]; [|discriminate].
  destruct (N.eqb hc 0); [discriminate|].
  assert (R0 : reachable_end k (t_height T0) 0).
  { split; [unfold end_level; destruct k; lia|]. destruct k; auto. }
  assert (EL : end_level k (t_height T0) <= S (t_height T0)) by (unfold end_level; destruct k; lia).
  destruct (parallel && _)%bool eqn:P.
  - apply andb_prop in P. destruct P as (-> & P). specialize (H2 eq_refl).
    apply ends_bind; [apply ends_par_plan; auto|]. intros [r m|used levels st] PL; [discriminate|].
    apply plan_levels in PL. apply ends_bind.
    + apply ends_par_results; auto. eapply Forall_impl; [|exact PL]. intros l L. cbv beta in L.
      assert (N.to_nat (N.log2 hc) <= t_height T0 - 2) by lia.
      split; [unfold end_level; destruct k; lia|]. destruct k; auto.
    + intros results _. apply ends_bind; [apply ends_par_concat|]. intros r _.
      apply ends_bind; [apply ends_free_loop|]. discriminate.
  - destruct runs.
    + apply ends_bind; [apply ends_runsAND; auto; lia|]. discriminate.
    + apply ends_bind; [apply ends_AND; auto; lia|]. intros [r f] _. discriminate.
Qed.
