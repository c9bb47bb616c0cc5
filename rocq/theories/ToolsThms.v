(** The collection tools end to end: binary tries. *)

From Verif Require Import Base FlatTrie LevelTrie FastTrie ParallelFor Intersection Tries Serialize
  Tools Facts Spec SpecTries SpecFiles SpecTools SerializeFacts SerializeSound SerializeThms
  InterThms InterLaws InterRefute ParForThms ToolsFacts.

Lemma loaded_object_spec : forall fm rank block levelwise, formats_ok fm ->
  loadable_options rank block levelwise ->
  exists old, loaded_object fm rank (if N.eqb rank 1 then block else 512%N) levelwise
              = Ok (built_codecs fm rank block, old) /\
    has_class (built_variant rank levelwise) old /\ codecs_ok (built_codecs fm rank block) /\
    built_variant rank levelwise <> VLevel true.
Proof.
  intros fm rank block levelwise (F1 & F2 & F3) (Hr & _ & Ho).
  unfold loaded_object, built_codecs, built_variant.
  destruct (N.eqb_spec rank 0) as [->|H0].
  { destruct levelwise; (eexists; split; [reflexivity|]; split; [reflexivity || exact I|]; split; [auto|discriminate]). }
  destruct (N.eqb_spec rank 1) as [->|H1].
  - destruct (Ho eq_refl) as (-> & Hb). assert (Hb' := Hb). cbn in Hb.
    destruct Hb as [<-|[<-|[<-|[]]]]; (eexists; split; [reflexivity|]; split; [reflexivity || exact I|]; split; [auto|discriminate]).
  - destruct levelwise; (eexists; split; [reflexivity|]; split; [reflexivity || exact I|]; split; [auto|discriminate]).
Qed.

(** * C34 *)

Lemma load_sequences_spec : forall c old u v enc kept ts bs rest,
  codecs_ok c -> v <> VLevel true -> has_class v old -> (2 <= u <= 2 ^ 48)%N ->
  Forall (stored_ok u v enc) kept ->
  each_ok (bin_make u v enc) kept = Ok ts ->
  Forall2 (fun t b => bin_serialize c t = Ok (b, N.of_nat (length b))) ts bs ->
  load_sequences (length kept) (Ok (c, old)) (concat bs ++ rest) = Ok (ts, rest).
Proof.
  intros c old u v enc kept ts bs rest C Hv Ho Hu. revert ts bs.
  induction kept as [|l kept IH]; intros ts bs Hk E F; cbn [each_ok] in E.
  - injection E as <-. inversion F; subst. reflexivity.
  - apply bind_inv in E; destruct E as (t0 & H & E); apply bind_inv in E; destruct E as (ts0 & Hts & E). injection E as <-. inversion F as [|t1 b1 ts' bs' Eb F']; subst.
    inversion Hk as [|? ? Hl Hk']; subst. cbn [length load_sequences concat]. rewrite <- app_assoc.
    destruct (bin_made u v enc l Hu Hl) as (t & H1 & H2 & H3 & H4 & H5).
    rewrite H in H1. injection H1 as <-.
    destruct (serialization_round_trip c u v enc l t0 old (concat bs' ++ rest) C Hv H H2) as (b' & E1 & E2).
    { destruct v, t0, old; cbn in *; try easy. congruence. }
    rewrite Eb in E1. injection E1 as <-. cbn [bind]. rewrite E2. cbn [bind].
    erewrite IH; eauto. reflexivity.
Qed.

Theorem collection_round_trip : forall fm a b rank block runs levelwise one u lists,
  formats_ok fm -> collection_ok one u lists -> (2 <= u)%N ->
  loadable_options rank block levelwise ->
  Forall (stored_ok u (built_variant rank levelwise) runs) (kept_lists a b lists) ->
  exists file ts,
    build_tries fm a b rank block runs levelwise (collection_file one u lists) = Ok file /\
    load_collection fm file = Ok (runs, ts) /\
    each_ok (bin_make u (built_variant rank levelwise) runs) (kept_lists a b lists) = Ok ts /\
    each_ok (fun t => bin_decode t []) ts = Ok (kept_lists a b lists).
Proof.
  intros fm a b rank block runs levelwise one u lists F C Hu2 O K.
  assert (Hu : (2 <= u <= 2 ^ 48)%N).
  { split; auto. destruct C as (_ & C & _). apply N.lt_le_incl. eapply N.lt_trans; [exact C|reflexivity]. }
  destruct (loaded_object_spec fm rank block levelwise F O) as (old & Eo & Hold & Hc & Hv).
  set (v := built_variant rank levelwise) in *. set (c := built_codecs fm rank block) in *.
  set (kept := kept_lists a b lists) in *.
  assert (M : exists ts, each_ok (bin_make u v runs) kept = Ok ts /\
            Forall2 (fun l t => bin_decode t [] = Ok l /\
                       exists bytes, bin_serialize c t = Ok (bytes, N.of_nat (length bytes))) kept ts).
  { apply each_ok_Forall. rewrite Forall_forall in *. intros l Hl.
    destruct (stored_set c u v runs l old [] Hc Hv Hu (K l Hl) Hold) as (t & bytes & E1 & E2 & E3 & E4).
    exists t. eauto. }
  destruct M as (ts & Ets & Fts).
  assert (B : exists bs, Forall2 (fun t b => bin_serialize c t = Ok (b, N.of_nat (length b))) ts bs).
  { clear - Fts. induction Fts as [|l t kept ts (_ & bytes & E) _ (bs & IH)]; [exists []; constructor|].
    exists (bytes :: bs). constructor; auto. }
  destruct B as (bs & Fbs).
  assert (S : each_ok (fun p : nat * list N =>
                (fun u (_ : nat) il => let* t := bin_make u v runs il in
                   let* (bytes, _) := bin_serialize c t in Ok bytes) u (fst p) (snd p)) (indexed 0 kept) = Ok bs).
  { clear - Ets Fbs. revert ts bs Ets Fbs. generalize 0 as n.
    induction kept as [|l kept IH]; intros n ts bs E F; cbn [each_ok indexed] in *.
    - injection E as <-. inversion F. auto.
    - apply bind_inv in E; destruct E as (t0 & H & E); apply bind_inv in E; destruct E as (ts0 & Hts & E). injection E as <-. inversion F as [|t1 b1 ts' bs' Eb F']; subst. cbn [fst snd].
      rewrite H. cbn [bind]. rewrite Eb. cbn [bind]. erewrite IH; eauto. reflexivity. }
  assert (D : each_ok (fun t => bin_decode t []) ts = Ok kept).
  { clear - Fts. induction Fts as [|l t kept ts (E & _) _ IH]; auto. cbn [each_ok]. rewrite E, IH. auto. }
  eexists. exists ts. split; [|split; [|split; auto]].
  { unfold build_tries. rewrite build_file_spec by eauto. fold v c kept.
    cbv beta in S. rewrite S. cbn [bind]. reflexivity. }
  assert (Kc := kept_count a b one u lists C). destruct C as (C1 & C2 & _). destruct O as (O1 & Hb & _).
  unfold load_collection. rewrite <- !app_assoc. rewrite read_le_app by auto. cbn [bind].
  assert (X : forall rest, (if N.eqb rank 1 then read_le 4 ((if N.eqb rank 1 then le_bytes 4 block else []) ++ rest)
                 else Ok (512%N, (if N.eqb rank 1 then le_bytes 4 block else []) ++ rest))
              = Ok (if N.eqb rank 1 then block else 512%N, rest)).
  { intros. destruct (N.eqb rank 1); auto. apply read_le_app. auto. }
  rewrite X. cbn [bind]. rewrite read_bool_app. cbn [bind]. rewrite read_bool_app. cbn [bind].
  rewrite read_le_app by auto. cbn [bind]. rewrite read_le_app by auto. cbn [bind].
  rewrite read_le_app by auto. cbn [bind]. rewrite Eo, Nat2N.id.
  rewrite <- (app_nil_r (concat bs)). erewrite load_sequences_spec; eauto. reflexivity.
Qed.

Theorem no_il_levelwise : forall fm a b block runs one u lists,
  collection_ok one u lists -> kept_lists a b lists <> [] ->
  Forall (stored_ok u (VLevel true) runs) (kept_lists a b lists) -> (2 <= u)%N ->
  build_tries fm a b 1 block runs true (collection_file one u lists) = UB NullDeref.
Proof.
  intros fm a b block runs one u lists C Hne K Hu2. unfold build_tries.
  assert (Hu : (2 <= u <= 2 ^ 48)%N).
  { split; auto. destruct C as (_ & C & _). apply N.lt_le_incl. eapply N.lt_trans; [exact C|reflexivity]. }
  rewrite build_file_spec by eauto. destruct (kept_lists a b lists) as [|l kept]; [easy|].
  inversion K as [|? ? Hl _]; subst. cbn [indexed each_ok fst snd].
  destruct (bin_made u (VLevel true) runs l Hu Hl) as (t & H1 & _).
  change (built_variant 1 true) with (VLevel true). rewrite H1. cbn [bind].
  rewrite (level_il_not_storable _ _ _ _ _ H1). reflexivity.
Qed.

Theorem block_64_not_loadable : forall fm a b block runs one u lists,
  formats_ok fm -> collection_ok one u lists -> (2 <= u)%N -> (block < 2 ^ 32)%N ->
  ~ In block [128; 256; 512]%N -> kept_lists a b lists <> [] ->
  Forall (stored_ok u (VFlat true) runs) (kept_lists a b lists) ->
  exists file, build_tries fm a b 1 block runs false (collection_file one u lists) = Ok file /\
    load_collection fm file = UB Indeterminate.
Proof.
  intros fm a b block runs one u lists F C Hu2 Hb Hnb Hne K.
  assert (Hu : (2 <= u <= 2 ^ 48)%N).
  { split; auto. destruct C as (_ & C & _). apply N.lt_le_incl. eapply N.lt_trans; [exact C|reflexivity]. }
  assert (Hc : codecs_ok (built_codecs fm 1 block)) by apply F.
  assert (S : exists bs, each_ok (fun p : nat * list N =>
                (fun u (_ : nat) il => let* t := bin_make u (built_variant 1 false) runs il in
                   let* (bytes, _) := bin_serialize (built_codecs fm 1 block) t in Ok bytes) u (fst p) (snd p))
               (indexed 0 (kept_lists a b lists)) = Ok bs).
  { assert (X := each_ok_Forall _ _ (fun p : nat * list N =>
                (fun u (_ : nat) il => let* t := bin_make u (built_variant 1 false) runs il in
                   let* (bytes, _) := bin_serialize (built_codecs fm 1 block) t in Ok bytes) u (fst p) (snd p))
                (fun _ _ => True) (indexed 0 (kept_lists a b lists))).
    destruct X as (bs & E & _); [|eauto].
    apply (indexed_Forall _ _ _ 0) in K. eapply Forall_impl; [|exact K]. intros (i & l) Hl. cbn [fst snd] in *.
    destruct (stored_set (built_codecs fm 1 block) u (VFlat true) runs l (BFlat (mkFlat 0 0 false false [] [] [])) []
      Hc ltac:(discriminate) Hu Hl I) as (t & bytes & E1 & E2 & _).
    change (built_variant 1 false) with (VFlat true). rewrite E1. cbn [bind]. rewrite E2. cbn [bind]. eauto. }
  destruct S as (bs & S). cbv beta in S. eexists. split.
  { unfold build_tries. rewrite build_file_spec by eauto. rewrite S. cbn [bind]. reflexivity. }
  assert (Kc := kept_count a b one u lists C). destruct C as (C1 & C2 & _).
  change (N.eqb 1 1) with true. cbv iota.
  unfold load_collection. rewrite <- !app_assoc. rewrite read_le_app by reflexivity. cbn [bind].
  change (N.eqb 1 1) with true. cbv iota. rewrite read_le_app by auto. cbn [bind].
  rewrite read_bool_app. cbn [bind]. rewrite read_bool_app. cbn [bind].
  rewrite read_le_app by auto. cbn [bind]. rewrite read_le_app by auto. cbn [bind].
  rewrite read_le_app by auto. cbn [bind]. rewrite Nat2N.id.
  destruct (kept_lists a b lists) as [|l kept]; [easy|]. cbn [length load_sequences].
  unfold loaded_object. change (N.eqb 1 0) with false. change (N.eqb 1 1) with true. cbv iota.
  destruct ((N.eqb block 128 || N.eqb block 256 || N.eqb block 512)%bool) eqn:E; [|reflexivity].
  exfalso. apply Hnb. apply Bool.orb_prop in E. destruct E as [E|E];
    [apply Bool.orb_prop in E; destruct E as [E|E]|]; apply N.eqb_eq in E; subst; cbn; auto.
Qed.

(** * C36 *)

Lemma Forall_lists_at : forall (P : list N -> Prop) kept q, Forall P kept ->
  Forall (fun i => (i < N.of_nat (length kept))%N) q -> Forall P (lists_at kept q).
Proof.
  intros P kept q H Hq. unfold lists_at. induction Hq; cbn [map]; constructor; auto.
  rewrite Forall_forall in H. apply H. apply nth_In. lia.
Qed.

Lemma bin_answer : forall u v runs parallel hc sched kept q qs,
  (2 <= u <= 2 ^ 48)%N -> exact_mode u runs parallel hc sched kept ->
  Forall (stored_ok u v runs) kept -> query_ok kept q -> length q <= 16 ->
  each_ok (bin_make u v runs) (lists_at kept q) = Ok qs ->
  forall nq rep, exists r,
    Intersect Bin (fst (sched nq rep)) (snd (sched nq rep)) hc (map bin_ops qs) runs parallel = Ok r /\
    is_intersection (lists_at kept q) r.
Proof.
  intros u v runs parallel hc sched kept q qs Hu (Hhc & Hp) K (Hne & Hq) Hl E nq rep.
  assert (K' := Forall_lists_at _ _ _ K Hq).
  assert (L : 1 <= length (lists_at kept q) <= 16).
  { unfold lists_at. rewrite map_length. destruct q; [easy|]. cbn [length] in *. lia. }
  destruct runs.
  - destruct parallel.
    { destruct (Hp eq_refl) as (H1 & [H2|(_ & H2)] & H3 & H4); [|discriminate]. specialize (H3 eq_refl).
      destruct (bin_par_runs_exact u (map (fun s => (v, true, s)) (lists_at kept q)) hc (fst (sched nq rep))
                  (snd (sched nq rep))) as (Ts & r & E1 & E2 & E3); auto; try lia.
      { rewrite map_length. auto. }
      { clear - K'. induction K'; constructor; auto. }
      { apply H4. }
      { apply H4. }
      { rewrite map_map, map_id. destruct H3 as [H3|H3]; [|auto]. left. apply Forall_lists_at; auto. }
      rewrite each_ok_map in E1. unfold make_bitem in E1. cbn [fst snd] in E1.
      change (each_ok (bin_make u v true) (lists_at kept q) = Ok Ts) in E1.
      rewrite E in E1. injection E1 as <-. rewrite map_map, map_id in E3. exists r. split; auto. }
    destruct (bin_runs_seq u (map (fun s => (v, true, s)) (lists_at kept q)) Hu) as (Ts & r & E1 & E2 & E3).
    { rewrite map_length. auto. }
    { clear - K'. induction K'; constructor; auto. }
    rewrite each_ok_map in E1. unfold make_bitem in E1. cbn [fst snd] in E1.
    change (each_ok (bin_make u v true) (lists_at kept q) = Ok Ts) in E1.
    rewrite E in E1. injection E1 as <-. rewrite map_map, map_id in E2. exists r. split; auto.
  - assert (P : Forall (pitem_ok u) (map (fun s => (v, s)) (lists_at kept q))).
    { clear - K'. induction K' as [|s l (H & _) _ IH]; constructor; auto. }
    assert (M : each_ok (make_pitem u) (map (fun s => (v, s)) (lists_at kept q)) = Ok qs).
    { rewrite <- E, each_ok_map. apply each_ok_ext. intros s _. unfold make_pitem, bin_make. cbn [fst snd].
      destruct (bin_build v s u); reflexivity. }
    destruct parallel.
    + destruct (Hp eq_refl) as (H1 & H2 & _ & H3). specialize (H3 nq rep).
      destruct (bin_parallel u (map (fun s => (v, s)) (lists_at kept q)) Hu) as (Ts & r & E1 & E2 & E3); auto.
      { rewrite map_length. auto. }
      rewrite M in E1. injection E1 as <-. rewrite map_map, map_id in E2. exists r. split; auto. apply E3; tauto.
    + destruct (bin_plain_sequential u (map (fun s => (v, s)) (lists_at kept q)) Hu) as (Ts & r & E1 & E2 & E3); auto.
      { rewrite map_length. auto. }
      rewrite M in E1. injection E1 as <-. rewrite map_map, map_id in E2. exists r. split; auto.
Qed.

Theorem end_to_end : forall fm a b rank block runs levelwise one u lists hc parallel sched queries,
  formats_ok fm -> collection_ok one u lists -> (2 <= u)%N ->
  loadable_options rank block levelwise ->
  Forall (stored_ok u (built_variant rank levelwise) runs) (kept_lists a b lists) ->
  exact_mode u runs parallel hc sched (kept_lists a b lists) ->
  Forall (query_ok (kept_lists a b lists)) queries ->
  exists file rs,
    build_tries fm a b rank block runs levelwise (collection_file one u lists) = Ok file /\
    query_log fm sched hc parallel file queries = Ok rs /\
    Forall2 (answers (kept_lists a b lists)) queries rs.
Proof.
  intros fm a b rank block runs levelwise one u lists hc parallel sched queries F C Hu2 O K M Q.
  assert (Hu : (2 <= u <= 2 ^ 48)%N).
  { split; auto. destruct C as (_ & C & _). apply N.lt_le_incl. eapply N.lt_trans; [exact C|reflexivity]. }
  destruct (collection_round_trip fm a b rank block runs levelwise one u lists F C Hu2 O K)
    as (file & ts & E1 & E2 & E3 & _).
  exists file. unfold query_log. rewrite E2. cbn [bind].
  destruct (run_queries_spec _ (fun i => vgetN ts i)
    (fun nq rep ts => Intersect Bin (fst (sched nq rep)) (snd (sched nq rep)) hc (map bin_ops ts) runs parallel)
    (fun q r => is_intersection (lists_at (kept_lists a b lists) q) r) queries 0) as (rs & R1 & R2).
  { eapply Forall_impl; [|exact Q]. intros q Hq.
    destruct (pick_spec _ _ _ _ q E3 (proj2 Hq)) as (qs & P1 & P2). exists qs. split; auto.
    intros Hl nq rep. eapply bin_answer; eauto. }
  exists rs. split; auto.
Qed.

(** An id that no kept list has, in a query of any length. *)
Theorem missing_id : forall fm a b rank block runs levelwise one u lists hc parallel sched q i,
  formats_ok fm -> collection_ok one u lists -> (2 <= u)%N ->
  loadable_options rank block levelwise ->
  Forall (stored_ok u (built_variant rank levelwise) runs) (kept_lists a b lists) ->
  In i q -> (N.of_nat (length (kept_lists a b lists)) <= i)%N ->
  exists file,
    build_tries fm a b rank block runs levelwise (collection_file one u lists) = Ok file /\
    query_log fm sched hc parallel file [q] = UB OutOfBounds.
Proof.
  intros fm a b rank block runs levelwise one u lists hc parallel sched q i F C Hu2 O K Hi Hn.
  destruct (collection_round_trip fm a b rank block runs levelwise one u lists F C Hu2 O K)
    as (file & ts & E1 & E2 & E3 & _).
  exists file. split; auto. unfold query_log. rewrite E2. cbn [bind run_queries].
  apply each_ok_length in E3. rewrite <- E3 in Hn.
  assert (X : each_ok (fun i => vgetN ts i) q = UB OutOfBounds).
  { assert (V : forall j, vgetN ts j = UB OutOfBounds \/ exists t, vgetN ts j = Ok t).
    { intros j. unfold vgetN, vget. destruct (N.ltb _ _); auto. destruct (nth_error _ _); eauto. }
    assert (N : vgetN ts i = UB OutOfBounds).
    { unfold vgetN. destruct (N.ltb_spec i (N.of_nat (length ts))); auto. lia. }
    clear - Hi N V. induction q as [|j q IH]; [easy|]. cbn [each_ok].
    destruct Hi as [->|Hi]; [rewrite N; reflexivity|].
    destruct (V j) as [->|(t & ->)]; cbn [bind]; auto. rewrite (IH Hi). reflexivity. }
  rewrite X. reflexivity.
Qed.

(** Any number of threads over runs: no wrong value, perhaps missing ones. *)
Theorem end_to_end_sound : forall fm a b rank block levelwise one u lists hc sched queries,
  formats_ok fm -> collection_ok one u lists -> (3 <= u)%N ->
  loadable_options rank block levelwise ->
  Forall (stored_ok u (built_variant rank levelwise) true) (kept_lists a b lists) ->
  (1 <= hc < 2 ^ 16)%N ->
  (forall nq rep, valid_scheduler (fst (sched nq rep)) /\ valid_scheduler (snd (sched nq rep))) ->
  Forall (query_ok (kept_lists a b lists)) queries ->
  exists file rs,
    build_tries fm a b rank block true levelwise (collection_file one u lists) = Ok file /\
    query_log fm sched hc true file queries = Ok rs /\
    Forall2 (fun q a' => match a' with
                        | None => 16 < length q
                        | Some r => length q <= 16 /\ NoDup r /\
                            forall x, In x r -> Forall (fun s => In x s) (lists_at (kept_lists a b lists) q)
                        end) queries rs.
Proof.
  intros fm a b rank block levelwise one u lists hc sched queries F C Hu2 O K Hhc Hs Q.
  assert (Hu : (2 <= u <= 2 ^ 48)%N).
  { split; [lia|]. destruct C as (_ & C & _). apply N.lt_le_incl. eapply N.lt_trans; [exact C|reflexivity]. }
  destruct (collection_round_trip fm a b rank block true levelwise one u lists F C ltac:(lia) O K)
    as (file & ts & E1 & E2 & E3 & _).
  exists file. unfold query_log. rewrite E2. cbn [bind].
  set (kept := kept_lists a b lists) in *. set (v := built_variant rank levelwise) in *.
  destruct (run_queries_spec _ (fun i => vgetN ts i)
    (fun nq rep ts => Intersect Bin (fst (sched nq rep)) (snd (sched nq rep)) hc (map bin_ops ts) true true)
    (fun q r => NoDup r /\ forall x, In x r -> Forall (fun s => In x s) (lists_at kept q))
    queries 0) as (rs & R1 & R2).
  { eapply Forall_impl; [|exact Q]. intros q Hq. assert (Hq' := Hq). destruct Hq' as (Hne & Hlt).
    destruct (pick_spec _ _ _ _ q E3 Hlt) as (qs & P1 & P2). exists qs. split; auto.
    intros Hl nq rep. assert (K' := Forall_lists_at _ _ _ K Hlt).
    destruct (bin_par_runs_sound u (map (fun s => (v, true, s)) (lists_at kept q)) hc
      (fst (sched nq rep)) (snd (sched nq rep)) Hu) as (Ts & r & X1 & X2 & X3 & X4); auto.
    { unfold lists_at. rewrite !map_length. destruct q; [easy|]. cbn [length] in *. lia. }
    { clear - K'. induction K'; constructor; auto. }
    { apply Hs. }
    { apply Hs. }
    rewrite each_ok_map in X1. unfold make_bitem in X1. cbn [fst snd] in X1.
    change (each_ok (bin_make u v true) (lists_at kept q) = Ok Ts) in X1.
    rewrite P2 in X1. injection X1 as <-. rewrite map_map, map_id in X4. exists r. auto. }
  exists rs. split; auto.
Qed.

(** A query without ids. *)
Theorem empty_query : forall fm sched hc parallel file runs ts queries,
  load_collection fm file = Ok (runs, ts) ->
  query_log fm sched hc parallel file ([] :: queries) = UB OutOfBounds.
Proof.
  intros fm sched hc parallel file runs ts queries E. unfold query_log. rewrite E. cbn [bind run_queries each_ok length].
  change (0 <=? 16) with true. cbv iota. unfold repeat_query. cbn [for_loop map].
  reflexivity.
Qed.

(** Over runs, values below a block that is full in one trie only are lost. *)
Definition plain_formats : formats := mkFormats plain_codecs plain_codecs (fun _ => plain_codecs).

Lemma plain_formats_ok : formats_ok plain_formats.
Proof. split; [|split]; intros; apply plain_codecs_ok. Qed.

Theorem end_to_end_runs_refuted :
  ~ (forall fm a b rank block runs levelwise one u lists hc parallel sched queries,
       formats_ok fm -> collection_ok one u lists -> (3 <= u)%N -> loadable_options rank block levelwise ->
       Forall (stored_ok u (built_variant rank levelwise) runs) (kept_lists a b lists) ->
       (1 <= hc < 2 ^ 16)%N ->
       (forall nq rep, valid_scheduler (fst (sched nq rep)) /\ valid_scheduler (snd (sched nq rep))) ->
       Forall (query_ok (kept_lists a b lists)) queries ->
       exists file rs,
         build_tries fm a b rank block runs levelwise (collection_file one u lists) = Ok file /\
         query_log fm sched hc parallel file queries = Ok rs /\
         Forall2 (answers (kept_lists a b lists)) queries rs).
Proof.
  intros H.
  destruct (H plain_formats 0%N 100%N 0%N 512%N true true 1%N 16%N
              [[0; 1; 2; 3; 4; 5; 6; 7; 9; 12]; [3; 5; 6; 7; 12]]%N 4%N true
              (fun _ _ => (in_order, in_order)) [[0; 1]]%N) as (file & rs & E1 & E2 & F).
  { apply plain_formats_ok. }
  { split; [reflexivity|]. split; [reflexivity|]. split; [reflexivity|]. split; repeat constructor. }
  { discriminate. }
  { split; [reflexivity|]. split; [reflexivity|]. discriminate. }
  { constructor; [|constructor; [|constructor]]; sets_ok. }
  { split; [discriminate|reflexivity]. }
  { intros. split; apply in_order_valid. }
  { constructor; [|constructor]. split; [discriminate|]. repeat constructor. }
  vm_compute in E1. injection E1 as <-. vm_compute in E2. injection E2 as <-.
  inversion F as [|? ? ? ? A _]; subst. destruct A as (_ & _ & A).
  assert (X : In 3%N [12%N]).
  { apply A. constructor; [vm_compute; auto 10|constructor; [vm_compute; auto 10|constructor]]. }
  destruct X as [X|[]]. discriminate.
Qed.
