(** What the query tools answer in parallel mode over run-encoded collections. *)

From Verif Require Import Base FlatTrie LevelTrie FastTrie ParallelFor Intersection Tries Serialize Tools
  Spec SpecTries SpecFiles SpecTools SpecLost SpecAnswers SerializeThms ParForThms InterLaws InterExact
  ToolsFacts ToolsThms FastToolsThms.

Theorem end_to_end_exact : forall fm a b rank block levelwise one u lists hc sched queries,
  formats_ok fm -> collection_ok one u lists -> (3 <= u)%N ->
  loadable_options rank block levelwise ->
  Forall (stored_ok u (built_variant rank levelwise) true) (kept_lists a b lists) ->
  (1 <= hc < 2 ^ 16)%N ->
  (forall nq rep, valid_scheduler (fst (sched nq rep)) /\ valid_scheduler (snd (sched nq rep))) ->
  Forall (query_ok (kept_lists a b lists)) queries ->
  exists file rs,
    build_tries fm a b rank block true levelwise (collection_file one u lists) = Ok file /\
    query_log fm sched hc true file queries = Ok rs /\
    Forall2 (runs_answer 4 u hc (kept_lists a b lists)) queries rs.
Proof.
  intros fm a b rank block levelwise one u lists hc sched queries F C Hu2 O K Hhc Hs Q.
  assert (Hu : (3 <= u <= 2 ^ 48)%N).
  { split; [lia|]. destruct C as (_ & C & _). apply N.lt_le_incl. eapply N.lt_trans; [exact C|reflexivity]. }
  destruct (collection_round_trip fm a b rank block true levelwise one u lists F C ltac:(lia) O K)
    as (file & ts & E1 & E2 & E3 & _).
  exists file. unfold query_log. rewrite E2. cbn [bind].
  set (kept := kept_lists a b lists) in *. set (v := built_variant rank levelwise) in *.
  destruct (run_queries_spec _ (fun i => vgetN ts i)
    (fun nq rep ts => Intersect Bin (fst (sched nq rep)) (snd (sched nq rep)) hc (map bin_ops ts) true true)
    (fun q r => ((4 * 2 ^ N.log2 hc <= rounded u)%N ->
       parallel_outcome (thread_block u hc) (N.to_nat (2 ^ N.log2 hc)) (map (fun s => (true, s)) (lists_at kept q)) r) /\
      ((rounded u < 4 * 2 ^ N.log2 hc)%N -> is_intersection (lists_at kept q) r))
    queries 0) as (rs & R1 & R2).
  { eapply Forall_impl; [|exact Q]. intros q Hq. assert (Hq' := Hq). destruct Hq' as (Hne & Hlt).
    destruct (pick_spec _ _ _ _ q E3 Hlt) as (qs & P1 & P2). exists qs. split; auto.
    intros Hl nq rep. assert (K' := Forall_lists_at _ _ _ K Hlt).
    assert (Ln : 1 <= length (map (fun s => (v, true, s)) (lists_at kept q)) <= 16).
    { unfold lists_at. rewrite !map_length. destruct q; [easy|]. cbn [length] in *. lia. }
    assert (Lk : Forall (bitem_ok u) (map (fun s => (v, true, s)) (lists_at kept q))).
    { clear - K'. induction K'; constructor; auto. }
    assert (Tk : forall Ts, each_ok (make_bitem u) (map (fun s => (v, true, s)) (lists_at kept q)) = Ok Ts -> Ts = qs).
    { intros Ts X1. rewrite each_ok_map in X1. unfold make_bitem in X1. cbn [fst snd] in X1.
      change (each_ok (bin_make u v true) (lists_at kept q) = Ok Ts) in X1. congruence. }
    destruct (N.le_gt_cases (4 * 2 ^ N.log2 hc) (rounded u)) as [H4|H4].
    - destruct (bin_par_exact u _ hc (fst (sched nq rep)) (snd (sched nq rep)) Hu Ln Lk Hhc
                  (proj1 (Hs _ _)) (proj2 (Hs _ _)) H4) as (Ts & r & X1 & X2 & X3).
      apply Tk in X1. subst Ts. exists r. split; auto. rewrite map_map in X3. split; [intros _; exact X3|lia].
    - destruct (bin_par_runs_exact u _ hc (fst (sched nq rep)) (snd (sched nq rep)) Hu Ln Lk Hhc
                  (proj1 (Hs _ _)) (proj2 (Hs _ _)) (or_intror H4)) as (Ts & r & X1 & X2 & X3).
      apply Tk in X1. subst Ts. exists r. split; auto. rewrite map_map, map_id in X3. split; [lia|intros _; exact X3]. }
  exists rs. split; auto.
Qed.

Theorem fast_end_to_end_exact : forall fm junk a b rank levelwise lw one u lists blank hc sched queries,
  formats_ok fm -> collection_ok one u lists -> fast_universe u lw -> (2 ^ N.of_nat lw < u)%N ->
  (rank < 2 ^ 32)%N -> rank <> 1%N ->
  junk_ok junk -> blank_ok blank -> Forall (fast_ok u) (kept_lists a b lists) ->
  (1 <= hc < 2 ^ 16)%N ->
  (forall nq rep, valid_scheduler (fst (sched nq rep)) /\ valid_scheduler (snd (sched nq rep))) ->
  queries <> [] -> Forall (query_ok (kept_lists a b lists)) queries ->
  exists file rs,
    build_fast_tries fm junk a b rank true levelwise lw (collection_file one u lists) = Ok file /\
    fast_query_log fm blank sched hc true file queries = Ok rs /\
    Forall2 (runs_answer (2 * 2 ^ N.of_nat lw) u hc (kept_lists a b lists)) queries rs.
Proof.
  intros fm junk a b rank levelwise lw one u lists blank hc sched queries F C Hu Hbig Hr H1 J B K Hhc Hs Hne Q.
  assert (Hq : concat queries <> []).
  { destruct queries as [|q qs]; [easy|]. inversion Q as [|? ? (Hq & _) _]; subst. destruct q; easy. }
  destruct (fast_collection fm junk a b rank true levelwise lw one u lists blank queries F C Hu Hr H1 J B K Hq)
    as (file & rest & ts & tries & E1 & E2 & E3 & E4 & E5 & E6 & E7).
  exists file. unfold fast_query_log. rewrite E2. cbn [bind oget].
  rewrite word_log_wbits by apply Hu. rewrite E3. cbn [bind].
  set (kept := kept_lists a b lists) in *.
  destruct (run_queries_spec _ (find_trie tries)
    (fun nq rep ts => Intersect (Fast lw) (fst (sched nq rep)) (snd (sched nq rep)) hc (map fast_ops ts) true true)
    (fun q r => ((2 * 2 ^ N.of_nat lw * 2 ^ N.log2 hc <= rounded u)%N ->
       parallel_outcome (thread_block u hc) (N.to_nat (2 ^ N.log2 hc)) (map (fun s => (true, s)) (lists_at kept q)) r) /\
      ((rounded u < 2 * 2 ^ N.of_nat lw * 2 ^ N.log2 hc)%N -> is_intersection (lists_at kept q) r))
    queries 0) as (rs & R1 & R2).
  { apply Forall_forall. intros q Hin. rewrite Forall_forall in Q. specialize (Q q Hin).
    destruct (fast_pick u lw true junk kept ts tries q E4) as (qs & fresh & P1 & P2 & P3); auto.
    { intros i Hi. apply E6. split; [|destruct Q as (_ & Q); rewrite Forall_forall in Q; auto].
      apply in_concat. eauto. }
    { apply Q. }
    destruct Q as (Hn0 & Hlt).
    exists qs. split; auto. intros Hl nq rep. rewrite P3.
    assert (Fo : Forall (fitem_ok u) (map (item_at junk true kept) q)).
    { rewrite Forall_forall in *. intros x Hx. apply in_map_iff in Hx. destruct Hx as (i & <- & Hi).
      unfold fitem_ok, item_at. cbn [snd]. apply K. apply nth_In. specialize (Hlt i Hi). lia. }
    assert (L : 1 <= length (map (item_at junk true kept) q) <= 16).
    { rewrite map_length. destruct q; [easy|]. cbn [length] in *. lia. }
    destruct (N.le_gt_cases (2 * 2 ^ N.of_nat lw * 2 ^ N.log2 hc) (rounded u)) as [H4|H4].
    - destruct (fast_par_exact u lw _ hc (fst (sched nq rep)) (snd (sched nq rep)) Hu Hbig L Fo Hhc
                  (proj1 (Hs _ _)) (proj2 (Hs _ _)) H4) as (Ts & r & X1 & X2 & X3).
      rewrite P2 in X1. injection X1 as <-. exists r. split; auto. split; [intros _|lia].
      unfold lists_at. rewrite map_map in *. exact X3.
    - destruct (fast_par_runs_exact u lw _ hc (fst (sched nq rep)) (snd (sched nq rep)) Hu Hbig L Fo Hhc
                  (proj1 (Hs _ _)) (proj2 (Hs _ _)) (or_intror H4)) as (Ts & r & X1 & X2 & X3).
      rewrite P2 in X1. injection X1 as <-. exists r. split; auto. split; [lia|intros _].
      rewrite map_snd_items in X3. exact X3. }
  exists rs. split; auto. split; auto. apply map_queries_ok. auto.
Qed.
