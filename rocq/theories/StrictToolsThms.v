(** What the query tools do when flags are read strictly. *)

From Verif Require Import Base FlatTrie LevelTrie FastTrie ParallelFor Intersection Tries Serialize Tools Strict StrictTools
  Spec SpecTries SpecFiles SpecTools SpecMeasures SpecCalls SpecLost SpecStrict SpecStrictTools Facts NodeCount SerializeThms ParForThms
  InterInst InterThms StrictThms StrictPar StrictExact ToolsFacts ToolsThms FastToolsThms.

(** * One call *)

Lemma strict_call_agrees : forall k s1 s2 hc Ts runs parallel r,
  strict_call k s1 s2 hc Ts runs parallel = Ok r -> Intersect k s1 s2 hc Ts runs parallel = Ok r.
Proof. intros k s1 s2 hc Ts runs [|] r H; [apply strict_par_agrees|apply strict_agrees]; exact H. Qed.

Lemma strict_call_runs : forall k s1 s2 hc Ts parallel,
  strict_call k s1 s2 hc Ts true parallel = Intersect k s1 s2 hc Ts true parallel.
Proof. intros k s1 s2 hc Ts [|]; [apply strict_par_runs|apply strict_runs]. Qed.

Lemma undivided : forall k s1 s2 hc Ts runs, (1 <= hc)%N ->
  (forall o, hd_error Ts = Some o -> 2 <= t_height o /\ t_height o - 2 < N.to_nat (N.log2 hc)) ->
  Intersect_strict_par k s1 s2 hc Ts runs = Intersect_strict k hc Ts runs.
Proof.
  intros k s1 s2 hc Ts runs Hhc H. unfold Intersect_strict_par, Intersect_strict.
  destruct Ts as [|o Ts]; [reflexivity|]. change (vget (o :: Ts) 0) with (Ok (A := trie_ops) o). cbn [bind].
  destruct (H o eq_refl) as (H2 & Hc).
  replace (t_height o <? 2) with false by (symmetry; apply Nat.ltb_ge; lia).
  replace (N.to_nat (N.log2 hc) <=? t_height o - 2) with false by (symmetry; apply Nat.leb_gt; lia).
  cbn [orb]. destruct (negb _); auto. destruct (N.eqb hc 0); auto.
Qed.

Lemma plain_parts_b : forall v sets, map b_part (map (fun s => (v, false, s)) sets) = map (fun s => (false, s)) sets.
Proof. intros. rewrite map_map. reflexivity. Qed.

Lemma plain_sets_b : forall (v : variant) (sets : list (list N)), map snd (map (fun s => (v, false, s)) sets) = sets.
Proof. intros. rewrite map_map. apply map_id. Qed.

Theorem bin_strict_call : forall u v sets hc parallel, (3 <= u <= 2 ^ 48)%N -> 1 <= length sets <= 16 ->
  Forall (stored_ok u v false) sets -> (1 <= hc < 2 ^ 16)%N ->
  exists Ts, each_ok (bin_make u v false) sets = Ok Ts /\
    forall s1 s2, valid_scheduler s1 -> valid_scheduler s2 ->
    (flags_ok 2 0 u hc parallel sets ->
       exists r, strict_call Bin s1 s2 hc (map bin_ops Ts) false parallel = Ok r /\ is_intersection sets r) /\
    (~ flags_ok 2 0 u hc parallel sets -> strict_call Bin s1 s2 hc (map bin_ops Ts) false parallel = UB Indeterminate).
Proof.
  intros u v sets hc parallel Hu Hn Hk Hhc. set (l := map (fun s => (v, false, s)) sets : list bitem).
  assert (Ln : 1 <= length l <= 16) by (unfold l; rewrite map_length; lia).
  assert (Lk : Forall (bitem_ok u) l) by (unfold l; rewrite Forall_map; exact Hk).
  assert (Lr : Forall (fun x : bitem => snd (fst x) = false) l).
  { unfold l. rewrite Forall_map. apply Forall_forall. reflexivity. }
  destruct (bin_family_runs u l ltac:(lia) Lk) as (h & Ts & ts & H1 & _ & H2 & Hh & E & HR & _ & _).
  specialize (H2 ltac:(lia)). assert (Ed := height_digits u h ltac:(lia) Hh).
  exists Ts. split. { unfold l in E. rewrite ToolsFacts.each_ok_map in E. exact E. }
  intros s1 s2 V1 V2. unfold flags_ok.
  assert (S1 : map snd l = sets) by apply plain_sets_b.
  assert (Seq :
    (flags_set (common_prefix sets) 0 (digits u) ->
       exists r, Intersect_strict Bin hc (map bin_ops Ts) false = Ok r /\ is_intersection sets r) /\
    (~ flags_set (common_prefix sets) 0 (digits u) -> Intersect_strict Bin hc (map bin_ops Ts) false = UB Indeterminate)).
  { destruct (bin_strict u l hc ltac:(lia) Ln Lk Lr ltac:(lia)) as (Ts' & E' & A).
    assert (Ts' = Ts) by congruence. subst Ts'. rewrite S1 in A. exact A. }
  destruct parallel; cbn [andb strict_call]; [|exact Seq].
  destruct (N.to_nat (N.log2 hc) + 2 <=? digits u) eqn:K.
  - apply Nat.leb_le in K.
    destruct (bin_par_flags u l hc s1 s2 ltac:(lia) Ln Lk Lr Hhc K V1 V2) as (Ts' & E' & A).
    assert (Ts' = Ts) by congruence. subst Ts'. rewrite S1 in A. unfold l in A. rewrite plain_parts_b in A. exact A.
  - apply Nat.leb_gt in K. rewrite undivided; [exact Seq|lia|].
    intros o Ho. assert (t_height o = h).
    { destruct HR as [|a b la lb (Ha & _) F]; [discriminate|]. cbn in Ho. congruence. }
    lia.
Qed.

Theorem fast_strict_call : forall u lw (l : list fitem) hc parallel, fast_universe u lw -> (2 ^ N.of_nat lw < u)%N ->
  1 <= length l <= 16 -> Forall (fitem_ok u) l -> Forall (fun x => f_enc x = false) l -> (1 <= hc < 2 ^ 16)%N ->
  exists Ts, each_ok (make_fitem u lw) l = Ok Ts /\
    forall s1 s2, valid_scheduler s1 -> valid_scheduler s2 ->
    (flags_ok (S lw) lw u hc parallel (map snd l) ->
       exists r, strict_call (Fast lw) s1 s2 hc (map fast_ops Ts) false parallel = Ok r /\ is_intersection (map snd l) r) /\
    (~ flags_ok (S lw) lw u hc parallel (map snd l) ->
       strict_call (Fast lw) s1 s2 hc (map fast_ops Ts) false parallel = UB Indeterminate).
Proof.
  intros u lw l hc parallel Hu Hw Ln Lk Lr Hhc.
  destruct (fast_family_runs u lw l Hu Lk) as (d & Ts & ts & _ & _ & Hh & H5 & H1 & _ & E & HR & _ & _).
  specialize (H1 Hw). assert (Ed := height_digits u (d + lw) ltac:(lia) Hh).
  exists Ts. split; auto. intros s1 s2 V1 V2. unfold flags_ok.
  assert (Seq :
    (flags_set (common_prefix (map snd l)) lw (digits u) ->
       exists r, Intersect_strict (Fast lw) hc (map fast_ops Ts) false = Ok r /\ is_intersection (map snd l) r) /\
    (~ flags_set (common_prefix (map snd l)) lw (digits u) ->
       Intersect_strict (Fast lw) hc (map fast_ops Ts) false = UB Indeterminate)).
  { destruct (fast_strict u lw l hc Hu Ln Lk Lr ltac:(lia)) as (Ts' & E' & A).
    assert (Ts' = Ts) by congruence. subst Ts'. exact A. }
  destruct parallel; cbn [andb strict_call]; [|exact Seq].
  destruct (N.to_nat (N.log2 hc) + S lw <=? digits u) eqn:K.
  - apply Nat.leb_le in K.
    destruct (fast_par_flags u lw l hc s1 s2 Hu Ln Lk Lr Hhc ltac:(lia) V1 V2) as (Ts' & E' & A).
    assert (Ts' = Ts) by congruence. subst Ts'.
    assert (P : map f_part l = map (fun s => (false, s)) (map snd l)).
    { clear - Lr. induction Lr as [|x l Hx _ IH]; cbn [map]; auto. f_equal; auto. unfold f_part. rewrite Hx. reflexivity. }
    rewrite P in A. exact A.
  - apply Nat.leb_gt in K. rewrite undivided; [exact Seq|lia|].
    intros o Ho. assert (t_height o = S d).
    { destruct HR as [|a b la lb (Ha & _) F]; [discriminate|]. cbn in Ho. congruence. }
    lia.
Qed.

(** * A run of queries *)

Definition fine {A} (m : result A) : Prop := m = UB Indeterminate \/ exists a, m = Ok a.

Lemma fine_split : forall A (m : result A) (P : Prop), (P -> exists a, m = Ok a) -> (~ P -> m = UB Indeterminate) -> fine m.
Proof.
  intros A m P H H'. destruct m as [a|e|]; [right; eauto| |].
  - left. apply H'. intros X. destruct (H X); discriminate.
  - left. apply H'. intros X. destruct (H X); discriminate.
Qed.

Lemma repeat_fine : forall n i (answer : nat -> result (list N)) s, (forall rep, fine (answer rep)) ->
  fine (for_loop n i (fun rep _ => answer rep) s).
Proof.
  intros n. induction n as [|n IH]; intros i answer s H; cbn [for_loop]; [right; eauto|].
  destruct (H i) as [E|(r & E)]; rewrite E; cbn [bind]; [left; reflexivity|apply IH; auto].
Qed.

Lemma run_queries_stop : forall T (pick : N -> result T) answer (bad : list N -> Prop) qs nq,
  Forall (fun q => exists ts, each_ok pick q = Ok ts /\
            (length q <= 16 -> forall nq rep, fine (answer nq rep ts) /\ (bad q -> answer nq rep ts = UB Indeterminate))) qs ->
  Exists (fun q => length q <= 16 /\ bad q) qs ->
  run_queries pick answer nq qs = UB Indeterminate.
Proof.
  intros T pick answer bad qs nq H. revert nq. induction H as [|q qs (ts & E & A) _ IH]; intros nq X; [inversion X|].
  cbn [run_queries]. rewrite E. cbn [bind]. assert (L := each_ok_length _ _ _ _ _ E).
  destruct (length ts <=? 16) eqn:K.
  - apply Nat.leb_le in K. specialize (A ltac:(lia)). inversion X as [? ? (_ & B)|? ? X']; subst.
    + unfold repeat_query. cbn [for_loop]. rewrite (proj2 (A nq 0) B). reflexivity.
    + destruct (repeat_fine 10 0 (fun rep => answer nq rep ts) []) as [F|(r & F)]; [intros rep; apply A| |];
        unfold repeat_query; rewrite F; cbn [bind]; [reflexivity|]. rewrite (IH (S nq) X'). reflexivity.
  - apply Nat.leb_gt in K. cbn [bind]. inversion X as [? ? (B & _)|? ? X']; subst; [lia|].
    rewrite (IH (S nq) X'). reflexivity.
Qed.

Lemma run_queries_agree : forall T (pick : N -> result T) (f g : nat -> nat -> list T -> result (list N)) qs nq rs,
  (forall nq rep ts r, f nq rep ts = Ok r -> g nq rep ts = Ok r) ->
  run_queries pick f nq qs = Ok rs -> run_queries pick g nq qs = Ok rs.
Proof.
  intros T pick f g qs. induction qs as [|q qs IH]; intros nq rs H E; cbn [run_queries] in *; auto.
  apply bind_inv in E. destruct E as (ts & E1 & E). rewrite E1. cbn [bind].
  apply bind_inv in E. destruct E as (a & E2 & E). apply bind_inv in E. destruct E as (rs' & E3 & E).
  rewrite (IH _ _ H E3). destruct (length ts <=? 16); [|injection E2 as <-; exact E].
  apply bind_inv in E2. destruct E2 as (r & E2 & E2'). unfold repeat_query in *.
  rewrite (for_loop_agree _ _ (fun rep _ => g nq rep ts) _ _ _ _ (fun j _ b X => H nq j ts b X) E2).
  cbn [bind]. injection E2' as <-. exact E.
Qed.

Lemma run_queries_same : forall T (pick : N -> result T) (f g : nat -> nat -> list T -> result (list N)) qs nq,
  (forall nq rep ts, f nq rep ts = g nq rep ts) -> run_queries pick f nq qs = run_queries pick g nq qs.
Proof.
  intros T pick f g qs. induction qs as [|q qs IH]; intros nq H; cbn [run_queries]; auto. rewrite (IH _ H).
  destruct (each_ok pick q) as [ts| |]; cbn [bind]; auto. unfold repeat_query. cbn [for_loop]. rewrite !H. reflexivity.
Qed.

(** * The tools *)

Theorem query_strict_agrees : forall fm sched hc parallel file queries rs,
  query_log_strict fm sched hc parallel file queries = Ok rs -> query_log fm sched hc parallel file queries = Ok rs.
Proof.
  intros fm sched hc parallel file queries rs H. unfold query_log_strict in H. unfold query_log.
  destruct (load_collection fm file) as [(runs & seqs)| |]; cbn [bind] in *; try discriminate.
  revert H. apply run_queries_agree. intros nq rep ts r. apply strict_call_agrees.
Qed.

Theorem fast_query_strict_agrees : forall fm blank sched hc parallel file queries rs,
  fast_query_log_strict fm blank sched hc parallel file queries = Ok rs ->
  fast_query_log fm blank sched hc parallel file queries = Ok rs.
Proof.
  intros fm blank sched hc parallel file queries rs H. unfold fast_query_log_strict in H. unfold fast_query_log.
  destruct (read_fast_header file) as [((((rank & runs) & lv) & w) & rest)| |]; cbn [bind] in *; try discriminate.
  destruct (oget runs) as [runs'| |]; cbn [bind] in *; try discriminate.
  destruct (load_tries _ _ _ _) as [tries| |]; cbn [bind] in *; try discriminate.
  revert H. apply run_queries_agree. intros nq rep ps r H. apply bind_inv in H. destruct H as (ts & E & H).
  rewrite E. cbn [bind]. apply strict_call_agrees. exact H.
Qed.

Theorem query_strict_runs : forall fm sched hc parallel file queries seqs,
  load_collection fm file = Ok (true, seqs) ->
  query_log_strict fm sched hc parallel file queries = query_log fm sched hc parallel file queries.
Proof.
  intros fm sched hc parallel file queries seqs E. unfold query_log_strict, query_log. rewrite E. cbn [bind].
  apply run_queries_same. intros. apply strict_call_runs.
Qed.

Theorem fast_query_strict_runs : forall fm blank sched hc parallel file queries rank lv w rest,
  read_fast_header file = Ok (rank, Some true, lv, w, rest) ->
  fast_query_log_strict fm blank sched hc parallel file queries = fast_query_log fm blank sched hc parallel file queries.
Proof.
  intros fm blank sched hc parallel file queries rank lv w rest E. unfold fast_query_log_strict, fast_query_log.
  rewrite E. cbn [bind oget]. destruct (load_tries _ _ _ _) as [tries| |]; cbn [bind]; auto.
  apply run_queries_same. intros nq rep ps. destruct (each_ok deref ps) as [ts| |]; cbn [bind]; auto. apply strict_call_runs.
Qed.

Theorem built_strict_runs : forall fm a b rank block levelwise one u lists hc parallel sched queries,
  formats_ok fm -> collection_ok one u lists -> (2 <= u)%N ->
  loadable_options rank block levelwise ->
  Forall (stored_ok u (built_variant rank levelwise) true) (kept_lists a b lists) ->
  exists file,
    build_tries fm a b rank block true levelwise (collection_file one u lists) = Ok file /\
    query_log_strict fm sched hc parallel file queries = query_log fm sched hc parallel file queries.
Proof.
  intros fm a b rank block levelwise one u lists hc parallel sched queries F C Hu O K.
  destruct (collection_round_trip fm a b rank block true levelwise one u lists F C Hu O K) as (file & ts & E1 & E2 & _).
  exists file. split; auto. eapply query_strict_runs; eauto.
Qed.

Theorem built_fast_strict_runs : forall fm junk a b rank levelwise lw one u lists blank hc parallel sched queries,
  formats_ok fm -> collection_ok one u lists -> fast_universe u lw -> (rank < 2 ^ 32)%N -> rank <> 1%N ->
  junk_ok junk -> blank_ok blank -> Forall (fast_ok u) (kept_lists a b lists) -> concat queries <> [] ->
  exists file,
    build_fast_tries fm junk a b rank true levelwise lw (collection_file one u lists) = Ok file /\
    fast_query_log_strict fm blank sched hc parallel file queries = fast_query_log fm blank sched hc parallel file queries.
Proof.
  intros fm junk a b rank levelwise lw one u lists blank hc parallel sched queries F C Hu Hr H1 J B K Hq.
  destruct (fast_collection fm junk a b rank true levelwise lw one u lists blank queries F C Hu Hr H1 J B K Hq)
    as (file & rest & ts & tries & E1 & E2 & _).
  exists file. split; auto. eapply fast_query_strict_runs; eauto.
Qed.

Theorem query_strict : forall fm a b rank block levelwise one u lists hc parallel sched queries,
  formats_ok fm -> collection_ok one u lists -> (3 <= u)%N ->
  loadable_options rank block levelwise ->
  Forall (stored_ok u (built_variant rank levelwise) false) (kept_lists a b lists) ->
  (1 <= hc < 2 ^ 16)%N ->
  (forall nq rep, valid_scheduler (fst (sched nq rep)) /\ valid_scheduler (snd (sched nq rep))) ->
  Forall (query_ok (kept_lists a b lists)) queries ->
  exists file,
    build_tries fm a b rank block false levelwise (collection_file one u lists) = Ok file /\
    (Forall (fun q => length q <= 16 -> flags_ok 2 0 u hc parallel (lists_at (kept_lists a b lists) q)) queries ->
       exists rs, query_log_strict fm sched hc parallel file queries = Ok rs /\
         Forall2 (answers (kept_lists a b lists)) queries rs) /\
    (Exists (fun q => length q <= 16 /\ ~ flags_ok 2 0 u hc parallel (lists_at (kept_lists a b lists) q)) queries ->
       query_log_strict fm sched hc parallel file queries = UB Indeterminate).
Proof.
  intros fm a b rank block levelwise one u lists hc parallel sched queries F C Hu2 O K Hhc Hs Q.
  assert (Hu : (3 <= u <= 2 ^ 48)%N).
  { split; [lia|]. destruct C as (_ & C & _). apply N.lt_le_incl. eapply N.lt_trans; [exact C|reflexivity]. }
  destruct (collection_round_trip fm a b rank block false levelwise one u lists F C ltac:(lia) O K)
    as (file & ts & E1 & E2 & E3 & _).
  exists file. split; auto. unfold query_log_strict. rewrite E2. cbn [bind].
  set (kept := kept_lists a b lists) in *. set (v := built_variant rank levelwise) in *.
  assert (One : forall q, query_ok kept q -> exists qs, each_ok (fun i => vgetN ts i) q = Ok qs /\
    (length q <= 16 -> forall nq rep,
      (flags_ok 2 0 u hc parallel (lists_at kept q) ->
         exists r, strict_call Bin (fst (sched nq rep)) (snd (sched nq rep)) hc (map bin_ops qs) false parallel = Ok r /\
           is_intersection (lists_at kept q) r) /\
      (~ flags_ok 2 0 u hc parallel (lists_at kept q) ->
         strict_call Bin (fst (sched nq rep)) (snd (sched nq rep)) hc (map bin_ops qs) false parallel = UB Indeterminate))).
  { intros q (Hne & Hlt). destruct (pick_spec _ _ _ _ q E3 Hlt) as (qs & P1 & P2). exists qs. split; auto.
    intros Hl nq rep. assert (K' := Forall_lists_at _ _ _ K Hlt).
    destruct (bin_strict_call u v (lists_at kept q) hc parallel Hu) as (Ts & X & Y); auto.
    { unfold lists_at. rewrite map_length. destruct q; [easy|]. cbn [length] in *. lia. }
    assert (Ts = qs) by congruence. subst Ts. apply Y; apply Hs. }
  split.
  - intros G. destruct (run_queries_spec _ (fun i => vgetN ts i)
      (fun nq rep ts => strict_call Bin (fst (sched nq rep)) (snd (sched nq rep)) hc (map bin_ops ts) false parallel)
      (fun q r => is_intersection (lists_at kept q) r) queries 0) as (rs & R1 & R2); eauto.
    rewrite Forall_forall in *. intros q Hin. destruct (One q (Q q Hin)) as (qs & P1 & P2). exists qs. split; auto.
    intros Hl nq rep. apply P2; auto.
  - apply run_queries_stop. eapply Forall_impl; [|exact Q]. intros q Hq.
    destruct (One q Hq) as (qs & P1 & P2). exists qs. split; auto. intros Hl nq rep. destruct (P2 Hl nq rep) as (A & B).
    split; auto. apply (fine_split _ _ (flags_ok 2 0 u hc parallel (lists_at kept q))); auto.
    intros X. destruct (A X) as (r & Y & _). eauto.
Qed.

Theorem fast_query_strict : forall fm junk a b rank levelwise lw one u lists blank hc parallel sched queries,
  formats_ok fm -> collection_ok one u lists -> fast_universe u lw -> (2 ^ N.of_nat lw < u)%N ->
  (rank < 2 ^ 32)%N -> rank <> 1%N ->
  junk_ok junk -> blank_ok blank -> Forall (fast_ok u) (kept_lists a b lists) ->
  (1 <= hc < 2 ^ 16)%N ->
  (forall nq rep, valid_scheduler (fst (sched nq rep)) /\ valid_scheduler (snd (sched nq rep))) ->
  queries <> [] -> Forall (query_ok (kept_lists a b lists)) queries ->
  exists file,
    build_fast_tries fm junk a b rank false levelwise lw (collection_file one u lists) = Ok file /\
    (Forall (fun q => length q <= 16 -> flags_ok (S lw) lw u hc parallel (lists_at (kept_lists a b lists) q)) queries ->
       exists rs, fast_query_log_strict fm blank sched hc parallel file queries = Ok rs /\
         Forall2 (answers (kept_lists a b lists)) queries rs) /\
    (Exists (fun q => length q <= 16 /\ ~ flags_ok (S lw) lw u hc parallel (lists_at (kept_lists a b lists) q)) queries ->
       fast_query_log_strict fm blank sched hc parallel file queries = UB Indeterminate).
Proof.
  intros fm junk a b rank levelwise lw one u lists blank hc parallel sched queries F C Hu Hbig Hr H1 J B K Hhc Hs Hne Q.
  assert (Hq : concat queries <> []).
  { destruct queries as [|q qs]; [easy|]. inversion Q as [|? ? (Hq & _) _]; subst. destruct q; easy. }
  destruct (fast_collection fm junk a b rank false levelwise lw one u lists blank queries F C Hu Hr H1 J B K Hq)
    as (file & rest & ts & tries & E1 & E2 & E3 & E4 & E5 & E6 & E7).
  exists file. split; auto. unfold fast_query_log_strict. rewrite E2. cbn [bind oget].
  rewrite word_log_wbits by apply Hu. rewrite E3. cbn [bind].
  set (kept := kept_lists a b lists) in *.
  assert (One : forall q, In q queries -> exists ps, each_ok (fun i => Ok (trie_pointer tries i)) q = Ok ps /\
    (length q <= 16 -> forall nq rep,
      (flags_ok (S lw) lw u hc parallel (lists_at kept q) ->
         exists r, (let* ts := each_ok deref ps in
           strict_call (Fast lw) (fst (sched nq rep)) (snd (sched nq rep)) hc (map fast_ops ts) false parallel) = Ok r /\
           is_intersection (lists_at kept q) r) /\
      (~ flags_ok (S lw) lw u hc parallel (lists_at kept q) ->
         (let* ts := each_ok deref ps in
          strict_call (Fast lw) (fst (sched nq rep)) (snd (sched nq rep)) hc (map fast_ops ts) false parallel) = UB Indeterminate))).
  { intros q Hin. rewrite Forall_forall in Q. specialize (Q q Hin).
    destruct (fast_pick u lw false junk kept ts tries q E4) as (qs & fresh & P1 & P2 & P3); auto.
    { intros i Hi. apply E6. split; [|destruct Q as (_ & Q); rewrite Forall_forall in Q; auto].
      apply in_concat. eauto. }
    { apply Q. }
    destruct Q as (Hn0 & Hlt). rewrite each_ok_total. eexists. split; [reflexivity|].
    intros Hl nq rep. rewrite FastToolsThms.each_ok_map.
    change (fun i => deref (trie_pointer tries i)) with (find_trie tries). rewrite P1. cbn [bind]. rewrite P3.
    assert (Fo : Forall (fitem_ok u) (map (item_at junk false kept) q)).
    { rewrite Forall_forall in *. intros x Hx. apply in_map_iff in Hx. destruct Hx as (i & <- & Hi).
      unfold fitem_ok, item_at. cbn [snd]. apply K. apply nth_In. specialize (Hlt i Hi). lia. }
    destruct (fast_strict_call u lw (map (item_at junk false kept) q) hc parallel Hu Hbig) as (Ts & X & Y); auto.
    { rewrite map_length. destruct q; [easy|]. cbn [length] in *. lia. }
    { rewrite Forall_map. apply Forall_forall. reflexivity. }
    rewrite P2 in X. injection X as <-. rewrite map_snd_items in Y. apply Y; apply Hs. }
  unfold map_queries. split.
  - intros G. destruct (run_queries_spec _ (fun i => Ok (trie_pointer tries i))
      (fun nq rep ps => let* ts := each_ok deref ps in
         strict_call (Fast lw) (fst (sched nq rep)) (snd (sched nq rep)) hc (map fast_ops ts) false parallel)
      (fun q r => is_intersection (lists_at kept q) r) queries 0) as (rs & R1 & R2); eauto.
    rewrite Forall_forall in *. intros q Hin. destruct (One q Hin) as (qs & P1 & P2). exists qs. split; auto.
    intros Hl nq rep. apply P2; auto.
  - apply run_queries_stop. apply Forall_forall. intros q Hin.
    destruct (One q Hin) as (qs & P1 & P2). exists qs. split; auto. intros Hl nq rep. destruct (P2 Hl nq rep) as (A & B').
    split; auto. apply (fine_split _ _ (flags_ok (S lw) lw u hc parallel (lists_at kept q))); auto.
    intros X. destruct (A X) as (r & Y & _). eauto.
Qed.

(** * Odd values *)

Lemma odd_flags : forall low g u hc parallel sets x, g < digits u ->
  (parallel = true -> N.to_nat (N.log2 hc) + low <= digits u -> g < digits u - S (N.to_nat (N.log2 hc))) ->
  Forall (fun s => In x s) sets -> N.odd (x / 2 ^ N.of_nat g) = true ->
  Exists (fun s => forall y, In y s -> (y / 2 ^ N.of_nat g + 1 <> x / 2 ^ N.of_nat g)%N) sets ->
  ~ flags_ok low g u hc parallel sets.
Proof.
  intros low g u hc parallel sets x G P Hx Ho He F. unfold flags_ok in F.
  destruct (parallel && _)%bool eqn:E.
  - apply andb_prop in E. destruct E as (E1 & E2). apply Nat.leb_le in E2. specialize (P E1 E2).
    destruct F as (qs & es & rest & _ & _ & _ & F & _). revert F. apply (odd_unset _ g _ x); auto.
  - revert F. apply (odd_unset _ g _ x); auto.
Qed.

Theorem query_odd : forall fm a b rank block levelwise one u lists hc parallel sched queries q x,
  formats_ok fm -> collection_ok one u lists -> (3 <= u)%N ->
  loadable_options rank block levelwise ->
  Forall (stored_ok u (built_variant rank levelwise) false) (kept_lists a b lists) ->
  (1 <= hc < 2 ^ 16)%N ->
  (forall nq rep, valid_scheduler (fst (sched nq rep)) /\ valid_scheduler (snd (sched nq rep))) ->
  Forall (query_ok (kept_lists a b lists)) queries ->
  In q queries -> length q <= 16 -> N.odd x = true ->
  Forall (fun s => In x s) (lists_at (kept_lists a b lists) q) ->
  ~ Forall (fun s => In (x - 1)%N s) (lists_at (kept_lists a b lists) q) ->
  exists file,
    build_tries fm a b rank block false levelwise (collection_file one u lists) = Ok file /\
    query_log_strict fm sched hc parallel file queries = UB Indeterminate.
Proof.
  intros fm a b rank block levelwise one u lists hc parallel sched queries q x F C Hu O K Hhc Hs Q Hin Hl Ho Hx He.
  destruct (query_strict fm a b rank block levelwise one u lists hc parallel sched queries F C Hu O K Hhc Hs Q)
    as (file & E & _ & U). exists file. split; auto. apply U. apply Exists_exists. exists q. split; auto. split; auto.
  assert (D : 2 <= digits u).
  { unfold digits. assert (1 < N.log2_up u)%N; [|lia]. apply N.log2_up_lt_pow2; lia. }
  apply odd_flags with (x := x); auto; change (2 ^ N.of_nat 0)%N with 1%N; rewrite ?N.div_1_r; auto; [lia|intros; lia|].
  apply neg_Forall_Exists_neg in He; [|intros s; destruct (in_dec N.eq_dec (x - 1)%N s); auto].
  eapply Exists_impl; [|exact He]. cbn. intros s Hn y Hy. rewrite N.div_1_r. intros Ey. apply Hn.
  replace (x - 1)%N with y by lia. auto.
Qed.

Theorem fast_query_odd : forall fm junk a b rank levelwise lw one u lists blank hc parallel sched queries q x,
  formats_ok fm -> collection_ok one u lists -> fast_universe u lw -> (2 ^ N.of_nat lw < u)%N ->
  (rank < 2 ^ 32)%N -> rank <> 1%N ->
  junk_ok junk -> blank_ok blank -> Forall (fast_ok u) (kept_lists a b lists) ->
  (1 <= hc < 2 ^ 16)%N ->
  (forall nq rep, valid_scheduler (fst (sched nq rep)) /\ valid_scheduler (snd (sched nq rep))) ->
  Forall (query_ok (kept_lists a b lists)) queries ->
  In q queries -> length q <= 16 ->
  (parallel = true -> digits u <> N.to_nat (N.log2 hc) + S lw) ->
  N.odd (x / 2 ^ N.of_nat lw) = true ->
  Forall (fun s => In x s) (lists_at (kept_lists a b lists) q) ->
  Exists (fun s => forall y, In y s -> (y / 2 ^ N.of_nat lw + 1 <> x / 2 ^ N.of_nat lw)%N) (lists_at (kept_lists a b lists) q) ->
  exists file,
    build_fast_tries fm junk a b rank false levelwise lw (collection_file one u lists) = Ok file /\
    fast_query_log_strict fm blank sched hc parallel file queries = UB Indeterminate.
Proof.
  intros fm junk a b rank levelwise lw one u lists blank hc parallel sched queries q x F C Hu Hbig Hr H1 J B K Hhc Hs Q
    Hin Hl Hd Ho Hx He.
  destruct (fast_query_strict fm junk a b rank levelwise lw one u lists blank hc parallel sched queries
    F C Hu Hbig Hr H1 J B K Hhc Hs) as (file & E & _ & U); auto.
  { intros ->. inversion Hin. }
  exists file. split; auto. apply U. apply Exists_exists. exists q. split; auto. split; auto.
  assert (D : lw < digits u).
  { unfold digits. assert (N.of_nat lw < N.log2_up u)%N; [|lia]. apply N.log2_up_lt_pow2; lia. }
  apply odd_flags with (x := x); auto. intros P L. specialize (Hd P). lia.
Qed.
