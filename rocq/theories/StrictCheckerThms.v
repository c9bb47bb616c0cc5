(** What the intersection checkers do when flags are read strictly. *)

From Verif Require Import Base FlatTrie LevelTrie FastTrie ParallelFor Intersection Tries Serialize Tools Strict StrictTools
  Spec SpecTries SpecFiles SpecTools SpecMeasures SpecCalls SpecLost SpecStrict SpecStrictTools Facts NodeCount
  SerializeFacts SerializeSound SerializeThms ParForThms
  InterInst InterThms StrictThms StrictPar StrictExact ToolsFacts ToolsThms FastToolsThms StrictToolsThms
  Reference ReferenceFacts Checker SpecChecker CheckerThms CheckerFast StrictChecker Cli Text CheckerCli CheckerCliThms.

(** * The loop over the queries *)

Lemma check_queries_plain : forall T (pick : N -> result T) decode answer sort (sets : list N -> list (list N)) (fine : list N -> Prop) queries,
  valid_sort sort ->
  Forall (fun q => exists ts, each_ok pick q = Ok ts /\ each_ok decode ts = Ok (sets q) /\
            (length q <= 16 -> q <> [] /\ length (sets q) = length q /\ Forall increasing (sets q) /\
               forall k, (fine q -> exists r, answer k ts = Ok r /\ is_intersection (sets q) r) /\
                         (~ fine q -> answer k ts = UB Indeterminate))) queries ->
  forall nq,
  (Forall (fun q => length q <= 16 -> fine q) queries ->
     check_queries pick decode answer sort nq queries = Ok (false, nq + length (short_queries queries))) /\
  (Exists (fun q => length q <= 16 /\ ~ fine q) queries ->
     check_queries pick decode answer sort nq queries = UB Indeterminate).
Proof.
  intros T pick decode answer sort sets fine queries V H.
  induction H as [|q queries (ts & E1 & E2 & E3) _ IH]; intros nq; cbn [check_queries].
  - split; [|intros X; inversion X]. intros _. cbn. rewrite Nat.add_0_r. reflexivity.
  - destruct (both_spec _ _ _ _ _ _ E1 E2) as (both & B1 & B2 & B3 & B4).
    rewrite B1. cbn [bind]. rewrite B4, B2, B3. clear B1 B2 B3 B4. unfold short_queries. cbn [filter].
    destruct (Nat.leb_spec (length q) 16) as [Hq|Hq].
    2: { destruct (IH nq) as (I1 & I2). split; intros X; inversion X as [|? ? X1 X2]; subst; auto. lia. }
    destruct (E3 Hq) as (Hne & Hlen & Hinc & Ha). destruct (Ha nq) as (A1 & A2).
    destruct (force_brute_ok sort (sets q) V) as (fb & S' & F1 & F2 & _); auto.
    { destruct q; [easy|]. destruct (sets (n :: q)); easy. }
    { rewrite Hlen. eapply N.le_lt_trans with (m := 16%N); [lia|reflexivity]. }
    assert (Go : (exists r, answer nq ts = Ok r /\ is_intersection (sets q) r) ->
      (let* r := answer nq ts in
       let* (fb0, _) := forceBruteIntersection sort (sets q) in
       if same_values r fb0 then check_queries pick decode answer sort (S nq) queries
       else let* _ := show_differences r fb0 0 0 in Ok (true, nq))
      = check_queries pick decode answer sort (S nq) queries).
    { intros (r & Ar & Ir). rewrite Ar. cbn [bind]. rewrite F1. cbn [bind].
      assert (r = fb) by eauto using is_inter_unique. subst fb.
      replace (same_values r r) with true; auto. symmetry. apply same_values_spec. reflexivity. }
    destruct (IH (S nq)) as (I1 & I2). split.
    + intros X. inversion X as [|? ? X1 X2]; subst. rewrite Go by auto. rewrite I1 by auto. cbn [length].
      f_equal. f_equal. unfold short_queries. lia.
    + intros X. inversion X as [? ? (_ & X1)|? ? X2]; subst; [rewrite (A2 X1); reflexivity|].
      destruct (answer nq ts) as [r|e|] eqn:Ar.
      * rewrite Go; auto. exists r. split; auto.
        destruct (list_eq_dec N.eq_dec r fb) as [->|Nr]; auto. exfalso.
        assert (Nf : ~ fine q).
        { intros G. destruct (A1 G) as (r' & R1 & R2). injection R1 as <-. apply Nr. eauto using is_inter_unique. }
        specialize (A2 Nf). discriminate.
      * assert (Nf : ~ fine q) by (intros G; destruct (A1 G) as (r' & R1 & _); discriminate).
        rewrite (A2 Nf). reflexivity.
      * assert (Nf : ~ fine q) by (intros G; destruct (A1 G) as (r' & R1 & _); discriminate).
        specialize (A2 Nf). discriminate.
Qed.

Lemma check_queries_agree : forall T (pick : N -> result T) decode (f g : nat -> list T -> result (list N)) sort queries nq v,
  (forall k ts r, f k ts = Ok r -> g k ts = Ok r) ->
  check_queries pick decode f sort nq queries = Ok v -> check_queries pick decode g sort nq queries = Ok v.
Proof.
  intros T pick decode f g sort queries. induction queries as [|q queries IH]; intros nq v H E; cbn [check_queries] in *; auto.
  apply bind_inv in E. destruct E as (both & E1 & E). rewrite E1. cbn [bind].
  destruct (length both <=? 16); auto.
  apply bind_inv in E. destruct E as (r & E2 & E). rewrite (H _ _ _ E2). cbn [bind].
  apply bind_inv in E. destruct E as ((fb, S') & E3 & E). rewrite E3. cbn [bind].
  destruct (same_values r fb); auto.
Qed.

Lemma check_queries_same : forall T (pick : N -> result T) decode (f g : nat -> list T -> result (list N)) sort queries nq,
  (forall k ts, f k ts = g k ts) ->
  check_queries pick decode f sort nq queries = check_queries pick decode g sort nq queries.
Proof.
  intros T pick decode f g sort queries. induction queries as [|q queries IH]; intros nq H; cbn [check_queries]; auto.
  destruct (each_ok _ q) as [both| |]; cbn [bind]; auto. rewrite H, !IH by auto. reflexivity.
Qed.

(** * The checker of the bit tries *)

Lemma check_collection_split : forall fm sched hc sort file queries,
  check_collection fm sched hc sort file queries
  = let* (runs, tries) := checker_tries fm file queries in
    check_queries (wanted_trie tries) (fun t => bin_decode t [])
      (fun nq ts => Intersect Bin (fst (sched nq)) (snd (sched nq)) hc (map bin_ops ts) runs true) sort 0 queries.
Proof.
  intros. unfold check_collection, checker_tries.
  repeat (match goal with |- bind ?m _ = bind (bind ?m _) _ => rewrite bind_assoc; destruct m as [?x| |]; cbn [bind]; auto end;
          try match goal with x : (_ * _)%type |- _ => destruct x end).
Qed.

Theorem checker_strict_agrees : forall fm sched hc sort file queries v,
  check_collection_strict fm sched hc sort file queries = Ok v -> check_collection fm sched hc sort file queries = Ok v.
Proof.
  intros fm sched hc sort file queries v H. rewrite check_collection_split. unfold check_collection_strict in H.
  destruct (checker_tries fm file queries) as [(runs, tries)| |]; cbn [bind] in *; try discriminate.
  revert H. apply check_queries_agree. intros k ts r. apply strict_call_agrees.
Qed.

Theorem fast_checker_strict_agrees : forall fm blank sched hc sort file queries v,
  check_fast_collection_strict fm blank sched hc sort file queries = Ok v ->
  check_fast_collection fm blank sched hc sort file queries = Ok v.
Proof.
  intros fm blank sched hc sort file queries v H. unfold check_fast_collection_strict in H. unfold check_fast_collection.
  destruct (check_fast_header file) as [(((((rank & runs) & n) & one) & u) & rest)| |]; cbn [bind] in *; try discriminate.
  destruct (oget runs) as [runs'| |]; cbn [bind] in *; try discriminate.
  destruct (load_wanted _ _ _ _ _ _ _) as [tries| |]; cbn [bind] in *; try discriminate.
  revert H. apply check_queries_agree. intros k ts r. apply strict_call_agrees.
Qed.

Theorem checker_tries_read : forall fm a b rank block runs levelwise one u lists queries,
  formats_ok fm -> collection_ok one u lists -> (2 <= u)%N ->
  loadable_options rank block levelwise ->
  Forall (stored_ok u (built_variant rank levelwise) runs) (kept_lists a b lists) ->
  exists file ts,
    build_tries fm a b rank block runs levelwise (collection_file one u lists) = Ok file /\
    each_ok (bin_make u (built_variant rank levelwise) runs) (kept_lists a b lists) = Ok ts /\
    each_ok (fun t => bin_decode t []) ts = Ok (kept_lists a b lists) /\
    (concat queries <> [] -> exists tries,
       checker_tries fm file queries = Ok (runs, tries) /\
       (forall i, In i (map fst tries) <->
          In i (concat queries) /\ (i < N.of_nat (length (kept_lists a b lists)))%N) /\
       (forall i t, In (i, t) tries -> nth_error ts (N.to_nat i) = Some t)).
Proof.
  intros fm a b rank block runs levelwise one u lists queries F C Hu2 O K.
  assert (Hu : (2 <= u <= 2 ^ 48)%N).
  { split; auto. destruct C as (_ & C & _). apply N.lt_le_incl. eapply N.lt_trans; [exact C|reflexivity]. }
  destruct (loaded_object_spec fm rank block levelwise F O) as (old & Eo & Hold & Hc & Hv).
  set (v := built_variant rank levelwise) in *. set (c := built_codecs fm rank block) in *.
  set (kept := kept_lists a b lists) in *.
  assert (M : exists ts, each_ok (bin_make u v runs) kept = Ok ts /\
            Forall2 (fun l t => bin_make u v runs l = Ok t /\ bin_decode t [] = Ok l /\
                       exists bytes, bin_serialize c t = Ok (bytes, N.of_nat (length bytes)) /\
                         forall rest, exists t', bin_load c old (bytes ++ rest) = Ok (t', rest) /\ t = t') kept ts).
  { apply each_ok_Forall. rewrite Forall_forall in *. intros l Hl.
    destruct (bin_made u v runs l Hu (K l Hl)) as (t & H1 & H2 & H3 & H4 & H5).
    destruct (stored_set c u v runs l old [] Hc Hv Hu (K l Hl) Hold) as (t0 & bytes & E1 & E2 & E3 & E4).
    rewrite H1 in E1. injection E1 as <-. exists t. split; auto. split; auto. split; auto.
    exists bytes. split; auto. intros rest.
    destruct (serialization_round_trip c u v runs l t old rest Hc Hv H1 H2) as (b' & S1 & S2).
    { destruct v, t, old; cbn in *; try easy. congruence. }
    rewrite E2 in S1. injection S1 as <-. eauto. }
  destruct M as (ts & Ets & Fts).
  assert (B : exists bs, Forall2 (fun t b => bin_serialize c t = Ok (b, N.of_nat (length b))) ts bs /\
              Forall2 (fun b t => forall tail, exists t', bin_load c old (b ++ tail) = Ok (t', tail) /\ t = t') bs ts).
  { clear - Fts. induction Fts as [|l t kept ts (_ & _ & bytes & E & L) _ (bs & IH1 & IH2)]; [exists []; split; constructor|].
    exists (bytes :: bs). split; constructor; auto. }
  destruct B as (bs & Fbs & Lbs).
  assert (S : each_ok (fun p : nat * list N =>
                (fun u (_ : nat) il => let* t := bin_make u v runs il in
                   let* (bytes, _) := bin_serialize c t in Ok bytes) u (fst p) (snd p)) (indexed 0 kept) = Ok bs).
  { clear - Ets Fbs. revert ts bs Ets Fbs. generalize 0 as n.
    induction kept as [|l kept IH]; intros n ts bs E F; cbn [each_ok indexed] in *.
    - injection E as <-. inversion F. auto.
    - apply bind_inv in E; destruct E as (t0 & H & E); apply bind_inv in E; destruct E as (ts0 & Hts & E). injection E as <-. inversion F as [|t1 b1 ts' bs' Eb F']; subst. cbn [fst snd].
      rewrite H. cbn [bind]. rewrite Eb. cbn [bind]. erewrite IH; eauto. reflexivity. }
  assert (D : each_ok (fun t => bin_decode t []) ts = Ok kept).
  { clear - Fts. induction Fts as [|l t kept ts (_ & E & _) _ IH]; auto. cbn [each_ok]. rewrite E, IH. auto. }
  assert (Ln : length ts = length kept) by (apply each_ok_length in Ets; auto).
  eexists. exists ts. split.
  { unfold build_tries. rewrite build_file_spec by eauto. fold v c kept.
    cbv beta in S. rewrite S. cbn [bind]. reflexivity. }
  split; auto. split; auto.
  assert (Kc := kept_count a b one u lists C). destruct C as (C1 & C2 & _). destruct O as (O1 & Hb & _).
  assert (H : checker_tries fm
     ((le_bytes 4 rank ++ (if N.eqb rank 1 then le_bytes 4 block else []) ++ [bool_byte runs] ++ [bool_byte levelwise])
      ++ le_bytes 4 (N.of_nat (length kept)) ++ le_bytes 4 one ++ le_bytes 4 u ++ concat bs) queries
     = let* tries := load_wanted (bin_load c old) (length kept) 0 (set_indexes queries) 0 (concat bs) [] in
       Ok (runs, tries)).
  { unfold checker_tries. rewrite <- !app_assoc. rewrite read_le_app by auto. cbn [bind].
    assert (X : forall rest, (if N.eqb rank 1 then read_le 4 ((if N.eqb rank 1 then le_bytes 4 block else []) ++ rest)
                 else Ok (512%N, (if N.eqb rank 1 then le_bytes 4 block else []) ++ rest))
              = Ok (if N.eqb rank 1 then block else 512%N, rest)).
    { intros. destruct (N.eqb rank 1); auto. apply read_le_app. auto. }
    rewrite X. cbn [bind]. rewrite read_bool_app. cbn [bind]. rewrite read_bool_app. cbn [bind].
    rewrite read_le_app by auto. cbn [bind]. rewrite read_le_app by auto. cbn [bind].
    rewrite read_le_app by auto. cbn [bind]. rewrite Eo, Nat2N.id. cbn [bind]. reflexivity. }
  intros Hq. destruct (set_indexes_spec queries) as (S1 & S2).
    assert (Sne : set_indexes queries <> []).
    { intros E. destruct (concat queries) as [|x l]; [easy|]. assert (X := proj2 (S2 x) (or_introl eq_refl)). rewrite E in X. easy. }
    destruct (load_wanted_spec _ (fun t t' => t = t') (bin_load c old) bs ts [] 0 [] (set_indexes queries) [] Lbs S1 Sne)
      as (new & N1 & N2 & N3).
    { apply Forall_forall. intros. change (N.of_nat 0) with 0%N. lia. }
    cbn [app length] in N1. rewrite Ln, app_nil_r in N1. change (N.of_nat 0) with 0%N in N1.
    exists new. split; [rewrite H, N1; reflexivity|]. split.
    + intros i. rewrite N2, filter_In, S2, Ln. cbn [Nat.add]. rewrite N.ltb_lt. tauto.
    + intros i t Hi. rewrite Forall_forall in N3. destruct (N3 _ Hi) as (_ & t0 & Q1 & Q2).
      cbn [fst snd] in *. rewrite Nat.sub_0_r in Q1. congruence.
Qed.

Theorem checker_strict_runs : forall fm a b rank block levelwise one u lists hc sched sort queries,
  formats_ok fm -> collection_ok one u lists -> (2 <= u)%N ->
  loadable_options rank block levelwise ->
  Forall (stored_ok u (built_variant rank levelwise) true) (kept_lists a b lists) -> concat queries <> [] ->
  exists file,
    build_tries fm a b rank block true levelwise (collection_file one u lists) = Ok file /\
    check_collection_strict fm sched hc sort file queries = check_collection fm sched hc sort file queries.
Proof.
  intros fm a b rank block levelwise one u lists hc sched sort queries F C Hu O K Hq.
  destruct (checker_tries_read fm a b rank block true levelwise one u lists queries F C Hu O K)
    as (file & ts & E1 & _ & _ & E4).
  destruct (E4 Hq) as (tries & T1 & _). exists file. split; auto.
  rewrite check_collection_split. unfold check_collection_strict. rewrite T1. cbn [bind].
  apply check_queries_same. intros. apply strict_call_runs.
Qed.

Theorem checker_strict : forall fm a b rank block levelwise one u lists hc sched sort queries,
  formats_ok fm -> collection_ok one u lists -> (3 <= u)%N ->
  loadable_options rank block levelwise ->
  Forall (stored_ok u (built_variant rank levelwise) false) (kept_lists a b lists) ->
  (1 <= hc < 2 ^ 16)%N ->
  (forall nq, valid_scheduler (fst (sched nq)) /\ valid_scheduler (snd (sched nq))) -> valid_sort sort ->
  queries <> [] -> Forall (query_ok (kept_lists a b lists)) queries ->
  exists file,
    build_tries fm a b rank block false levelwise (collection_file one u lists) = Ok file /\
    (Forall (fun q => length q <= 16 -> flags_ok 2 0 u hc true (lists_at (kept_lists a b lists) q)) queries ->
       check_collection_strict fm sched hc sort file queries = Ok (false, length (short_queries queries))) /\
    (Exists (fun q => length q <= 16 /\ ~ flags_ok 2 0 u hc true (lists_at (kept_lists a b lists) q)) queries ->
       check_collection_strict fm sched hc sort file queries = UB Indeterminate).
Proof.
  intros fm a b rank block levelwise one u lists hc sched sort queries F C Hu2 O K Hhc Hs V Hne Q.
  assert (Hu : (3 <= u <= 2 ^ 48)%N).
  { split; auto. destruct C as (_ & C & _). apply N.lt_le_incl. eapply N.lt_trans; [exact C|reflexivity]. }
  destruct (checker_tries_read fm a b rank block false levelwise one u lists queries F C ltac:(lia) O K)
    as (file & ts & E1 & E2 & E3 & E4).
  destruct (E4 (concat_ids _ _ Hne Q)) as (tries & T1 & T2 & T3). exists file. split; auto.
  unfold check_collection_strict. rewrite T1. cbn [bind].
  set (v := built_variant rank levelwise) in *. set (kept := kept_lists a b lists) in *.
  apply (check_queries_plain _ (wanted_trie tries) (fun t => bin_decode t []) _ sort (lists_at kept)
    (fun q => flags_ok 2 0 u hc true (lists_at kept q)) queries V).
  rewrite Forall_forall in Q |- *. intros q Hq. assert (Qq := Q q Hq). destruct Qq as (Q1 & Q2).
  destruct (wanted_pick _ _ kept ts tries q E2) as (qs & P1 & P2); auto.
  { intros i Hi. apply T2. split; [apply in_concat; eauto|]. rewrite Forall_forall in Q2. auto. }
  exists qs. split; auto. split; [eapply decode_at; eauto|]. intros Hl. split; auto.
  split; [unfold lists_at; apply map_length|]. assert (K' := Forall_lists_at _ _ _ K Q2).
  split; [eapply Forall_impl; [|exact K']; intros s (Hs' & _); apply Hs'|].
  intros k. destruct (bin_strict_call u v (lists_at kept q) hc true Hu) as (Ts & X & Y); auto.
  { unfold lists_at. rewrite map_length. destruct q; [easy|]. cbn [length] in *. lia. }
  assert (Ts = qs) by congruence. subst Ts. apply Y; apply Hs.
Qed.

Theorem checker_odd : forall fm a b rank block levelwise one u lists hc sched sort queries q x,
  formats_ok fm -> collection_ok one u lists -> (3 <= u)%N ->
  loadable_options rank block levelwise ->
  Forall (stored_ok u (built_variant rank levelwise) false) (kept_lists a b lists) ->
  (1 <= hc < 2 ^ 16)%N ->
  (forall nq, valid_scheduler (fst (sched nq)) /\ valid_scheduler (snd (sched nq))) -> valid_sort sort ->
  Forall (query_ok (kept_lists a b lists)) queries ->
  In q queries -> length q <= 16 -> N.odd x = true ->
  Forall (fun s => In x s) (lists_at (kept_lists a b lists) q) ->
  ~ Forall (fun s => In (x - 1)%N s) (lists_at (kept_lists a b lists) q) ->
  exists file,
    build_tries fm a b rank block false levelwise (collection_file one u lists) = Ok file /\
    check_collection fm sched hc sort file queries = Ok (false, length (short_queries queries)) /\
    check_collection_strict fm sched hc sort file queries = UB Indeterminate.
Proof.
  intros fm a b rank block levelwise one u lists hc sched sort queries q x F C Hu O K Hhc Hs V Q Hin Hl Ho Hx He.
  assert (Hne : queries <> []) by (intros ->; inversion Hin).
  destruct (checker_strict fm a b rank block levelwise one u lists hc sched sort queries F C Hu O K Hhc Hs V Hne Q)
    as (file & E & _ & U).
  destruct (checker_verdict fm a b rank block false levelwise one u lists hc sched sort queries F C ltac:(lia) O K Hhc
    ltac:(left; lia) Hs V Hne Q) as (file' & v & E' & R & _ & Rv).
  rewrite E in E'. injection E' as <-. rewrite (Rv eq_refl) in R.
  exists file. split; auto. split; auto. apply U. apply Exists_exists. exists q. split; auto. split; auto.
  assert (D : 2 <= digits u).
  { unfold digits. assert (1 < N.log2_up u)%N; [|lia]. apply N.log2_up_lt_pow2; lia. }
  apply odd_flags with (x := x); auto; change (2 ^ N.of_nat 0)%N with 1%N; rewrite ?N.div_1_r; auto; [lia|intros; lia|].
  apply neg_Forall_Exists_neg in He; [|intros s; destruct (in_dec N.eq_dec (x - 1)%N s); auto].
  eapply Exists_impl; [|exact He]. cbn. intros s Hn y Hy. rewrite N.div_1_r. intros Ey. apply Hn.
  replace (x - 1)%N with y by lia. auto.
Qed.

(** * The checker of the fast tries *)

Definition check_fast_rest_strict (fm : formats) (blank : fast) (rank : N) (runs : bool)
           (sched : nat -> scheduler * scheduler) (hc : N)
           (sort : list (list N) -> list (list N)) (rest : list N) (queries : list (list N)) :=
  let* tries := load_tries (fast_codecs fm rank) blank queries rest in
  check_queries (find_trie tries) (fun t => fast_decode t [])
    (fun nq ts => strict_call (Fast 6) (fst (sched nq)) (snd (sched nq)) hc (map fast_ops ts) runs true)
    sort 0 queries.

Lemma check_fast_split_strict : forall fm blank rank runs levelwise sched hc sort rest queries,
  (rank < 2 ^ 32)%N -> rank <> 1%N ->
  check_fast_collection_strict fm blank sched hc sort (le_bytes 4 rank ++ [bool_byte runs] ++ [bool_byte levelwise] ++ rest) queries
  = check_fast_rest_strict fm blank rank runs sched hc sort rest queries.
Proof.
  intros fm blank rank runs levelwise sched hc sort rest queries Hr H1.
  unfold check_fast_collection_strict, check_fast_header, check_fast_rest_strict, load_tries.
  rewrite read_le_app by auto. cbn [bind]. destruct (N.eqb_spec rank 1); [easy|]. cbn [bind].
  rewrite read_obool_app. cbn [bind]. rewrite read_obool_app. cbn [bind].
  destruct (read_le 4 rest) as [(n0, rest1)|e|]; cbn [bind]; auto.
  destruct (read_le 4 rest1) as [(one, rest2)|e|]; cbn [bind]; auto.
  destruct (read_le 4 rest2) as [(u, rest3)|e|]; cbn [bind oget]; auto.
  rewrite load_wanted_fast. destruct (load_tries_loop _ _ _ _ _ _ _ _) as [tries| |]; cbn [bind]; auto.
  apply check_queries_pick. apply wanted_find.
Qed.

(** The file of build_fast_tries, as the checker reads it without the word size. *)
Lemma fast_checker_reads : forall fm junk a b rank runs levelwise one u lists,
  formats_ok fm -> collection_ok one u lists -> fast_universe u 6 -> (rank < 2 ^ 32)%N -> rank <> 1%N ->
  junk_ok junk -> Forall (fast_ok u) (kept_lists a b lists) ->
  exists file rest,
    build_fast_tries fm junk a b rank runs levelwise 6 (collection_file one u lists) = Ok file /\
    read_fast_header file = Ok (rank, Some runs, Some levelwise, wbits 6, rest) /\
    without_word_size file = le_bytes 4 rank ++ [bool_byte runs] ++ [bool_byte levelwise] ++ rest.
Proof.
  intros fm junk a b rank runs levelwise one u lists F C Hu Hr H1 J K.
  destruct (all_made u 6 runs junk (fast_codecs fm rank) _ 0 Hu J K) as (ts & Ets & bs & Ebs).
  eexists. eexists. split; [rewrite fast_build_spec by eauto; rewrite Ebs; cbn [bind]; reflexivity|].
  split; [rewrite fast_header; auto; apply Hu|]. apply header_len.
Qed.

Theorem fast_checker_strict_runs : forall fm junk a b rank levelwise one u lists blank hc sched sort queries,
  formats_ok fm -> collection_ok one u lists -> fast_universe u 6 -> (rank < 2 ^ 32)%N -> rank <> 1%N ->
  junk_ok junk -> Forall (fast_ok u) (kept_lists a b lists) ->
  exists file,
    build_fast_tries fm junk a b rank true levelwise 6 (collection_file one u lists) = Ok file /\
    check_fast_collection_strict fm blank sched hc sort (without_word_size file) queries
    = check_fast_collection fm blank sched hc sort (without_word_size file) queries.
Proof.
  intros fm junk a b rank levelwise one u lists blank hc sched sort queries F C Hu Hr H1 J K.
  destruct (fast_checker_reads fm junk a b rank true levelwise one u lists F C Hu Hr H1 J K) as (file & rest & E1 & E2 & E3).
  exists file. split; auto. rewrite E3, check_fast_split, check_fast_split_strict by auto.
  unfold check_fast_rest, check_fast_rest_strict. destruct (load_tries _ _ _ _) as [tries| |]; cbn [bind]; auto.
  apply check_queries_same. intros. apply strict_call_runs.
Qed.

Theorem fast_checker_strict : forall fm junk a b rank levelwise one u lists blank hc sched sort queries,
  formats_ok fm -> collection_ok one u lists -> fast_universe u 6 -> (64 < u)%N -> (rank < 2 ^ 32)%N -> rank <> 1%N ->
  junk_ok junk -> blank_ok blank -> Forall (fast_ok u) (kept_lists a b lists) ->
  (1 <= hc < 2 ^ 16)%N ->
  (forall nq, valid_scheduler (fst (sched nq)) /\ valid_scheduler (snd (sched nq))) -> valid_sort sort ->
  queries <> [] -> Forall (query_ok (kept_lists a b lists)) queries ->
  exists file,
    build_fast_tries fm junk a b rank false levelwise 6 (collection_file one u lists) = Ok file /\
    (Forall (fun q => length q <= 16 -> flags_ok 7 6 u hc true (lists_at (kept_lists a b lists) q)) queries ->
       check_fast_collection_strict fm (blank 6) sched hc sort (without_word_size file) queries
       = Ok (false, length (short_queries queries))) /\
    (Exists (fun q => length q <= 16 /\ ~ flags_ok 7 6 u hc true (lists_at (kept_lists a b lists) q)) queries ->
       check_fast_collection_strict fm (blank 6) sched hc sort (without_word_size file) queries = UB Indeterminate).
Proof.
  intros fm junk a b rank levelwise one u lists blank hc sched sort queries F C Hu Hbig Hr H1 J B K Hhc Hs V Hne Q.
  destruct (fast_collection fm junk a b rank false levelwise 6 one u lists blank queries F C Hu Hr H1 J B K (concat_ids _ _ Hne Q))
    as (file & rest & ts & tries & E1 & E2 & E3 & E4 & E5 & E6 & E7).
  destruct (selective_loading fm junk a b rank false levelwise 6 one u lists blank queries F C Hu Hr H1 J B K (concat_ids _ _ Hne Q))
    as (file' & rest' & tries' & X1 & X2 & X3 & _ & _ & X4).
  rewrite E1 in X1. injection X1 as <-. rewrite E2 in X2. injection X2 as <-. rewrite E3 in X3. injection X3 as <-.
  destruct (fast_checker_reads fm junk a b rank false levelwise one u lists F C Hu Hr H1 J K) as (file' & rest' & Y1 & Y2 & Y3).
  rewrite E1 in Y1. injection Y1 as <-. rewrite E2 in Y2. injection Y2 as <-.
  exists file. split; auto. rewrite Y3, check_fast_split_strict by auto. unfold check_fast_rest_strict. rewrite E3. cbn [bind].
  set (kept := kept_lists a b lists) in *.
  apply (check_queries_plain _ (find_trie tries) (fun t => fast_decode t []) _ sort (lists_at kept)
    (fun q => flags_ok 7 6 u hc true (lists_at kept q)) queries V).
  rewrite Forall_forall in Q |- *. intros q Hq. assert (Qq := Q q Hq). destruct Qq as (Q1 & Q2).
  assert (Hin : forall i, In i q -> In i (map fst tries)).
  { intros i Hi. apply E6. split; [apply in_concat; eauto|]. rewrite Forall_forall in Q2. auto. }
  destruct (fast_pick u 6 false junk kept ts tries q E4 Hin E7 Q2) as (qs & fresh & P1 & P2 & P3).
  exists qs. split; auto. split.
  { clear - P1 Hin X4. revert qs P1. induction q as [|i q IH]; intros qs P1; cbn [each_ok] in P1.
    - injection P1 as <-. reflexivity.
    - apply bind_inv in P1. destruct P1 as (t & Et & P1). apply bind_inv in P1. destruct P1 as (qs' & P1' & P1).
      injection P1 as <-. unfold lists_at. cbn [map each_ok].
      destruct (find_In tries i) as (t' & F1 & F2); [apply Hin; left; auto|].
      rewrite Et in F1. injection F1 as <-. destruct (X4 i t F2) as (_ & X4').
      rewrite X4' by discriminate. cbn [bind].
      unfold lists_at in IH. rewrite IH; auto. intros; apply Hin; right; auto. }
  intros Hl. split; auto. split; [unfold lists_at; apply map_length|].
  split. { eapply Forall_impl; [|exact (Forall_lists_at _ _ _ K Q2)]. intros s (Hs' & Hs'' & _). auto. }
  intros k. rewrite P3.
  assert (Fo : Forall (fitem_ok u) (map (item_at junk false kept) q)).
  { rewrite Forall_forall in *. intros x Hx. apply in_map_iff in Hx. destruct Hx as (i & <- & Hi).
    unfold fitem_ok, item_at. cbn [snd]. apply K. apply nth_In. specialize (Q2 i Hi). lia. }
  destruct (fast_strict_call u 6 (map (item_at junk false kept) q) hc true Hu Hbig) as (Ts & X & Y); auto.
  { rewrite map_length. destruct q; [easy|]. cbn [length] in *. lia. }
  { rewrite Forall_map. apply Forall_forall. reflexivity. }
  rewrite P2 in X. injection X as <-. rewrite map_snd_items in Y. apply Y; apply Hs.
Qed.

Theorem fast_checker_odd : forall fm junk a b rank levelwise one u lists blank hc sched sort queries q x,
  formats_ok fm -> collection_ok one u lists -> fast_universe u 6 -> (64 < u)%N -> (rank < 2 ^ 32)%N -> rank <> 1%N ->
  junk_ok junk -> blank_ok blank -> Forall (fast_ok u) (kept_lists a b lists) ->
  (1 <= hc < 2 ^ 16)%N ->
  (forall nq, valid_scheduler (fst (sched nq)) /\ valid_scheduler (snd (sched nq))) -> valid_sort sort ->
  Forall (query_ok (kept_lists a b lists)) queries ->
  In q queries -> length q <= 16 -> digits u <> N.to_nat (N.log2 hc) + 7 ->
  N.odd (x / 64) = true ->
  Forall (fun s => In x s) (lists_at (kept_lists a b lists) q) ->
  Exists (fun s => forall y, In y s -> (y / 64 + 1 <> x / 64)%N) (lists_at (kept_lists a b lists) q) ->
  exists file,
    build_fast_tries fm junk a b rank false levelwise 6 (collection_file one u lists) = Ok file /\
    check_fast_collection fm (blank 6) sched hc sort (without_word_size file) queries
      = Ok (false, length (short_queries queries)) /\
    check_fast_collection_strict fm (blank 6) sched hc sort (without_word_size file) queries = UB Indeterminate.
Proof.
  intros fm junk a b rank levelwise one u lists blank hc sched sort queries q x F C Hu Hbig Hr H1 J B K Hhc Hs V Q
    Hin Hl Hd Ho Hx He.
  assert (Hne : queries <> []) by (intros ->; inversion Hin).
  destruct (fast_checker_strict fm junk a b rank levelwise one u lists blank hc sched sort queries
    F C Hu Hbig Hr H1 J B K Hhc Hs V Hne Q) as (file & E & _ & U).
  destruct (fast_checker_verdict fm junk a b rank false levelwise one u lists blank hc sched sort queries
    F C Hu Hr H1 J B K ltac:(discriminate) Hhc ltac:(left; auto) Hs V Hne Q) as (file' & v & E' & R & _ & Rv).
  rewrite E in E'. injection E' as <-. rewrite (Rv eq_refl) in R.
  exists file. split; auto. split; auto. apply U. apply Exists_exists. exists q. split; auto. split; auto.
  assert (D : 6 < digits u).
  { unfold digits. assert (N.of_nat 6 < N.log2_up u)%N; [|lia]. apply N.log2_up_lt_pow2; [lia|exact Hbig]. }
  apply odd_flags with (x := x); auto. intros _ L. lia.
Qed.
