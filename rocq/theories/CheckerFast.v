(** The intersection checker of the fast tries. *)

From Verif Require Import Base FlatTrie LevelTrie FastTrie ParallelFor Intersection Tries Serialize
  Tools Facts Spec SpecTries SpecFiles SpecTools SerializeFacts SerializeSound SerializeThms
  InterThms InterLaws InterRefute ParForThms ToolsFacts ToolsThms FastToolsThms Reference
  ReferenceFacts Checker SpecChecker CheckerThms.

Lemma load_wanted_fast : forall c blank n i ids np input acc,
  load_wanted (fast_load c blank) n i ids np input acc = load_tries_loop c blank n i ids np input acc.
Proof.
  intros c blank. induction n as [|n IH]; intros i ids np input acc; cbn [load_wanted load_tries_loop]; auto.
  destruct (fast_load c blank input) as [(t, input')|e|]; cbn [bind]; auto.
  destruct (vget ids np) as [id|e|]; cbn [bind]; auto. rewrite !IH. reflexivity.
Qed.

Lemma wanted_find : forall tries i, wanted_trie tries i = find_trie tries i.
Proof.
  intros tries i. unfold wanted_trie, find_trie, trie_pointer. destruct (find _ tries); reflexivity.
Qed.

Lemma check_queries_pick : forall T (pick pick' : N -> result T) decode answer sort queries nq,
  (forall i, pick i = pick' i) ->
  check_queries pick decode answer sort nq queries = check_queries pick' decode answer sort nq queries.
Proof.
  intros T pick pick' decode answer sort queries nq H. revert nq.
  assert (E : forall q, each_ok (fun i => let* t := pick i in let* l := decode t in Ok (t, l)) q
                      = each_ok (fun i => let* t := pick' i in let* l := decode t in Ok (t, l)) q).
  { induction q as [|i q IH]; cbn [each_ok]; auto. rewrite H, IH. reflexivity. }
  induction queries as [|q qs IH]; intros nq; cbn [check_queries]; auto. rewrite E.
  destruct (each_ok _ q) as [both| |]; cbn [bind]; auto. rewrite !IH.
  reflexivity.
Qed.

(** The checker on the rest of the file, after the header of the options. *)
Definition check_fast_rest (fm : formats) (blank : fast) (rank : N) (runs : bool)
           (sched : nat -> scheduler * scheduler) (hc : N)
           (sort : list (list N) -> list (list N)) (rest : list N) (queries : list (list N)) :=
  let* tries := load_tries (fast_codecs fm rank) blank queries rest in
  check_queries (find_trie tries) (fun t => fast_decode t [])
    (fun nq ts => Intersect (Fast 6) (fst (sched nq)) (snd (sched nq)) hc (map fast_ops ts) runs true)
    sort 0 queries.

Lemma check_fast_split : forall fm blank rank runs levelwise sched hc sort rest queries,
  (rank < 2 ^ 32)%N -> rank <> 1%N ->
  check_fast_collection fm blank sched hc sort (le_bytes 4 rank ++ [bool_byte runs] ++ [bool_byte levelwise] ++ rest) queries
  = check_fast_rest fm blank rank runs sched hc sort rest queries.
Proof.
  intros fm blank rank runs levelwise sched hc sort rest queries Hr H1.
  unfold check_fast_collection, check_fast_header, check_fast_rest, load_tries.
  rewrite read_le_app by auto. cbn [bind]. destruct (N.eqb_spec rank 1); [easy|]. cbn [bind].
  rewrite read_obool_app. cbn [bind]. rewrite read_obool_app. cbn [bind].
  destruct (read_le 4 rest) as [(n0, rest1)|e|]; cbn [bind]; auto.
  destruct (read_le 4 rest1) as [(one, rest2)|e|]; cbn [bind]; auto.
  destruct (read_le 4 rest2) as [(u, rest3)|e|]; cbn [bind oget]; auto.
  rewrite load_wanted_fast. destruct (load_tries_loop _ _ _ _ _ _ _ _) as [tries| |]; cbn [bind]; auto.
  apply check_queries_pick. apply wanted_find.
Qed.

Lemma fast_parallel_sound : forall u lw runs junk hc s1 s2 kept q fresh qs,
  fast_universe u lw -> (1 <= hc < 2 ^ 16)%N -> (2 ^ N.of_nat lw < u \/ hc = 1)%N ->
  valid_scheduler s1 -> valid_scheduler s2 ->
  Forall (fast_ok u) kept -> query_ok kept q -> length q <= 16 ->
  each_ok (make_fitem u lw) (map (item_at junk runs kept) q) = Ok fresh ->
  map fast_ops qs = map fast_ops fresh ->
  exists r, Intersect (Fast lw) s1 s2 hc (map fast_ops qs) runs true = Ok r /\ NoDup r /\
    (forall x, In x r -> Forall (fun s => In x s) (lists_at kept q)) /\
    (runs = false -> is_intersection (lists_at kept q) r).
Proof.
  intros u lw runs junk hc s1 s2 kept q fresh qs Hu Hhc H3 V1 V2 K Hq Hl E Eo.
  destruct runs.
  - destruct Hq as (Hne & Hlt).
    assert (Fo : Forall (fitem_ok u) (map (item_at junk true kept) q)).
    { rewrite Forall_forall in *. intros x Hx. apply in_map_iff in Hx. destruct Hx as (i & <- & Hi).
      unfold fitem_ok, item_at. cbn [snd]. apply K. apply nth_In. specialize (Hlt i Hi). lia. }
    destruct (fast_par_runs_sound u lw (map (item_at junk true kept) q) hc s1 s2 Hu)
      as (Ts & r & X1 & X2 & X3 & X4); auto.
    { rewrite map_length. destruct q; [easy|]. cbn [length] in *. lia. }
    rewrite E in X1. injection X1 as <-. rewrite map_snd_items in X4. rewrite Eo.
    exists r. repeat split; auto; discriminate.
  - destruct (fast_answer u lw false true hc (fun _ _ => (s1, s2)) junk kept q fresh qs) with (nq := 0) (rep := 0)
      as (r & R1 & R2); auto.
    { split; [lia|]. intros _. split; [lia|]. split; [tauto|]. split; [discriminate|auto]. }
    exists r. cbn [fst snd] in R1. split; auto. assert (R2' := R2). destruct R2' as (I1 & I2).
    split; [|split; auto; intros x Hx; apply I2; auto].
    clear - I1. unfold increasing in I1. induction I1 as [|x l Hl IH Hx]; constructor; auto.
    intros Hin. rewrite Forall_forall in Hx. specialize (Hx x Hin). lia.
Qed.

(** The bytes of the word size, which the checker does not read. *)
Definition without_word_size (file : list N) : list N := firstn 6 file ++ skipn 8 file.

Lemma header_len : forall rank runs levelwise rest,
  without_word_size ((le_bytes 4 rank ++ [bool_byte runs] ++ [bool_byte levelwise] ++ le_bytes 2 (wbits 6)) ++ rest)
  = le_bytes 4 rank ++ [bool_byte runs] ++ [bool_byte levelwise] ++ rest.
Proof. intros. unfold without_word_size. cbn [le_bytes app firstn skipn]. reflexivity. Qed.

Theorem fast_checker_verdict : forall fm junk a b rank runs levelwise one u lists blank hc sched sort queries,
  formats_ok fm -> collection_ok one u lists -> fast_universe u 6 -> (rank < 2 ^ 32)%N -> rank <> 1%N ->
  junk_ok junk -> blank_ok blank -> Forall (fast_ok u) (kept_lists a b lists) ->
  (runs = true -> forall i, j_empty (junk i) = Some false) ->
  (1 <= hc < 2 ^ 16)%N -> (64 < u \/ hc = 1)%N ->
  (forall nq, valid_scheduler (fst (sched nq)) /\ valid_scheduler (snd (sched nq))) -> valid_sort sort ->
  queries <> [] -> Forall (query_ok (kept_lists a b lists)) queries ->
  exists file v,
    build_fast_tries fm junk a b rank runs levelwise 6 (collection_file one u lists) = Ok file /\
    check_fast_collection fm (blank 6) sched hc sort (without_word_size file) queries = Ok v /\
    verdict (fun k q => exists r,
      (let* ts := each_ok (fun i => fast_make u 6 (j_hwr (junk (N.to_nat i))) (j_empty (junk (N.to_nat i))) runs
                                      (nth (N.to_nat i) (kept_lists a b lists) [])) q in
       Intersect (Fast 6) (fst (sched k)) (snd (sched k)) hc (map fast_ops ts) runs true) = Ok r /\
      is_intersection (lists_at (kept_lists a b lists) q) r) queries v /\
    (runs = false -> v = (false, length (short_queries queries))).
Proof.
  intros fm junk a b rank runs levelwise one u lists blank hc sched sort queries F C Hu Hr H1 J B K He Hhc H3 Hs V Hne Q.
  destruct (fast_collection fm junk a b rank runs levelwise 6 one u lists blank queries F C Hu Hr H1 J B K (concat_ids _ _ Hne Q))
    as (file & rest & ts & tries & E1 & E2 & E3 & E4 & E5 & E6 & E7).
  destruct (selective_loading fm junk a b rank runs levelwise 6 one u lists blank queries F C Hu Hr H1 J B K (concat_ids _ _ Hne Q))
    as (file' & rest' & tries' & X1 & X2 & X3 & _ & _ & X4).
  rewrite E1 in X1. injection X1 as <-. rewrite E2 in X2. injection X2 as <-. rewrite E3 in X3. injection X3 as <-.
  assert (Ef : exists rest0, file = (le_bytes 4 rank ++ [bool_byte runs] ++ [bool_byte levelwise] ++ le_bytes 2 (wbits 6)) ++ rest0).
  { rewrite fast_build_spec in E1 by auto. apply bind_inv in E1. destruct E1 as (bs & _ & E1).
    apply (f_equal (fun r => match r with Ok x => x | _ => [] end)) in E1. cbv beta iota in E1.
    rewrite <- E1. eauto. }
  destruct Ef as (rest0 & Ef). rewrite Ef in E2. rewrite fast_header in E2; auto; [|apply Hu].
  injection E2 as ->. exists file.
  set (kept := kept_lists a b lists) in *.
  assert (P : Forall (fun q => exists qs fresh, each_ok (find_trie tries) q = Ok qs /\
                each_ok (make_fitem u 6) (map (item_at junk runs kept) q) = Ok fresh /\
                map fast_ops qs = map fast_ops fresh /\
                each_ok (fun t => fast_decode t []) qs = Ok (lists_at kept q)) queries).
  { rewrite Forall_forall in *. intros q Hq.
    assert (Qq := Q q Hq). destruct Qq as (Q1 & Q2).
    assert (Hin : forall i, In i q -> In i (map fst tries)).
    { intros i Hi. apply E6. split; [apply in_concat; eauto|]. rewrite Forall_forall in Q2. auto. }
    destruct (fast_pick u 6 runs junk kept ts tries q E4 Hin E7 Q2) as (qs & fresh & P1 & P2 & P3).
    exists qs, fresh. repeat (split; [solve [auto]|]).
    clear - P1 Hin X4 He. revert qs P1. induction q as [|i q IH]; intros qs P1; cbn [each_ok] in P1.
    - injection P1 as <-. reflexivity.
    - apply bind_inv in P1. destruct P1 as (t & Et & P1). apply bind_inv in P1. destruct P1 as (qs' & P1' & P1).
      injection P1 as <-. unfold lists_at. cbn [map each_ok].
      destruct (find_In tries i) as (t' & F1 & F2); [apply Hin; left; auto|].
      rewrite Et in F1. injection F1 as <-. destruct (X4 i t F2) as (_ & X4').
      rewrite X4' by (intros; apply He; auto). cbn [bind].
      unfold lists_at in IH. rewrite IH; auto. intros; apply Hin; right; auto. }
  destruct (check_queries_spec _ (find_trie tries) (fun t => fast_decode t [])
    (fun nq ts => Intersect (Fast 6) (fst (sched nq)) (snd (sched nq)) hc (map fast_ops ts) runs true)
    sort (lists_at kept) queries 0 V) as (bb & n & R1 & R2).
  { rewrite Forall_forall in *. intros q Hq. destruct (P q Hq) as (qs & fresh & P1 & P2 & P3 & P4). exists qs.
    assert (Qq := Q q Hq). assert (Qq' := Qq). destruct Qq' as (Q1 & Q2).
    split; auto. split; auto.
    intros Hl. split; auto. split; [unfold lists_at; apply map_length|].
    assert (K' : Forall (fast_ok u) kept) by (apply Forall_forall; auto).
    split.
    { eapply Forall_impl; [|exact (Forall_lists_at _ _ _ K' Q2)]. intros s (Hs' & Hs'' & _). auto. }
    intros k. destruct (fast_parallel_sound u 6 runs junk hc (fst (sched k)) (snd (sched k)) kept q fresh qs)
      as (r & A1 & A2 & A3 & _); auto; try apply Hs.
    exists r. auto. }
  cbn [Nat.add] in R1, R2. exists (bb, n). split; auto. split.
  { rewrite Ef, header_len, check_fast_split by auto. unfold check_fast_rest. rewrite E3. cbn [bind]. exact R1. }
  assert (Gd : forall k q, In q queries ->
    ((exists r, (let* ts := each_ok (fun i => fast_make u 6 (j_hwr (junk (N.to_nat i))) (j_empty (junk (N.to_nat i))) runs
                                      (nth (N.to_nat i) kept [])) q in
       Intersect (Fast 6) (fst (sched k)) (snd (sched k)) hc (map fast_ops ts) runs true) = Ok r /\
      is_intersection (lists_at kept q) r) <->
     exists ts r, each_ok (find_trie tries) q = Ok ts /\
       Intersect (Fast 6) (fst (sched k)) (snd (sched k)) hc (map fast_ops ts) runs true = Ok r /\
       is_intersection (lists_at kept q) r)).
  { intros k q Hq. rewrite Forall_forall in P. destruct (P q Hq) as (qs & fresh & P1 & P2 & P3 & _).
    rewrite each_ok_map in P2.
    change (each_ok (fun i => fast_make u 6 (j_hwr (junk (N.to_nat i))) (j_empty (junk (N.to_nat i))) runs
                                      (nth (N.to_nat i) kept [])) q = Ok fresh) in P2.
    rewrite P2. cbn [bind]. rewrite <- P3. split.
    - intros (r & Y1 & Y2). eauto.
    - intros (ts' & r & Y1 & Y2 & Y3). rewrite P1 in Y1. injection Y1 as <-. eauto. }
  split; [eapply verdict_ext; [|exact R2]; intros; symmetry; apply Gd; auto|].
  intros ->. destruct R2 as (_ & Vd). cbn [fst snd] in Vd. destruct bb; [|congruence].
  exfalso. destruct Vd as (q & Vq & Vn). apply nth_error_In in Vq. unfold short_queries in Vq.
  apply filter_In in Vq. destruct Vq as (Hq & Hl). apply Nat.leb_le in Hl.
  rewrite Forall_forall in P, Q. destruct (P q Hq) as (qs & fresh & P1 & P2 & P3 & _).
  destruct (fast_parallel_sound u 6 false junk hc (fst (sched n)) (snd (sched n)) kept q fresh qs)
    as (r & A1 & A2 & A3 & A4); auto; try apply Hs.
  apply Vn. exists qs, r. auto.
Qed.

(** The header of build_fastTries is two bytes longer than the checker takes it to be. *)
Lemma le_bytes_mod2 : forall x, le_bytes 2 (x mod 65536) = le_bytes 2 x.
Proof.
  intros x. cbn [le_bytes].
  assert (E1 : ((x mod 65536) mod 256 = x mod 256)%N).
  { change 65536%N with (256 * 256)%N. rewrite N.mod_mul_r by discriminate.
    rewrite N.mul_comm, N.mod_add by discriminate. apply N.mod_mod. discriminate. }
  assert (E2 : ((x mod 65536) / 256 mod 256 = x / 256 mod 256)%N).
  { change 65536%N with (256 * 256)%N. rewrite N.mod_mul_r by discriminate.
    rewrite (N.mul_comm 256), N.div_add by discriminate.
    rewrite (N.div_small (x mod 256)) by (apply N.mod_lt; discriminate). rewrite N.add_0_l.
    apply N.mod_mod. discriminate. }
  rewrite E1, E2. reflexivity.
Qed.

Lemma shifted : forall a b rest, (a < 65536)%N -> (b < 2 ^ 32)%N ->
  read_le 4 (le_bytes 2 a ++ le_bytes 4 b ++ rest)
  = Ok (a + 65536 * (b mod 65536), le_bytes 2 (b / 65536) ++ rest)%N.
Proof.
  intros a b rest Ha Hb.
  assert (E : le_bytes 2 a ++ le_bytes 4 b ++ rest
              = le_bytes 4 (a + 65536 * (b mod 65536)) ++ le_bytes 2 (b / 65536) ++ rest).
  { change 4 with (2 + 2). rewrite !le_bytes_app. change (256 ^ N.of_nat 2)%N with 65536%N.
    rewrite <- !app_assoc.
    replace ((a + 65536 * (b mod 65536)) / 65536)%N with (b mod 65536)%N.
    2: { rewrite (N.mul_comm 65536), N.div_add by discriminate. rewrite N.div_small by auto. lia. }
    rewrite (le_bytes_mod2 b). f_equal.
    rewrite <- (le_bytes_mod2 (a + 65536 * (b mod 65536))). f_equal.
    rewrite (N.mul_comm 65536), N.mod_add by discriminate. symmetry. apply N.mod_small. auto. }
  rewrite E. apply read_le_app.
  assert (H := N.mod_lt b 65536 ltac:(discriminate)). change (2 ^ 32)%N with 4294967296%N. lia.
Qed.

Theorem fast_checker_misreads : forall fm junk a b rank runs levelwise lw one u lists,
  formats_ok fm -> collection_ok one u lists -> fast_universe u lw -> (rank < 2 ^ 32)%N -> rank <> 1%N ->
  junk_ok junk -> Forall (fast_ok u) (kept_lists a b lists) ->
  let n := N.of_nat (length (kept_lists a b lists)) in
  exists file rest,
    build_fast_tries fm junk a b rank runs levelwise lw (collection_file one u lists) = Ok file /\
    check_fast_header file
    = Ok (rank, Some runs, wbits lw + 65536 * (n mod 65536), n / 65536 + 65536 * (one mod 65536),
          one / 65536 + 65536 * (u mod 65536), rest)%N.
Proof.
  intros fm junk a b rank runs levelwise lw one u lists F C Hu Hr H1 J K n.
  destruct (all_made u lw runs junk (fast_codecs fm rank) _ 0 Hu J K) as (ts & Ets & bs & Ebs).
  eexists. eexists.
  split; [rewrite fast_build_spec by eauto; rewrite Ebs; cbn [bind]; reflexivity|].
  fold n. unfold check_fast_header. rewrite <- !app_assoc.
  rewrite read_le_app by auto. cbn [bind]. destruct (N.eqb_spec rank 1); [easy|]. cbn [bind].
  rewrite read_obool_app. cbn [bind]. rewrite read_obool_app. cbn [bind].
  assert (Kc := kept_count a b one u lists C). fold n in Kc. destruct C as (C1 & C2 & _).
  assert (Dv : forall x, (x < 2 ^ 32)%N -> (x / 65536 < 65536)%N).
  { intros x Hx. apply N.div_lt_upper_bound; [discriminate|]. exact Hx. }
  rewrite shifted by (auto; apply wbits_small; apply Hu). cbn [bind].
  rewrite shifted by auto. cbn [bind]. rewrite shifted by auto. cbn [bind]. reflexivity.
Qed.
