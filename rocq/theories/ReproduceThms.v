(** What two runs of the build tool for fast tries have in common. *)

From Verif Require Import Base FlatTrie LevelTrie FastTrie ParallelFor Intersection Tries Serialize
  Tools Report Facts Spec SpecTries SpecFiles SpecTools SerializeFacts SerializeSound SerializeThms
  ToolsFacts ToolsThms FastToolsThms ReportThms HistoryThms SpecReproduce.

(** The members that nothing wrote, taken from memory. *)
Definition filled (jh : option nat) (je : option bool) (t : fast) : fast :=
  mkFast (x_lw t) (x_height t) (match x_height_with_runs t with Some h => Some h | None => jh end)
         (x_height_u t) (x_runs_encoded t) (match x_empty_trie t with Some e => Some e | None => je end)
         (x_bTrie t) (x_lastLevel t) (x_rank t).

Lemma filled_refines : forall jh je t, refines t (filled jh je t).
Proof. intros jh je t. repeat split; intros x E; cbn; rewrite E; reflexivity. Qed.

Lemma encodeRuns_filled : forall jh je t, x_empty_trie t = None ->
  fast_encodeRuns (filled jh je t) = (let* r := fast_encodeRuns t in Ok (filled jh je r)).
Proof.
  intros jh je t E. unfold fast_encodeRuns. rewrite (writeCompress_refines _ _ (filled_refines jh je t)).
  change (x_height (filled jh je t)) with (x_height t). rewrite bind_assoc.
  apply bind_congr; [reflexivity|]. intros (((ones & pos) & ws) & b). unfold fast_writeOnes.
  change (x_height (filled jh je t)) with (x_height t). rewrite bind_assoc.
  apply bind_congr; [reflexivity|]. intros (bn & ll). rewrite bind_assoc.
  apply bind_congr; [reflexivity|]. intros (bt & g). cbn [bind filled x_empty_trie x_height_with_runs x_lw
    x_height x_height_u x_runs_encoded x_bTrie x_lastLevel x_rank]. rewrite E. reflexivity.
Qed.

Lemma fast_make_filled : forall u lw jh je runs s,
  fast_make u lw jh je runs s = (let* t := fast_make u lw None None runs s in Ok (filled jh je t)).
Proof.
  intros. unfold fast_make. 
  assert (B : fast_build lw jh je s u = (let* t := fast_build lw None None s u in Ok (filled jh je t))).
  { unfold fast_build. rewrite bind_assoc. apply bind_congr; [reflexivity|]. intros hu.
    destruct (hu + 1 <? lw); [reflexivity|]. rewrite bind_assoc. apply bind_congr; [reflexivity|].
    intros st. reflexivity. }
  assert (X : forall t, fast_build lw None None s u = Ok t -> x_empty_trie t = None).
  { intros t E. unfold fast_build in E. apply bind_inv in E. destruct E as (hu & _ & E).
    destruct (hu + 1 <? lw); [discriminate|]. apply bind_inv in E. destruct E as (st & _ & E).
    injection E as <-. reflexivity. }
  rewrite B. destruct (fast_build lw None None s u) as [t|e|] eqn:Eb; cbn [bind]; auto.
  destruct runs; [|reflexivity]. apply encodeRuns_filled. auto.
Qed.

Lemma made_unset : forall u lw runs s t, fast_make u lw None None runs s = Ok t ->
  x_empty_trie t = None /\ (runs = true -> x_height_with_runs t <> None) /\
  (runs = false -> x_height_with_runs t = None).
Proof.
  intros u lw runs s t H. unfold fast_make in H. apply bind_inv in H. destruct H as (t0 & Eb & H).
  assert (X : x_empty_trie t0 = None /\ x_height_with_runs t0 = None).
  { unfold fast_build in Eb. apply bind_inv in Eb. destruct Eb as (hu & _ & E).
    destruct (hu + 1 <? lw); [discriminate|]. apply bind_inv in E. destruct E as (st & _ & E).
    injection E as <-. split; reflexivity. }
  destruct X as (X1 & X2). destruct runs.
  - unfold fast_encodeRuns in H. apply bind_inv in H. destruct H as ((((ones & pos) & ws) & b) & _ & H).
    unfold fast_writeOnes in H. apply bind_inv in H. destruct H as ((bn & ll) & _ & H).
    apply bind_inv in H. destruct H as ((bt & g) & _ & H). injection H as <-. cbn. repeat split; auto; discriminate.
  - injection H as <-. repeat split; auto. discriminate.
Qed.

(** The value of a member, or what its memory holds. *)
Definition hwr_value (j : fast_junk) : N := match j_hwr j with Some h => N.of_nat h | None => j_hwr_bytes j end.
Definition empty_value (j : fast_junk) : N := match j_empty j with Some e => bool_byte e | None => j_empty_byte j end.

Lemma serialize_filled : forall c j t, x_empty_trie t = None ->
  fast_serialize c (j_hwr_bytes j) (j_empty_byte j) (filled (j_hwr j) (j_empty j) t)
  = fast_serialize c (hwr_value j) (empty_value j) t.
Proof.
  intros c j t E. unfold fast_serialize, filled, hwr_value, empty_value. cbn. rewrite E.
  destruct (x_height_with_runs t), (j_hwr j), (j_empty j); reflexivity.
Qed.

Lemma stored_filled : forall c u lw runs junk i l,
  stored c u lw runs junk (i, l)
  = (let* t := fast_make u lw None None runs l in
     Ok (fst (fast_serialize c (hwr_value (junk i)) (empty_value (junk i)) t))).
Proof.
  intros. unfold stored, made. cbn [fst snd]. rewrite fast_make_filled, bind_assoc.
  destruct (fast_make u lw None None runs l) as [t|e|] eqn:E; cbn [bind]; auto.
  rewrite serialize_filled; [reflexivity|]. apply (made_unset _ _ _ _ _ E).
Qed.

(** * Any input *)

Lemma serialize_same_but : forall c u lw runs s t h e h' e', fast_make u lw None None runs s = Ok t ->
  same_but (unset_bytes runs) (fst (fast_serialize c h e t)) (fst (fast_serialize c h' e' t)).
Proof.
  intros c u lw runs s t h e h' e' M. destruct (made_unset _ _ _ _ _ M) as (M1 & M2 & M3).
  unfold fast_serialize. cbn [fst]. split.
  - rewrite !app_length, !le_bytes_length. reflexivity.
  - intros p Hp. rewrite M1. destruct runs; cbn [unset_bytes In] in Hp.
    + destruct (x_height_with_runs t) as [x|]; [|destruct (M2 eq_refl eq_refl)].
      do 6 (destruct p as [|p]; [try reflexivity; tauto|]). reflexivity.
    + rewrite (M3 eq_refl). do 6 (destruct p as [|p]; [try reflexivity; tauto|]). reflexivity.
Qed.

Lemma serialize_long : forall c h e t, 14 <= length (fst (fast_serialize c h e t)).
Proof. intros. unfold fast_serialize. cbn [fst]. rewrite !app_length, !le_bytes_length. cbn [length]. lia. Qed.

Lemma grown_app : forall runs out out' r r', same_files runs out out' -> 14 <= length r ->
  same_but (unset_bytes runs) r r' -> same_files runs (out ++ r) (out' ++ r').
Proof.
  intros runs out out' r r' (head & rs & rs' & E1 & E2 & E3 & E4 & E5) Hl Hs.
  exists head, (rs ++ [r]), (rs' ++ [r']). rewrite !concat_app. cbn [concat]. rewrite !app_nil_r, !app_assoc.
  rewrite <- E1, <- E2. repeat split; auto.
  - apply Forall_app. auto.
  - apply Forall2_app; auto.
Qed.

Lemma same_way_refl : forall A (R : A -> A -> Prop) x, (forall a, x = Ok a -> R a a) -> same_way R x x.
Proof. intros A R [a|e|] H; cbn; auto. Qed.

Lemma build_loop_same : forall runs a b store store',
  (forall i il, same_way (fun r r' => 14 <= length r /\ same_but (unset_bytes runs) r r') (store i il) (store' i il)) ->
  forall fuel input i out out', same_files runs out out' ->
  same_way (same_files runs) (build_loop fuel a b store input i out) (build_loop fuel a b store' input i out').
Proof.
  intros runs a b store store' S. induction fuel as [|fuel IH]; intros input i out out' O; cbn [build_loop];
    destruct (read_eof 4 input) as [(n & input')|]; cbn [same_way]; auto.
  destruct (keep_list a b n); [|apply IH; auto].
  destruct (read_inv_list (N.to_nat n) input') as [(il & rest)|e|]; cbn [bind same_way]; auto.
  specialize (S i il). destruct (store i il) as [r|e|], (store' i il) as [r'|e'|]; cbn [same_way bind] in *; auto; try contradiction.
  apply IH. apply grown_app; tauto.
Qed.

Theorem fast_builds_alike : forall fm junk junk' a b rank runs levelwise lw input,
  same_way (same_files runs) (build_fast_tries fm junk a b rank runs levelwise lw input)
                             (build_fast_tries fm junk' a b rank runs levelwise lw input).
Proof.
  intros. unfold build_fast_tries, build_file.
  destruct (read_le 4 input) as [(one & lists)|e|]; cbn [bind same_way]; auto.
  destruct (read_le 4 lists) as [(u & lists')|e|]; cbn [bind same_way]; auto.
  destruct (count_sets _ _ _ _ _) as [n|e|]; cbn [bind same_way]; auto.
  apply build_loop_same.
  - intros i il. set (c := fast_codecs fm rank).
    assert (E := stored_filled c u lw runs junk i il). assert (E' := stored_filled c u lw runs junk' i il).
    unfold stored, made in E, E'. cbn [fst snd] in E, E'. rewrite E, E'.
    destruct (fast_make u lw None None runs il) as [t|e|] eqn:M; cbn [bind same_way]; auto.
    split; [apply serialize_long|]. eapply serialize_same_but; eauto.
  - exists ((le_bytes 4 rank ++ [bool_byte runs] ++ [bool_byte levelwise] ++ le_bytes 2 (wbits lw))
            ++ le_bytes 4 n ++ le_bytes 4 one ++ le_bytes 4 u), [], [].
    cbn [concat]. rewrite app_nil_r. repeat split; auto.
Qed.

Lemma report_loop_same : forall a b visit visit',
  (forall i il, same_way (fun r r' => snd r = snd r') (visit i il) (visit' i il)) ->
  forall fuel input i out out' x y,
  same_way (fun r r' => snd r = snd r') (report_loop fuel a b visit input i out x y)
                                        (report_loop fuel a b visit' input i out' x y).
Proof.
  intros a b visit visit' S. induction fuel as [|fuel IH]; intros input i out out' x y; cbn [report_loop];
    destruct (read_eof 4 input) as [(n & input')|]; cbn [same_way]; auto.
  destruct (keep_list a b n); [|apply IH; auto].
  destruct (read_inv_list (N.to_nat n) input') as [(il & rest)|e|]; cbn [bind same_way]; auto.
  specialize (S i il). destruct (visit i il) as [(r & z)|e|], (visit' i il) as [(r' & z')|e'|];
    cbn [same_way bind fst snd] in *; auto; try contradiction.
  subst. apply IH.
Qed.

Theorem fast_reports_alike : forall fm junk junk' a b rank runs levelwise lw given input,
  same_way (fun r r' => snd r = snd r')
    (report_fast_tries fm junk a b rank runs levelwise lw given input)
    (report_fast_tries fm junk' a b rank runs levelwise lw given input).
Proof.
  intros. unfold report_fast_tries, report_file.
  destruct (read_le 4 input) as [(one & lists)|e|]; cbn [bind same_way]; auto.
  destruct (read_le 4 lists) as [(u & lists')|e|]; cbn [bind same_way]; auto.
  destruct (count_sets _ _ _ _ _) as [n|e|]; cbn [bind same_way]; auto.
  match goal with |- same_way _ (bind (report_loop ?f ?a ?b ?v ?l ?i ?o ?x ?y) _)
                                (bind (report_loop _ _ _ ?v' _ _ ?o' _ _) _) =>
    assert (H : same_way (fun r r' => snd r = snd r') (report_loop f a b v l i o x y) (report_loop f a b v' l i o' x y));
    [apply report_loop_same|destruct (report_loop f a b v l i o x y) as [(o1 & ((p & q) & r))|?|],
      (report_loop f a b v' l i o' x y) as [(o2 & ((p' & q') & r'))|?|]; cbn [same_way bind snd] in *; try contradiction; auto] end.
  - intros i il. cbv zeta. rewrite (fast_make_filled _ _ (j_hwr (junk i))), (fast_make_filled _ _ (j_hwr (junk' i))).
    rewrite !bind_assoc. destruct (fast_make u lw None None runs il) as [t|e|]; cbn [bind same_way snd]; auto.
  - injection H as -> -> ->. reflexivity.
Qed.

(** * Collections *)

Lemma stored_records : forall c u lw runs junk kept i,
  each_ok (stored c u lw runs junk) (indexed i kept)
  = records_of c u lw runs kept (map (fun k => (hwr_value (junk k), empty_value (junk k))) (seq i (length kept))).
Proof.
  intros c u lw runs junk. unfold records_of. induction kept as [|l kept IH]; intros i; [reflexivity|].
  cbn [indexed each_ok length seq map combine]. rewrite stored_filled, IH. reflexivity.
Qed.

Theorem fast_files : forall fm a b rank runs levelwise lw one u lists file,
  collection_ok one u lists ->
  let kept := kept_lists a b lists in
  (exists junk, junk_ok junk /\
     build_fast_tries fm junk a b rank runs levelwise lw (collection_file one u lists) = Ok file)
  <-> (exists held records, length held = length kept /\ Forall held_ok held /\
         records_of (fast_codecs fm rank) u lw runs kept held = Ok records /\
         file = fast_head rank runs levelwise lw (length kept) one u ++ concat records).
Proof.
  intros fm a b rank runs levelwise lw one u lists file C kept. split.
  - intros (junk & J & H). rewrite fast_build_spec in H by auto. fold kept in H. rewrite stored_records in H.
    apply bind_inv in H. destruct H as (rs & E & H). injection H as <-.
    eexists. exists rs. split; [|split; [|split; [exact E|]]].
    + rewrite map_length, seq_length. reflexivity.
    + apply Forall_forall. intros v Hv. apply in_map_iff in Hv. destruct Hv as (k & <- & _).
      destruct (J k) as (J1 & J2 & J3). split; cbn [fst snd].
      * unfold hwr_value. destruct (j_hwr (junk k)) eqn:Ej; auto.
      * unfold empty_value. destruct (j_empty (junk k)) as [[|]|]; auto; reflexivity.
    + unfold fast_head. rewrite <- !app_assoc. reflexivity.
  - intros (held & rs & L & O & E & ->).
    exists (fun k => let v := nth k held (0, 0)%N in mkJunk None None (fst v) (snd v)). split.
    + intros k. cbn. split; [intros h Eh; discriminate|].
      destruct (Nat.lt_ge_cases k (length held)) as [Hk|Hk].
      * rewrite Forall_forall in O. apply (O (nth k held (0, 0)%N)). apply nth_In. auto.
      * rewrite nth_overflow by lia. split; reflexivity.
    + rewrite fast_build_spec by auto. fold kept. rewrite stored_records.
      replace (map _ _) with held.
      { rewrite E. cbn [bind]. unfold fast_head. rewrite <- !app_assoc. reflexivity. }
      unfold hwr_value, empty_value. cbn [j_hwr j_empty j_hwr_bytes j_empty_byte].
      rewrite <- L. clear. apply (nth_ext _ _ (0, 0)%N (0, 0)%N); [rewrite map_length, seq_length; reflexivity|].
      intros n Hn. symmetry.
      rewrite (nth_indep _ _ ((fun k => (fst (nth k held (0, 0)%N), snd (nth k held (0, 0)%N))) 0))
        by (rewrite map_length, seq_length; auto).
      rewrite (map_nth (fun k => (fst (nth k held (0, 0)%N), snd (nth k held (0, 0)%N)))).
      rewrite seq_nth by auto. symmetry. apply surjective_pairing.
Qed.

Lemma serialize_byte4 : forall c h e t, x_empty_trie t = None ->
  nth_error (fst (fast_serialize c h e t)) 4 = Some (e mod 256)%N.
Proof. intros c h e t E. unfold fast_serialize. cbn [fst]. rewrite E. reflexivity. Qed.

Theorem fast_files_differ : forall fm a b rank runs levelwise lw one u lists,
  collection_ok one u lists -> fast_universe u lw ->
  Forall (fast_ok u) (kept_lists a b lists) -> kept_lists a b lists <> [] ->
  exists junk junk' file file', junk_ok junk /\ junk_ok junk' /\
    build_fast_tries fm junk a b rank runs levelwise lw (collection_file one u lists) = Ok file /\
    build_fast_tries fm junk' a b rank runs levelwise lw (collection_file one u lists) = Ok file' /\
    file <> file'.
Proof.
  intros fm a b rank runs levelwise lw one u lists C Hu K Ne.
  exists (fun _ => mkJunk None None 0 0), (fun _ => mkJunk None None 0 1).
  assert (J : forall e, (e < 256)%N -> junk_ok (fun _ => mkJunk None None 0 e)).
  { intros e He k. cbn. split; [discriminate|]. split; [reflexivity|auto]. }
  assert (J0 := J 0%N eq_refl). assert (J1 := J 1%N eq_refl). clear J.
  destruct (all_made u lw runs _ (fast_codecs fm rank) _ 0 Hu J0 K) as (_ & _ & bs & E0).
  destruct (all_made u lw runs _ (fast_codecs fm rank) _ 0 Hu J1 K) as (_ & _ & bs' & E1).
  eexists. eexists. split; [exact J0|]. split; [exact J1|].
  rewrite !fast_build_spec by auto. rewrite E0, E1. cbn [bind].
  split; [reflexivity|]. split; [reflexivity|].
  intros X. apply app_inv_head in X. rewrite !app_assoc in X. apply app_inv_head in X.
  destruct (kept_lists a b lists) as [|l kept]; [easy|]. cbn [indexed each_ok] in E0, E1.
  rewrite stored_filled in E0, E1.
  destruct (fast_make u lw None None runs l) as [t|e|] eqn:M; cbn [bind] in E0, E1; try discriminate.
  apply bind_inv in E0. destruct E0 as (r0 & _ & E0). apply bind_inv in E1. destruct E1 as (r1 & _ & E1).
  assert (F0 : bs = fst (fast_serialize (fast_codecs fm rank) 0 0 t) :: r0)
    by (symmetry; exact (f_equal (fun r => match r with Ok x => x | _ => [] end) E0)).
  assert (F1 : bs' = fst (fast_serialize (fast_codecs fm rank) 0 1 t) :: r1)
    by (symmetry; exact (f_equal (fun r => match r with Ok x => x | _ => [] end) E1)).
  rewrite F0, F1 in X. cbn [concat] in X. apply (f_equal (fun x => nth_error x 4)) in X.
  rewrite !nth_error_app1 in X by (eapply Nat.lt_le_trans; [|apply serialize_long]; lia).
  rewrite !serialize_byte4 in X by apply (made_unset _ _ _ _ _ M). discriminate.
Qed.

(** * Answers *)

Lemma made_alike : forall u lw runs junk junk' kept i ts ts',
  each_ok (made u lw runs junk) (indexed i kept) = Ok ts ->
  each_ok (made u lw runs junk') (indexed i kept) = Ok ts' ->
  Forall2 (fun t t' => fast_ops t = fast_ops t') ts ts'.
Proof.
  intros u lw runs junk junk'. induction kept as [|l kept IH]; intros i ts ts' E E'; cbn [indexed each_ok] in E, E'.
  - injection E as <-. injection E' as <-. constructor.
  - assert (D : forall jk, made u lw runs jk (i, l) = (let* t := fast_make u lw None None runs l in
                 Ok (filled (j_hwr (jk i)) (j_empty (jk i)) t))) by (intros; apply fast_make_filled).
    rewrite D in E, E'. clear D.
    destruct (fast_make u lw None None runs l) as [t|e|]; cbn [bind] in E, E'; try discriminate.
    apply bind_inv in E. destruct E as (r & Er & E). apply bind_inv in E'. destruct E' as (r' & Er' & E').
    injection E as <-. injection E' as <-. constructor; [|eapply IH; eauto].
    rewrite (fast_ops_refines _ _ (filled_refines (j_hwr (junk i)) (j_empty (junk i)) t)).
    rewrite (fast_ops_refines _ _ (filled_refines (j_hwr (junk' i)) (j_empty (junk' i)) t)). reflexivity.
Qed.

(** Two pointers to tries that answer alike, or two null pointers. *)
Definition alike (p p' : option fast) : Prop :=
  match p, p' with
  | Some t, Some t' => fast_ops t = fast_ops t'
  | None, None => True
  | _, _ => False
  end.

Lemma deref_alike : forall ps ps', Forall2 alike ps ps' ->
  (let* ts := each_ok deref ps in Ok (map fast_ops ts)) = (let* ts := each_ok deref ps' in Ok (map fast_ops ts)).
Proof.
  intros ps ps' H. induction H as [|p p' ps ps' Hp _ IH]; [reflexivity|]. cbn [each_ok].
  destruct p as [t|], p' as [t'|]; cbn [alike deref] in *; try contradiction; cbn [bind]; auto.
  destruct (each_ok deref ps) as [ts|e|], (each_ok deref ps') as [ts'|e'|]; cbn [bind map] in *; try congruence.
Qed.

Lemma repeat_same : forall f g, (forall rep, f rep = g rep) -> repeat_query f = repeat_query g.
Proof.
  intros f g E. unfold repeat_query. apply for_loop_ext. auto.
Qed.

Lemma map_queries_alike : forall tries tries' answer queries,
  (forall i, alike (trie_pointer tries i) (trie_pointer tries' i)) ->
  map_queries tries (fun nq rep ts => answer nq rep (map fast_ops ts)) queries
  = map_queries tries' (fun nq rep ts => answer nq rep (map fast_ops ts)) queries.
Proof.
  intros tries tries' answer queries A. unfold map_queries. generalize 0.
  induction queries as [|q qs IH]; intros nq; [reflexivity|]. cbn [run_queries].
  rewrite !each_ok_total. cbn [bind]. rewrite !map_length, IH.
  assert (D : forall rep, (let* ts := each_ok deref (map (trie_pointer tries) q) in answer nq rep (map fast_ops ts))
              = (let* ts := each_ok deref (map (trie_pointer tries') q) in answer nq rep (map fast_ops ts))).
  { intros rep.
    assert (F : Forall2 alike (map (trie_pointer tries) q) (map (trie_pointer tries') q)).
    { clear - A. induction q; cbn [map]; constructor; auto. }
    assert (X := f_equal (fun r => let* os := r in answer nq rep os) (deref_alike _ _ F)). cbv beta in X.
    rewrite !bind_assoc in X. exact X. }
  replace (repeat_query (fun rep => let* ts := each_ok deref (map (trie_pointer tries') q) in answer nq rep (map fast_ops ts)))
    with (repeat_query (fun rep => let* ts := each_ok deref (map (trie_pointer tries) q) in answer nq rep (map fast_ops ts)));
    [reflexivity|].
  apply repeat_same. auto.
Qed.

Theorem fast_answers_alike : forall fm junk junk' a b rank runs levelwise lw one u lists file file'
    blank blank' hc parallel sched queries,
  formats_ok fm -> collection_ok one u lists -> fast_universe u lw -> (rank < 2 ^ 32)%N -> rank <> 1%N ->
  junk_ok junk -> junk_ok junk' -> blank_ok blank -> blank_ok blank' ->
  Forall (fast_ok u) (kept_lists a b lists) ->
  build_fast_tries fm junk a b rank runs levelwise lw (collection_file one u lists) = Ok file ->
  build_fast_tries fm junk' a b rank runs levelwise lw (collection_file one u lists) = Ok file' ->
  fast_query_log fm blank sched hc parallel file queries
  = fast_query_log fm blank' sched hc parallel file' queries.
Proof.
  intros fm junk junk' a b rank runs levelwise lw one u lists file file' blank blank' hc parallel sched queries
    F C Hu Hr H1 J J' B B' K E E'.
  destruct (concat queries) as [|x0 l0] eqn:Eq.
  - destruct (kept_lists a b lists) as [|l1 kept] eqn:Ek.
    + rewrite fast_build_spec in E by auto. rewrite fast_build_spec in E' by auto. rewrite Ek in E, E'.
      cbn [indexed each_ok bind] in E, E'. assert (file' = file) by congruence. subst file'.
      unfold fast_query_log. destruct (read_fast_header file) as [((((rk & rs) & lv) & ws) & rest)|e|] eqn:Eh; cbn [bind]; auto.
      destruct (oget rs); cbn [bind]; auto.
      assert (Er : rest = le_bytes 4 0 ++ le_bytes 4 one ++ le_bytes 4 u).
      { apply (f_equal (fun r => match r with Ok x => x | _ => [] end)) in E. cbv beta iota in E.
        rewrite <- E in Eh. rewrite (fast_header rank runs levelwise lw) in Eh by (auto; apply Hu).
        cbn [length concat] in Eh. rewrite app_nil_r in Eh. injection Eh as _ _ _ _ Er. rewrite <- Er. reflexivity. }
      subst rest. destruct C as (C1 & C2 & _). unfold load_tries.
      rewrite read_le_app by reflexivity. cbn [bind]. rewrite read_le_app by auto. cbn [bind].
      rewrite <- (app_nil_r (le_bytes 4 u)), read_le_app by auto. reflexivity.
    + rewrite <- Ek in K.
      destruct (no_ids_out_of_bounds fm junk a b rank runs levelwise lw one u lists blank queries F C Hu Hr H1 J B K)
        as (f & rest & X1 & X2 & X3); [rewrite Ek; discriminate|auto|].
      destruct (no_ids_out_of_bounds fm junk' a b rank runs levelwise lw one u lists blank' queries F C Hu Hr H1 J' B' K)
        as (f' & rest' & Y1 & Y2 & Y3); [rewrite Ek; discriminate|auto|].
      assert (f = file) by congruence. assert (f' = file') by congruence. subst f f'.
      unfold fast_query_log. rewrite X2, Y2. cbn [bind oget]. rewrite word_log_wbits by apply Hu.
      rewrite X3, Y3. reflexivity.
  - assert (Nq : concat queries <> []) by (rewrite Eq; discriminate). clear Eq.
    destruct (fast_collection fm junk a b rank runs levelwise lw one u lists blank queries F C Hu Hr H1 J B K Nq)
      as (f & rest & ts & tries & X1 & X2 & X3 & X4 & X5 & X6 & X7).
    destruct (fast_collection fm junk' a b rank runs levelwise lw one u lists blank' queries F C Hu Hr H1 J' B' K Nq)
      as (f' & rest' & ts' & tries' & Y1 & Y2 & Y3 & Y4 & Y5 & Y6 & Y7).
    assert (f = file) by congruence. assert (f' = file') by congruence. subst f f'.
    unfold fast_query_log. rewrite X2, Y2. cbn [bind oget]. rewrite word_log_wbits by apply Hu.
    rewrite X3, Y3. cbn [bind].
    apply (map_queries_alike tries tries' (fun nq rep os =>
      Intersect (Fast lw) (fst (sched nq rep)) (snd (sched nq rep)) hc os runs parallel)).
    intros i. assert (M := made_alike _ _ _ _ _ _ _ _ _ X4 Y4).
    unfold trie_pointer.
    destruct (find (fun p => N.eqb (fst p) i) tries) as [(j & t)|] eqn:P, (find (fun p => N.eqb (fst p) i) tries') as [(j' & t')|] eqn:P';
      cbn [option_map snd alike]; auto.
    + apply find_some in P. apply find_some in P'. cbn [fst] in P, P'. destruct P as (P & Pj), P' as (P' & Pj').
      apply N.eqb_eq in Pj. apply N.eqb_eq in Pj'. subst j j'.
      destruct (X7 _ _ P) as (t0 & Z1 & Z2). destruct (Y7 _ _ P') as (t0' & Z1' & Z2').
      rewrite (fast_ops_refines _ _ Z2), (fast_ops_refines _ _ Z2'). clear - M Z1 Z1'.
      revert Z1 Z1'. generalize (N.to_nat i). induction M as [|s s' l l' Hs _ IH]; intros [|n] Z1 Z1'; cbn in *; try discriminate.
      * congruence.
      * eapply IH; eauto.
    + apply find_some in P. cbn [fst] in P. destruct P as (P & Pj). apply N.eqb_eq in Pj. subst j.
      apply (in_map fst) in P. cbn [fst] in P. apply X6 in P. apply Y6 in P. apply in_map_iff in P.
      destruct P as ((j & t') & <- & P). apply (find_none _ _ P') in P. cbn [fst] in P. rewrite N.eqb_refl in P. discriminate.
    + apply find_some in P'. cbn [fst] in P'. destruct P' as (P' & Pj). apply N.eqb_eq in Pj. subst j'.
      apply (in_map fst) in P'. cbn [fst] in P'. apply Y6 in P'. apply X6 in P'. apply in_map_iff in P'.
      destruct P' as ((j & t'') & <- & P''). apply (find_none _ _ P) in P''. cbn [fst] in P''. rewrite N.eqb_refl in P''. discriminate.
Qed.
