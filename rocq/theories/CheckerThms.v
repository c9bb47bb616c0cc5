(** The project's own intersection checkers. *)

From Coq Require Import Permutation.
From Verif Require Import Base FlatTrie LevelTrie FastTrie ParallelFor Intersection Tries Serialize
  Tools Facts Spec SpecTries SpecFiles SpecTools SerializeFacts SerializeSound SerializeThms
  InterThms InterLaws InterRefute ParForThms ToolsFacts ToolsThms FastToolsThms Reference
  ReferenceFacts Checker SpecChecker.

Lemma same_values_spec : forall a b, same_values a b = true <-> a = b.
Proof. intros a b. unfold same_values. destruct (list_eq_dec N.eq_dec a b); split; congruence. Qed.

(** The comparison stays inside the reference if that is at least as long. *)
Lemma show_differences_ok : forall rest ref i c, i + length rest <= length ref ->
  show_differences rest ref i c = Ok tt.
Proof.
  induction rest as [|x rest IH]; intros ref i c H; cbn [show_differences]; auto.
  cbn [length] in H. destruct (nth_error ref i) as [y|] eqn:E.
  - rewrite (vget_nth _ _ _ _ E). cbn [bind].
    destruct (N.eqb x y); [apply IH; lia|]. destruct (S c =? 10); auto. apply IH. lia.
  - apply nth_error_None in E. lia.
Qed.

Lemma both_spec : forall T (pick : N -> result T) (decode : T -> result (list N)) q ts ls,
  each_ok pick q = Ok ts -> each_ok decode ts = Ok ls ->
  exists both, each_ok (fun i => let* t := pick i in let* l := decode t in Ok (t, l)) q = Ok both /\
    map fst both = ts /\ map snd both = ls /\ length both = length q.
Proof.
  intros T pick decode q. induction q as [|i q IH]; intros ts ls E D; cbn [each_ok] in *.
  - injection E as <-. cbn in D. injection D as <-. exists []. auto.
  - apply bind_inv in E. destruct E as (t & Et & E). apply bind_inv in E. destruct E as (ts' & E' & E).
    injection E as <-. cbn [each_ok] in D. apply bind_inv in D. destruct D as (l & Dl & D).
    apply bind_inv in D. destruct D as (ls' & D' & D). injection D as <-.
    destruct (IH ts' ls' E' D') as (both & B1 & B2 & B3 & B4).
    rewrite Et. cbn [bind]. rewrite Dl. cbn [bind]. rewrite B1. cbn [bind].
    eexists. split; [reflexivity|]. cbn [map fst snd length]. rewrite B2, B3, B4. auto.
Qed.

Lemma is_inter_unique : forall ls r r', is_intersection ls r -> is_intersection ls r' -> r = r'.
Proof. intros ls r r'. apply inter_unique. tauto. Qed.

Lemma verdict_skip : forall good q queries v, 16 < length q ->
  verdict good queries v -> verdict good (q :: queries) v.
Proof.
  intros good q queries v H V. unfold verdict, short_queries in *. cbn [filter].
  destruct (Nat.leb_spec (length q) 16); [lia|auto].
Qed.

Lemma verdict_step : forall (good : nat -> list N -> Prop) q queries b n, length q <= 16 -> good 0 q ->
  verdict (fun k => good (S k)) queries (b, n) -> verdict good (q :: queries) (b, S n).
Proof.
  intros good q queries b n H G (V1 & V2). unfold verdict, short_queries in *. cbn [filter fst snd] in *.
  destruct (Nat.leb_spec (length q) 16); [|lia]. split.
  - intros [|k] q' Hk Hq; cbn [nth_error] in Hq; [congruence|]. apply (V1 k q'); auto. lia.
  - destruct b; [exact V2|]. cbn [length]. lia.
Qed.

Lemma verdict_fail : forall (good : nat -> list N -> Prop) q queries, length q <= 16 -> ~ good 0 q ->
  verdict good (q :: queries) (true, 0).
Proof.
  intros good q queries H G. unfold verdict, short_queries. cbn [filter fst snd].
  destruct (Nat.leb_spec (length q) 16); [|lia]. split; [intros; lia|]. exists q. split; auto.
Qed.

Lemma verdict_ext : forall (g g' : nat -> list N -> Prop) queries v,
  (forall k q, In q queries -> (g k q <-> g' k q)) -> verdict g queries v -> verdict g' queries v.
Proof.
  intros g g' queries v E (V1 & V2). split.
  - intros k q Hk Hq. apply E; [|auto]. apply nth_error_In in Hq. unfold short_queries in Hq.
    apply filter_In in Hq. tauto.
  - destruct (fst v); auto. destruct V2 as (q & Q1 & Q2). exists q. split; auto. rewrite <- E; auto.
    apply nth_error_In in Q1. unfold short_queries in Q1. apply filter_In in Q1. tauto.
Qed.

Theorem check_queries_spec : forall T (pick : N -> result T) decode answer sort (sets : list N -> list (list N)) queries nq,
  valid_sort sort ->
  Forall (fun q => exists ts, each_ok pick q = Ok ts /\ each_ok decode ts = Ok (sets q) /\
            (length q <= 16 -> q <> [] /\ length (sets q) = length q /\ Forall increasing (sets q) /\
               forall k, exists r, answer k ts = Ok r /\ NoDup r /\
                 forall x, In x r -> Forall (fun s => In x s) (sets q))) queries ->
  exists b n, check_queries pick decode answer sort nq queries = Ok (b, nq + n) /\
    verdict (fun k q => exists ts r, each_ok pick q = Ok ts /\ answer (nq + k) ts = Ok r /\
                          is_intersection (sets q) r) queries (b, n).
Proof.
  intros T pick decode answer sort sets queries nq V H. revert nq.
  induction H as [|q queries (ts & E1 & E2 & E3) _ IH]; intros nq; cbn [check_queries].
  - exists false, 0. rewrite Nat.add_0_r. split; auto. split; cbn; intros; [lia|auto].
  - destruct (both_spec _ _ _ _ _ _ E1 E2) as (both & B1 & B2 & B3 & B4).
    rewrite B1. cbn [bind]. rewrite B4, B2, B3. destruct (Nat.leb_spec (length q) 16) as [Hq|Hq].
    2: { destruct (IH nq) as (b & n & R & Vd). exists b, n. split; auto. apply verdict_skip; auto. }
    destruct (E3 Hq) as (Hne & Hlen & Hinc & Ha). destruct (Ha nq) as (r & Ar & Nd & Snd).
    rewrite Ar. cbn [bind].
    destruct (force_brute_ok sort (sets q) V) as (fb & S' & F1 & F2 & _); auto.
    { destruct q; [easy|]. destruct (sets (n :: q)); easy. }
    { rewrite Hlen. eapply N.le_lt_trans with (m := 16%N); [lia|reflexivity]. }
    rewrite F1. cbn [bind]. destruct (same_values r fb) eqn:Es.
    + apply same_values_spec in Es. subst fb. destruct (IH (S nq)) as (b & n & R & Vd).
      exists b, (S n). rewrite R. split; [f_equal; f_equal; lia|].
      apply verdict_step; auto.
      * exists ts, r. rewrite Nat.add_0_r. auto.
      * eapply verdict_ext; [|exact Vd]. intros k q' _. rewrite Nat.add_succ_r. reflexivity.
    + exists true, 0. rewrite show_differences_ok; cbn [bind].
      * rewrite Nat.add_0_r. split; auto. apply verdict_fail; auto.
        intros (ts' & r' & X1 & X2 & X3). rewrite Nat.add_0_r in X2. rewrite E1 in X1. injection X1 as <-.
        rewrite Ar in X2. injection X2 as <-. assert (r = fb) by eauto using is_inter_unique.
        apply same_values_spec in H. congruence.
      * cbn [Nat.add]. apply NoDup_incl_length; auto. intros x Hx. apply F2. auto.
Qed.

(** * Loading *)

Lemma load_wanted_spec : forall T (R : T -> T -> Prop) (load : list N -> result (T * list N)) bs ts rest i done todo acc,
  Forall2 (fun b t => forall tail, exists t', load (b ++ tail) = Ok (t', tail) /\ R t t') bs ts ->
  increasing todo -> todo <> [] -> Forall (fun x => (N.of_nat i <= x)%N) todo ->
  exists new, load_wanted load (length ts) (N.of_nat i) (done ++ todo) (length done) (concat bs ++ rest) acc
              = Ok (acc ++ new) /\
    map fst new = filter (fun x => N.ltb x (N.of_nat (i + length ts))) todo /\
    Forall (fun p => (N.of_nat i <= fst p)%N /\
                     exists t, nth_error ts (N.to_nat (fst p) - i) = Some t /\ R t (snd p)) new.
Proof.
  intros T R load bs ts rest i done todo acc F. revert i done todo acc.
  induction F as [|b t bs ts Hb _ IH]; intros i done todo acc Inc Hne Hge; cbn [length load_wanted].
  - exists []. rewrite app_nil_r. split; auto. split; [|constructor]. rewrite Nat.add_0_r. cbn [map].
    symmetry. clear - Hge. induction Hge; cbn [filter]; auto. destruct (N.ltb_spec x (N.of_nat i)); [lia|auto].
  - cbn [concat]. rewrite <- app_assoc. destruct (Hb (concat bs ++ rest)) as (t' & L & Rt). rewrite L. cbn [bind].
    destruct todo as [|x todo]; [easy|].
    assert (V : vget (done ++ x :: todo) (length done) = Ok x).
    { apply vget_nth. rewrite nth_error_app2, Nat.sub_diag; auto. }
    rewrite V. cbn [bind]. inversion Inc as [|? ? Inc' Hx]; subst. inversion Hge as [|? ? Hx0 Hge']; subst.
    replace (N.of_nat i + 1)%N with (N.of_nat (S i)) by lia.
    replace (i + S (length ts)) with (S i + length ts) by lia.
    assert (Shift : forall new : list (N * T),
      Forall (fun p => (N.of_nat (S i) <= fst p)%N /\
                exists t0, nth_error ts (N.to_nat (fst p) - S i) = Some t0 /\ R t0 (snd p)) new ->
      Forall (fun p => (N.of_nat i <= fst p)%N /\
                exists t0, nth_error (t :: ts) (N.to_nat (fst p) - i) = Some t0 /\ R t0 (snd p)) new).
    { intros new. apply Forall_impl. intros p (P1 & t0 & P2 & P3). split; [lia|]. exists t0. split; auto.
      replace (N.to_nat (fst p) - i) with (S (N.to_nat (fst p) - S i)) by lia. auto. }
    destruct (N.eqb_spec (N.of_nat i) x) as [<-|Hix].
    + cbn [filter]. replace (N.ltb (N.of_nat i) (N.of_nat (S i + length ts))) with true
        by (symmetry; apply N.ltb_lt; lia).
      assert (Here : (N.of_nat i <= N.of_nat i)%N /\
                exists t0, nth_error (t :: ts) (N.to_nat (N.of_nat i) - i) = Some t0 /\ R t0 t').
      { split; [lia|]. exists t. rewrite Nat2N.id, Nat.sub_diag. auto. }
      rewrite app_length. cbn [length]. destruct todo as [|y todo].
      * cbn [length]. replace (S (length done) =? length done + 1) with true by (symmetry; apply Nat.eqb_eq; lia).
        exists [(N.of_nat i, t')]. split; auto.
      * destruct (S (length done) =? length done + S (length (y :: todo))) eqn:EE;
          [apply Nat.eqb_eq in EE; cbn [length] in EE; lia|]. clear EE.
        destruct (IH (S i) (done ++ [N.of_nat i]) (y :: todo) (acc ++ [(N.of_nat i, t')]) Inc') as (new & N1 & N2 & N3).
        { discriminate. }
        { eapply Forall_impl; [|exact Hx]. cbn. intros. lia. }
        rewrite <- app_assoc, app_length in N1. cbn [app length] in N1.
        replace (length done + 1) with (S (length done)) in N1 by lia.
        exists ((N.of_nat i, t') :: new). split; [|split].
        -- rewrite N1, <- app_assoc. reflexivity.
        -- cbn [map fst]. f_equal. auto.
        -- constructor; auto.
    + destruct (IH (S i) done (x :: todo) acc Inc) as (new & N1 & N2 & N3); auto.
      { constructor; [lia|]. rewrite Forall_forall in *. intros y Hy. specialize (Hx y Hy). lia. }
      exists new. split; auto.
Qed.

Lemma wanted_In : forall T (tries : list (N * T)) i, In i (map fst tries) ->
  exists t, wanted_trie tries i = Ok t /\ In (i, t) tries.
Proof.
  intros T tries i H. unfold wanted_trie. destruct (find (fun p => N.eqb (fst p) i) tries) as [(j, t)|] eqn:E.
  - apply find_some in E. cbn [fst snd] in *. destruct E as (E1 & E2). apply N.eqb_eq in E2. subst. eauto.
  - exfalso. apply in_map_iff in H. destruct H as ((j, t) & <- & H). apply (find_none _ _ E) in H.
    cbn [fst] in H. rewrite N.eqb_refl in H. discriminate.
Qed.

Lemma wanted_notIn : forall T (tries : list (N * T)) i, ~ In i (map fst tries) ->
  wanted_trie tries i = UB NullDeref.
Proof.
  intros T tries i H. unfold wanted_trie. destruct (find (fun p => N.eqb (fst p) i) tries) as [(j, t)|] eqn:E; auto.
  apply find_some in E. cbn [fst] in E. destruct E as (E1 & E2). apply N.eqb_eq in E2. subst.
  exfalso. apply H. apply (in_map fst) in E1. exact E1.
Qed.

Lemma concat_ids : forall kept queries, queries <> [] -> Forall (query_ok kept) queries -> concat queries <> [].
Proof. intros kept queries Hne Q. destruct queries as [|q qs]; [easy|]. inversion Q as [|? ? (Hq & _) _]; subst. destruct q; easy. Qed.

(** The file written by build_tries, as the checker reads it. *)
Theorem check_collection_reads : forall fm a b rank block runs levelwise one u lists sched hc sort queries,
  formats_ok fm -> collection_ok one u lists -> (2 <= u)%N ->
  loadable_options rank block levelwise ->
  Forall (stored_ok u (built_variant rank levelwise) runs) (kept_lists a b lists) ->
  exists file ts,
    build_tries fm a b rank block runs levelwise (collection_file one u lists) = Ok file /\
    each_ok (bin_make u (built_variant rank levelwise) runs) (kept_lists a b lists) = Ok ts /\
    each_ok (fun t => bin_decode t []) ts = Ok (kept_lists a b lists) /\
    (concat queries = [] -> kept_lists a b lists <> [] ->
       check_collection fm sched hc sort file queries = UB OutOfBounds) /\
    (concat queries <> [] -> exists tries,
       check_collection fm sched hc sort file queries
       = check_queries (wanted_trie tries) (fun t => bin_decode t [])
           (fun nq ts => Intersect Bin (fst (sched nq)) (snd (sched nq)) hc (map bin_ops ts) runs true)
           sort 0 queries /\
       (forall i, In i (map fst tries) <->
          In i (concat queries) /\ (i < N.of_nat (length (kept_lists a b lists)))%N) /\
       (forall i t, In (i, t) tries -> nth_error ts (N.to_nat i) = Some t)).
Proof.
  intros fm a b rank block runs levelwise one u lists sched hc sort queries F C Hu2 O K.
  assert (Hu : (2 <= u <= 2 ^ 48)%N).
  { split; auto. destruct C as (_ & C & _). apply N.lt_le_incl. eapply N.lt_trans; [exact C|reflexivity]. }
  destruct (loaded_object_spec fm rank block levelwise F O) as (old & Eo & Hold & Hc & Hv).
  set (v := built_variant rank levelwise) in *. set (c := built_codecs fm rank block) in *.
  set (kept := kept_lists a b lists) in *.
  assert (M : exists ts, each_ok (bin_make u v runs) kept = Ok ts /\
            Forall2 (fun l t => bin_make u v runs l = Ok t /\ bin_decode t [] = Ok l /\
                       exists bytes, bin_serialize c t = Ok (bytes, N.of_nat (length bytes)) /\
                         forall rest, exists t', bin_load c old (bytes ++ rest) = Ok (t', rest) /\ t = t') kept ts).
  { apply each_ok_Forall. rewrite Forall_forall in *. intros l Hl.
    destruct (bin_made u v runs l Hu (K l Hl)) as (t & H1 & H2 & H3 & H4 & H5).
    destruct (stored_set c u v runs l old [] Hc Hv Hu (K l Hl) Hold) as (t0 & bytes & E1 & E2 & E3 & E4).
    rewrite H1 in E1. injection E1 as <-. exists t. split; auto. split; auto. split; auto.
    exists bytes. split; auto. intros rest.
    destruct (serialization_round_trip c u v runs l t old rest Hc Hv H1 H2) as (b' & S1 & S2).
    { destruct v, t, old; cbn in *; try easy. congruence. }
    rewrite E2 in S1. injection S1 as <-. eauto. }
  destruct M as (ts & Ets & Fts).
  assert (B : exists bs, Forall2 (fun t b => bin_serialize c t = Ok (b, N.of_nat (length b))) ts bs /\
              Forall2 (fun b t => forall tail, exists t', bin_load c old (b ++ tail) = Ok (t', tail) /\ t = t') bs ts).
  { clear - Fts. induction Fts as [|l t kept ts (_ & _ & bytes & E & L) _ (bs & IH1 & IH2)]; [exists []; split; constructor|].
    exists (bytes :: bs). split; constructor; auto. }
  destruct B as (bs & Fbs & Lbs).
  assert (S : each_ok (fun p : nat * list N =>
                (fun u (_ : nat) il => let* t := bin_make u v runs il in
                   let* (bytes, _) := bin_serialize c t in Ok bytes) u (fst p) (snd p)) (indexed 0 kept) = Ok bs).
  { clear - Ets Fbs. revert ts bs Ets Fbs. generalize 0 as n.
    induction kept as [|l kept IH]; intros n ts bs E F; cbn [each_ok indexed] in *.
    - injection E as <-. inversion F. auto.
    - apply bind_inv in E; destruct E as (t0 & H & E); apply bind_inv in E; destruct E as (ts0 & Hts & E). injection E as <-. inversion F as [|t1 b1 ts' bs' Eb F']; subst. cbn [fst snd].
      rewrite H. cbn [bind]. rewrite Eb. cbn [bind]. erewrite IH; eauto. reflexivity. }
  assert (D : each_ok (fun t => bin_decode t []) ts = Ok kept).
  { clear - Fts. induction Fts as [|l t kept ts (_ & E & _) _ IH]; auto. cbn [each_ok]. rewrite E, IH. auto. }
  assert (Ln : length ts = length kept) by (apply each_ok_length in Ets; auto).
  eexists. exists ts. split.
  { unfold build_tries. rewrite build_file_spec by eauto. fold v c kept.
    cbv beta in S. rewrite S. cbn [bind]. reflexivity. }
  split; auto. split; auto.
  assert (Kc := kept_count a b one u lists C). destruct C as (C1 & C2 & _). destruct O as (O1 & Hb & _).
  assert (H : forall qs, check_collection fm sched hc sort
     ((le_bytes 4 rank ++ (if N.eqb rank 1 then le_bytes 4 block else []) ++ [bool_byte runs] ++ [bool_byte levelwise])
      ++ le_bytes 4 (N.of_nat (length kept)) ++ le_bytes 4 one ++ le_bytes 4 u ++ concat bs) qs
     = let* tries := load_wanted (bin_load c old) (length kept) 0 (set_indexes qs) 0 (concat bs) [] in
       check_queries (wanted_trie tries) (fun t => bin_decode t [])
           (fun nq ts => Intersect Bin (fst (sched nq)) (snd (sched nq)) hc (map bin_ops ts) runs true)
           sort 0 qs).
  { intros qs. unfold check_collection. rewrite <- !app_assoc. rewrite read_le_app by auto. cbn [bind].
    assert (X : forall rest, (if N.eqb rank 1 then read_le 4 ((if N.eqb rank 1 then le_bytes 4 block else []) ++ rest)
                 else Ok (512%N, (if N.eqb rank 1 then le_bytes 4 block else []) ++ rest))
              = Ok (if N.eqb rank 1 then block else 512%N, rest)).
    { intros. destruct (N.eqb rank 1); auto. apply read_le_app. auto. }
    rewrite X. cbn [bind]. rewrite read_bool_app. cbn [bind]. rewrite read_bool_app. cbn [bind].
    rewrite read_le_app by auto. cbn [bind]. rewrite read_le_app by auto. cbn [bind].
    rewrite read_le_app by auto. cbn [bind]. rewrite Eo, Nat2N.id. cbn [bind]. reflexivity. }
  split.
  - intros Hq Hne. rewrite H. unfold set_indexes. rewrite Hq. cbn [fold_right].
    assert (X : ts <> []) by (intros E; rewrite E in Ln; destruct kept; easy).
    destruct Lbs as [|b0 t0 bs' ts' Hb0 Lbs]; [easy|].
    destruct kept as [|l kept']; [easy|]. cbn [length load_wanted concat].
    destruct (Hb0 (concat bs')) as (t' & L & _). rewrite L. reflexivity.
  - intros Hq. destruct (set_indexes_spec queries) as (S1 & S2).
    assert (Sne : set_indexes queries <> []).
    { intros E. destruct (concat queries) as [|x l]; [easy|]. assert (X := proj2 (S2 x) (or_introl eq_refl)). rewrite E in X. easy. }
    destruct (load_wanted_spec _ (fun t t' => t = t') (bin_load c old) bs ts [] 0 [] (set_indexes queries) [] Lbs S1 Sne)
      as (new & N1 & N2 & N3).
    { apply Forall_forall. intros. change (N.of_nat 0) with 0%N. lia. }
    cbn [app length] in N1. rewrite Ln, app_nil_r in N1. change (N.of_nat 0) with 0%N in N1.
    exists new. split; [rewrite H, N1; reflexivity|]. split.
    + intros i. rewrite N2, filter_In, S2, Ln. cbn [Nat.add]. rewrite N.ltb_lt. tauto.
    + intros i t Hi. rewrite Forall_forall in N3. destruct (N3 _ Hi) as (_ & t0 & Q1 & Q2).
      cbn [fst snd] in *. rewrite Nat.sub_0_r in Q1. congruence.
Qed.

(** The tries a query takes from the map. *)
Lemma wanted_pick : forall T (f : list N -> result T) kept ts tries q,
  each_ok f kept = Ok ts ->
  (forall i, In i q -> In i (map fst tries)) ->
  (forall i t, In (i, t) tries -> nth_error ts (N.to_nat i) = Some t) ->
  Forall (fun i => (i < N.of_nat (length kept))%N) q ->
  exists qs, each_ok (wanted_trie tries) q = Ok qs /\ each_ok f (lists_at kept q) = Ok qs.
Proof.
  intros T f kept ts tries q E Hin Hnth Hq.
  destruct (pick_spec _ f kept ts q E Hq) as (qs & P1 & P2). exists qs. split; auto.
  rewrite <- P1. apply each_ok_ext. intros i Hi. destruct (wanted_In _ tries i (Hin i Hi)) as (t & W1 & W2).
  rewrite W1. symmetry. unfold vgetN. rewrite Forall_forall in Hq. specialize (Hq i Hi).
  assert (L := each_ok_length _ _ _ _ _ E).
  destruct (N.ltb_spec i (N.of_nat (length ts))); [|lia].
  apply vget_nth. auto.
Qed.

Lemma decode_at : forall T (f : list N -> result T) decode kept ts q qs,
  each_ok f kept = Ok ts -> each_ok decode ts = Ok kept ->
  Forall (fun i => (i < N.of_nat (length kept))%N) q ->
  each_ok f (lists_at kept q) = Ok qs -> each_ok decode qs = Ok (lists_at kept q).
Proof.
  intros T f decode kept ts q qs E D Hq. revert qs. induction Hq as [|i q Hi _ IH]; intros qs Q; unfold lists_at in *; cbn [map each_ok] in *.
  - injection Q as <-. reflexivity.
  - apply bind_inv in Q. destruct Q as (t & Et & Q). apply bind_inv in Q. destruct Q as (qs' & Q' & Q). injection Q as <-.
    cbn [each_ok]. rewrite (IH _ Q').
    assert (Hn : nth_error kept (N.to_nat i) = Some (nth (N.to_nat i) kept [])) by (apply nth_error_nth'; lia).
    destruct (each_ok_nth _ _ _ _ _ _ _ E Hn) as (t1 & T1 & T2). rewrite Et in T1. injection T1 as <-.
    destruct (each_ok_nth _ _ _ _ _ _ _ D T2) as (l1 & L1 & L2). rewrite Hn in L2. injection L2 as <-.
    rewrite L1. reflexivity.
Qed.

(** What the parallel mode gives for tries of one collection. *)
Lemma bin_parallel_sound : forall u v runs hc s1 s2 kept q qs,
  (2 <= u <= 2 ^ 48)%N -> (1 <= hc < 2 ^ 16)%N -> (3 <= u \/ hc <= 3)%N ->
  valid_scheduler s1 -> valid_scheduler s2 ->
  Forall (stored_ok u v runs) kept -> query_ok kept q -> length q <= 16 ->
  each_ok (bin_make u v runs) (lists_at kept q) = Ok qs ->
  exists r, Intersect Bin s1 s2 hc (map bin_ops qs) runs true = Ok r /\ NoDup r /\
    (forall x, In x r -> Forall (fun s => In x s) (lists_at kept q)) /\
    (runs = false -> is_intersection (lists_at kept q) r).
Proof.
  intros u v runs hc s1 s2 kept q qs Hu Hhc H3 V1 V2 K Hq Hl E.
  destruct Hq as (Hne & Hlt). assert (K' := Forall_lists_at _ _ _ K Hlt).
  destruct runs.
  - destruct (bin_par_runs_sound u (map (fun s => (v, true, s)) (lists_at kept q)) hc s1 s2 Hu)
      as (Ts & r & X1 & X2 & X3 & X4); auto.
    { unfold lists_at. rewrite !map_length. destruct q; [easy|]. cbn [length] in *. lia. }
    { clear - K'. induction K'; constructor; auto. }
    rewrite each_ok_map in X1. unfold make_bitem in X1. cbn [fst snd] in X1.
    change (each_ok (bin_make u v true) (lists_at kept q) = Ok Ts) in X1.
    rewrite E in X1. injection X1 as <-. rewrite map_map, map_id in X4. exists r. repeat split; auto; discriminate.
  - destruct (bin_answer u v false true hc (fun _ _ => (s1, s2)) kept q qs) with (nq := 0) (rep := 0)
      as (r & R1 & R2); auto.
    { split; [lia|]. intros _. split; [lia|]. split; [tauto|]. split; [discriminate|auto]. }
    { split; auto. }
    exists r. cbn [fst snd] in R1. split; auto. assert (R2' := R2). destruct R2' as (I1 & I2).
    split; [|split; auto; intros x Hx; apply I2; auto].
    clear - I1. unfold increasing in I1. induction I1 as [|x l Hl IH Hx]; constructor; auto.
    intros Hin. rewrite Forall_forall in Hx. specialize (Hx x Hin). lia.
Qed.

(** ** C63 *)

Theorem checker_verdict : forall fm a b rank block runs levelwise one u lists hc sched sort queries,
  formats_ok fm -> collection_ok one u lists -> (2 <= u)%N ->
  loadable_options rank block levelwise ->
  Forall (stored_ok u (built_variant rank levelwise) runs) (kept_lists a b lists) ->
  (1 <= hc < 2 ^ 16)%N -> (3 <= u \/ hc <= 3)%N ->
  (forall nq, valid_scheduler (fst (sched nq)) /\ valid_scheduler (snd (sched nq))) -> valid_sort sort ->
  queries <> [] -> Forall (query_ok (kept_lists a b lists)) queries ->
  exists file v,
    build_tries fm a b rank block runs levelwise (collection_file one u lists) = Ok file /\
    check_collection fm sched hc sort file queries = Ok v /\
    verdict (fun k q => exists r,
      (let* ts := each_ok (bin_make u (built_variant rank levelwise) runs) (lists_at (kept_lists a b lists) q) in
       Intersect Bin (fst (sched k)) (snd (sched k)) hc (map bin_ops ts) runs true) = Ok r /\
      is_intersection (lists_at (kept_lists a b lists) q) r) queries v /\
    (runs = false -> v = (false, length (short_queries queries))).
Proof.
  intros fm a b rank block runs levelwise one u lists hc sched sort queries F C Hu2 O K Hhc H3 Hs V Hne Q.
  assert (Hu : (2 <= u <= 2 ^ 48)%N).
  { split; auto. destruct C as (_ & C & _). apply N.lt_le_incl. eapply N.lt_trans; [exact C|reflexivity]. }
  destruct (check_collection_reads fm a b rank block runs levelwise one u lists sched hc sort queries F C Hu2 O K)
    as (file & ts & E1 & E2 & E3 & _ & E5).
  destruct (E5 (concat_ids _ _ Hne Q)) as (tries & T1 & T2 & T3).
  set (v := built_variant rank levelwise) in *. set (kept := kept_lists a b lists) in *.
  assert (P : Forall (fun q => exists qs, each_ok (wanted_trie tries) q = Ok qs /\
                each_ok (bin_make u v runs) (lists_at kept q) = Ok qs) queries).
  { rewrite Forall_forall in *. intros q Hq. apply wanted_pick with (ts := ts); auto; [|apply Q; auto].
    intros i Hi. apply T2. split; [apply in_concat; eauto|]. destruct (Q q Hq) as (_ & Q'). rewrite Forall_forall in Q'. auto. }
  destruct (check_queries_spec _ (wanted_trie tries) (fun t => bin_decode t [])
    (fun nq ts => Intersect Bin (fst (sched nq)) (snd (sched nq)) hc (map bin_ops ts) runs true)
    sort (lists_at kept) queries 0 V) as (bb & n & R1 & R2).
  { rewrite Forall_forall in *. intros q Hq. destruct (P q Hq) as (qs & P1 & P2). exists qs.
    assert (Qq := Q q Hq). assert (Qq' := Qq). destruct Qq' as (Q1 & Q2).
    split; auto. split; [eapply decode_at; eauto|].
    intros Hl. split; auto. split; [unfold lists_at; apply map_length|].
    assert (K' : Forall (stored_ok u v runs) kept) by (apply Forall_forall; auto).
    split.
    { eapply Forall_impl; [|exact (Forall_lists_at _ _ _ K' Q2)]. intros s (Hs' & _). apply Hs'. }
    intros k. destruct (bin_parallel_sound u v runs hc (fst (sched k)) (snd (sched k)) kept q qs) as (r & A1 & A2 & A3 & _); auto; try apply Hs.
    exists r. auto. }
  cbn [Nat.add] in R1, R2. exists file, (bb, n). split; auto. split; [rewrite T1; auto|].
  assert (Vd : verdict (fun k q => exists r,
      (let* ts := each_ok (bin_make u v runs) (lists_at kept q) in
       Intersect Bin (fst (sched k)) (snd (sched k)) hc (map bin_ops ts) runs true) = Ok r /\
      is_intersection (lists_at kept q) r) queries (bb, n)).
  { eapply verdict_ext; [|exact R2]. intros k q Hq. rewrite Forall_forall in P. destruct (P q Hq) as (qs & P1 & P2).
    rewrite P2. cbn [bind]. split.
    - intros (ts' & r & X1 & X2 & X3). rewrite P1 in X1. injection X1 as <-. eauto.
    - intros (r & X1 & X2). eauto. }
  split; auto. intros ->. destruct Vd as (_ & Vd). cbn [fst snd] in Vd. destruct bb; [|congruence].
  exfalso. destruct Vd as (q & Vq & Vn). apply nth_error_In in Vq. unfold short_queries in Vq.
  apply filter_In in Vq. destruct Vq as (Hq & Hl). apply Nat.leb_le in Hl.
  rewrite Forall_forall in P, Q. destruct (P q Hq) as (qs & P1 & P2).
  destruct (bin_parallel_sound u v false hc (fst (sched n)) (snd (sched n)) kept q qs) as (r & A1 & A2 & A3 & A4); auto; try apply Hs.
  apply Vn. exists r. rewrite P2. cbn [bind]. split; auto.
Qed.

(** An id that no list has. *)
Theorem checker_unknown_id : forall fm a b rank block runs levelwise one u lists hc sched sort q queries,
  formats_ok fm -> collection_ok one u lists -> (2 <= u)%N ->
  loadable_options rank block levelwise ->
  Forall (stored_ok u (built_variant rank levelwise) runs) (kept_lists a b lists) ->
  Exists (fun i => (N.of_nat (length (kept_lists a b lists)) <= i)%N) q ->
  exists file,
    build_tries fm a b rank block runs levelwise (collection_file one u lists) = Ok file /\
    check_collection fm sched hc sort file (q :: queries) = UB NullDeref.
Proof.
  intros fm a b rank block runs levelwise one u lists hc sched sort q queries F C Hu2 O K X.
  destruct (check_collection_reads fm a b rank block runs levelwise one u lists sched hc sort (q :: queries) F C Hu2 O K)
    as (file & ts & E1 & E2 & E3 & _ & E5).
  exists file. split; auto. destruct E5 as (tries & T1 & T2 & T3).
  { destruct q; [inversion X|discriminate]. }
  rewrite T1. cbn [check_queries].
  assert (Y : each_ok (fun i => let* t := wanted_trie tries i in let* l := bin_decode t [] in Ok (t, l)) q = UB NullDeref);
    [|rewrite Y; reflexivity].
  assert (T2' : forall i, In i q -> (i < N.of_nat (length (kept_lists a b lists)))%N -> In i (map fst tries)).
  { intros i Hi Hlt. apply T2. split; auto. cbn [concat]. apply in_or_app. auto. }
  assert (T4 : forall i, (N.of_nat (length (kept_lists a b lists)) <= i)%N -> ~ In i (map fst tries)).
  { intros i Hi Hin. apply T2 in Hin. lia. }
  clear - X T2' T4 T3 E3. induction q as [|i q IH]; [inversion X|]. cbn [each_ok].
  destruct (N.ltb_spec i (N.of_nat (length (kept_lists a b lists)))) as [Hi|Hi].
  - destruct (wanted_In _ tries i) as (t & W1 & W2); [apply T2'; auto; left; auto|].
    rewrite W1. cbn [bind].
    destruct (each_ok_nth _ _ _ _ _ _ _ E3 (T3 _ _ W2)) as (l & L1 & _). rewrite L1. cbn [bind].
    inversion X as [? ? Y|? ? Y]; subst; [lia|]. rewrite IH; auto. intros. apply T2'; auto. right; auto.
  - rewrite (wanted_notIn _ _ _ (T4 i Hi)). reflexivity.
Qed.

(** No id at all, and a line without ids. *)
Theorem checker_no_ids : forall fm a b rank block runs levelwise one u lists hc sched sort queries,
  formats_ok fm -> collection_ok one u lists -> (2 <= u)%N ->
  loadable_options rank block levelwise ->
  Forall (stored_ok u (built_variant rank levelwise) runs) (kept_lists a b lists) ->
  kept_lists a b lists <> [] -> queries <> [] -> (concat queries = [] \/ hd [] queries = []) ->
  exists file,
    build_tries fm a b rank block runs levelwise (collection_file one u lists) = Ok file /\
    check_collection fm sched hc sort file queries = UB OutOfBounds.
Proof.
  intros fm a b rank block runs levelwise one u lists hc sched sort queries F C Hu2 O K Hk Hne X.
  destruct (check_collection_reads fm a b rank block runs levelwise one u lists sched hc sort queries F C Hu2 O K)
    as (file & ts & E1 & E2 & E3 & E4 & E5).
  exists file. split; auto. destruct (concat queries) as [|x xs] eqn:Ec; [apply E4; auto|].
  destruct X as [X|X]; [discriminate|]. destruct (E5 ltac:(discriminate)) as (tries & T1 & _).
  rewrite T1. destruct queries as [|q queries]; [easy|]. cbn [hd] in X. subst q.
  cbn [check_queries each_ok bind length]. change (0 <=? 16) with true. cbv iota. cbn [map].
  reflexivity.
Qed.
