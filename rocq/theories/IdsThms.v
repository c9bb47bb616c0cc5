(** Ids of the lists of a collection: proofs. *)

From Verif Require Import Base FastTrie ParallelFor Intersection Tries Serialize SerializeFacts Tools
  Spec SpecTries SpecFiles SpecTools SpecIds ToolsFacts ToolsThms FastToolsThms InterExact.

Section Ids.

Variables a b : N.

Let kb (l : list N) : bool := (N.ltb a (N.of_nat (length l)) && N.leb (N.of_nat (length l)) b)%bool.

Lemma kb_kept : forall l, kb l = true <-> is_kept a b l.
Proof. intros. unfold kb, is_kept. rewrite andb_true_iff, N.ltb_lt, N.leb_le. tauto. Qed.

Lemma kept_app : forall l1 l2, kept_lists a b (l1 ++ l2) = kept_lists a b l1 ++ kept_lists a b l2.
Proof. intros. apply filter_app. Qed.

Lemma kept_drop : forall l1 l l2, ~ is_kept a b l ->
  kept_lists a b (l1 ++ l :: l2) = kept_lists a b (l1 ++ l2).
Proof.
  intros. rewrite !kept_app. f_equal. unfold kept_lists. cbn [filter].
  change ((N.ltb a (N.of_nat (length l)) && N.leb (N.of_nat (length l)) b)%bool) with (kb l).
  destruct (kb l) eqn:E; auto. apply kb_kept in E. tauto.
Qed.

Lemma kept_le : forall l, length (kept_lists a b l) <= length l.
Proof.
  intros. unfold kept_lists. induction l; cbn [filter length]; auto. destruct (_ && _)%bool; cbn [length]; lia.
Qed.

Lemma kept_all : forall l, Forall (is_kept a b) l -> kept_lists a b l = l.
Proof.
  induction 1 as [|x l H _ IH]; auto. unfold kept_lists in *. cbn [filter].
  change ((N.ltb a (N.of_nat (length x)) && N.leb (N.of_nat (length x)) b)%bool) with (kb x).
  apply kb_kept in H. rewrite H, IH. reflexivity.
Qed.

Lemma kept_lt : forall l, Exists (fun x => ~ is_kept a b x) l -> length (kept_lists a b l) < length l.
Proof.
  induction 1 as [x l H|x l _ IH]; unfold kept_lists in *; cbn [filter];
    change ((N.ltb a (N.of_nat (length x)) && N.leb (N.of_nat (length x)) b)%bool) with (kb x);
    destruct (kb x) eqn:E; cbn [length]; try lia.
  - apply kb_kept in E. tauto.
  - assert (H' := kept_le l). unfold kept_lists in H'. lia.
Qed.

Lemma has_id_split : forall lists p i, has_id a b lists p i ->
  exists l1 l l2, lists = l1 ++ l :: l2 /\ length l1 = N.to_nat p /\ is_kept a b l /\
    length (kept_lists a b l1) = N.to_nat i.
Proof.
  intros lists p i ((l & H1 & H2) & H3). destruct (nth_error_split _ _ H1) as (l1 & l2 & -> & E).
  exists l1, l, l2. split; auto. split; auto. split; auto.
  rewrite <- E, firstn_app, firstn_all, Nat.sub_diag, firstn_O, app_nil_r in H3. lia.
Qed.

Lemma has_id_nth : forall lists p i, has_id a b lists p i ->
  (i < N.of_nat (length (kept_lists a b lists)))%N /\
  nth (N.to_nat i) (kept_lists a b lists) [] = nth (N.to_nat p) lists [].
Proof.
  intros lists p i H. destruct (has_id_split _ _ _ H) as (l1 & l & l2 & -> & E1 & K & E2).
  assert (X : kept_lists a b (l1 ++ l :: l2) = kept_lists a b l1 ++ l :: kept_lists a b l2).
  { rewrite kept_app. f_equal. unfold kept_lists. cbn [filter].
    change ((N.ltb a (N.of_nat (length l)) && N.leb (N.of_nat (length l)) b)%bool) with (kb l).
    apply kb_kept in K. rewrite K. reflexivity. }
  rewrite X, <- E1, <- E2, !nth_middle. split; auto. rewrite app_length. cbn [length]. lia.
Qed.

(** Every id has a position, not before it, and after it if some list was left out. *)
Lemma position_exists : forall lists i, i < length (kept_lists a b lists) ->
  exists p, has_id a b lists (N.of_nat p) (N.of_nat i).
Proof.
  induction lists as [|l lists IH]; intros i Hi; [cbn in Hi; lia|].
  destruct (kb l) eqn:E.
  - assert (K : kept_lists a b (l :: lists) = l :: kept_lists a b lists).
    { unfold kept_lists. cbn [filter]. fold (kb l). rewrite E. reflexivity. }
    destruct i as [|i].
    + exists 0. split; [|reflexivity]. exists l. split; auto. apply kb_kept; auto.
    + rewrite K in Hi. cbn [length] in Hi. destruct (IH i ltac:(lia)) as (p & (x & X1 & X2) & X3).
      rewrite Nat2N.id in *. exists (S p). split.
      * exists x. rewrite Nat2N.id. cbn [nth_error]. auto.
      * rewrite Nat2N.id. cbn [firstn]. unfold kept_lists in *. cbn [filter]. fold (kb l). rewrite E.
        cbn [length]. lia.
  - assert (K : kept_lists a b (l :: lists) = kept_lists a b lists).
    { unfold kept_lists. cbn [filter]. fold (kb l). rewrite E. reflexivity. }
    rewrite K in Hi. destruct (IH i Hi) as (p & (x & X1 & X2) & X3).
    rewrite Nat2N.id in *. exists (S p). split.
    + exists x. rewrite Nat2N.id. cbn [nth_error]. auto.
    + rewrite Nat2N.id. cbn [firstn]. unfold kept_lists in *. cbn [filter]. fold (kb l). rewrite E. auto.
Qed.

Lemma shifted_later : forall lists i p, shifted a b lists i -> has_id a b lists p i -> (i < p)%N.
Proof.
  intros lists i p (Hi & Sh) H. destruct (has_id_split _ _ _ H) as (l1 & l & l2 & -> & E1 & K & E2).
  destruct (N.ltb_spec i p) as [|Hle]; auto. exfalso.
  assert (L := kept_le l1).
  assert (p = i) by lia. subst p.
  assert (X : firstn (S (N.to_nat i)) (l1 ++ l :: l2) = l1 ++ [l]).
  { rewrite <- E1. replace (S (length l1)) with (length (l1 ++ [l])) by (rewrite app_length; cbn; lia).
    replace (l1 ++ l :: l2) with ((l1 ++ [l]) ++ l2) by (rewrite <- app_assoc; reflexivity).
    rewrite firstn_app, firstn_all, Nat.sub_diag, firstn_O, app_nil_r. reflexivity. }
  rewrite X in Sh. apply Exists_app in Sh. destruct Sh as [Sh|Sh].
  - apply kept_lt in Sh. lia.
  - inversion Sh as [? ? Q|? ? Q]; subst; [tauto|inversion Q].
Qed.

Lemma unshifted_id : forall lists p, (p < N.of_nat (length lists))%N ->
  Forall (is_kept a b) (firstn (S (N.to_nat p)) lists) -> has_id a b lists p p.
Proof.
  intros lists p Hp F.
  assert (E : firstn (S (N.to_nat p)) lists = firstn (N.to_nat p) lists ++ [nth (N.to_nat p) lists []]).
  { assert (Hn : N.to_nat p < length lists) by lia. revert Hn. generalize (N.to_nat p). clear.
    induction lists as [|x lists IH]; intros n Hn; [cbn in Hn; lia|]. destruct n as [|n]; auto.
    cbn [firstn app nth]. f_equal. apply IH. cbn [length] in Hn. lia. }
  rewrite E in F. apply Forall_app in F. destruct F as (F1 & F2). split.
  - exists (nth (N.to_nat p) lists []). split; [apply nth_error_nth'; lia|].
    inversion F2; auto.
  - rewrite kept_all by auto. rewrite firstn_length. lia.
Qed.

(** * Queries *)

Lemma same_query_ok : forall lists q ps, same_query a b lists q ps ->
  query_ok (kept_lists a b lists) q /\ lists_at (kept_lists a b lists) q = lists_at lists ps /\ length q = length ps.
Proof.
  intros lists q ps (Hne & F). split; [split; auto|].
  - clear Hne. induction F as [|i p q ps H _ IH]; constructor; auto. apply (has_id_nth _ _ _ H).
  - clear Hne. induction F as [|i p q ps H _ (IH1 & IH2)]; auto. split; [|cbn [length]; lia].
    unfold lists_at in *. cbn [map]. rewrite IH1. f_equal. apply (has_id_nth _ _ _ H).
Qed.

Lemma same_answers : forall lists queries positions rs,
  Forall2 (same_query a b lists) queries positions ->
  Forall2 (answers (kept_lists a b lists)) queries rs -> Forall2 (answers lists) positions rs.
Proof.
  intros lists queries positions rs F. revert rs. induction F as [|q ps qs pss H _ IH]; intros rs G.
  - inversion G. constructor.
  - inversion G as [|? r ? rs' A G']; subst. constructor; auto.
    destruct (same_query_ok _ _ _ H) as (_ & E & L). unfold answers in *. rewrite L, E in A. exact A.
Qed.

Lemma unshifted_same : forall lists q, unshifted a b lists q -> same_query a b lists q q.
Proof.
  intros lists q ((Hne & Hq) & F). split; auto. clear Hne. induction q; constructor.
  - inversion Hq; subst. inversion F; subst. apply unshifted_id; auto.
  - inversion Hq; subst. inversion F; subst. auto.
Qed.

End Ids.

Theorem dropped_list : forall fm a b rank block runs levelwise one u l1 l l2,
  collection_ok one u (l1 ++ l :: l2) -> ~ is_kept a b l ->
  build_tries fm a b rank block runs levelwise (collection_file one u (l1 ++ l :: l2))
  = build_tries fm a b rank block runs levelwise (collection_file one u (l1 ++ l2)).
Proof.
  intros fm a b rank block runs levelwise one u l1 l l2 C K.
  assert (C' : collection_ok one u (l1 ++ l2)).
  { destruct C as (C1 & C2 & C3 & C4 & C5). rewrite app_length in C3. cbn [length] in C3.
    apply Forall_app in C4. apply Forall_app in C5. destruct C4 as (C4 & C6), C5 as (C5 & C7).
    inversion C6; subst. inversion C7; subst.
    repeat split; auto; try (apply Forall_app; auto). rewrite app_length. lia. }
  unfold build_tries. rewrite !build_file_spec by auto. rewrite kept_drop by auto. reflexivity.
Qed.

Theorem fast_dropped_list : forall fm junk a b rank runs levelwise lw one u l1 l l2,
  collection_ok one u (l1 ++ l :: l2) -> ~ is_kept a b l ->
  build_fast_tries fm junk a b rank runs levelwise lw (collection_file one u (l1 ++ l :: l2))
  = build_fast_tries fm junk a b rank runs levelwise lw (collection_file one u (l1 ++ l2)).
Proof.
  intros fm junk a b rank runs levelwise lw one u l1 l l2 C K.
  assert (C' : collection_ok one u (l1 ++ l2)).
  { destruct C as (C1 & C2 & C3 & C4 & C5). rewrite app_length in C3. cbn [length] in C3.
    apply Forall_app in C4. apply Forall_app in C5. destruct C4 as (C4 & C6), C5 as (C5 & C7).
    inversion C6; subst. inversion C7; subst.
    repeat split; auto; try (apply Forall_app; auto). rewrite app_length. lia. }
  unfold build_fast_tries. rewrite !build_file_spec by auto. rewrite kept_drop by auto. reflexivity.
Qed.

Theorem ids_mean_positions : forall fm a b rank block runs levelwise one u lists hc parallel sched queries positions,
  formats_ok fm -> collection_ok one u lists -> (2 <= u)%N ->
  loadable_options rank block levelwise ->
  Forall (stored_ok u (built_variant rank levelwise) runs) (kept_lists a b lists) ->
  exact_mode u runs parallel hc sched (kept_lists a b lists) ->
  Forall2 (same_query a b lists) queries positions ->
  exists file rs,
    build_tries fm a b rank block runs levelwise (collection_file one u lists) = Ok file /\
    query_log fm sched hc parallel file queries = Ok rs /\
    Forall2 (answers lists) positions rs.
Proof.
  intros fm a b rank block runs levelwise one u lists hc parallel sched queries positions F C Hu O K M Q.
  destruct (end_to_end fm a b rank block runs levelwise one u lists hc parallel sched queries F C Hu O K M)
    as (file & rs & E1 & E2 & E3).
  { clear - Q. induction Q; constructor; auto. eapply same_query_ok; eauto. }
  exists file, rs. split; auto. split; auto. eapply same_answers; eauto.
Qed.

Theorem fast_ids_mean_positions :
  forall fm junk a b rank runs levelwise lw one u lists blank hc parallel sched queries positions,
  formats_ok fm -> collection_ok one u lists -> fast_universe u lw -> (rank < 2 ^ 32)%N -> rank <> 1%N ->
  junk_ok junk -> blank_ok blank -> Forall (fast_ok u) (kept_lists a b lists) ->
  fast_exact_mode u lw runs parallel hc sched (kept_lists a b lists) ->
  queries <> [] -> Forall2 (same_query a b lists) queries positions ->
  exists file rs,
    build_fast_tries fm junk a b rank runs levelwise lw (collection_file one u lists) = Ok file /\
    fast_query_log fm blank sched hc parallel file queries = Ok rs /\
    Forall2 (answers lists) positions rs.
Proof.
  intros fm junk a b rank runs levelwise lw one u lists blank hc parallel sched queries positions
         F C Hu Hr H1 J B K M Hne Q.
  destruct (fast_end_to_end fm junk a b rank runs levelwise lw one u lists blank hc parallel sched queries
              F C Hu Hr H1 J B K M Hne) as (file & rs & E1 & E2 & E3).
  { clear - Q. induction Q; constructor; auto. eapply same_query_ok; eauto. }
  exists file, rs. split; auto. split; auto. eapply same_answers; eauto.
Qed.

Lemma Forall_Forall2_same : forall A (P : A -> A -> Prop) (Q : A -> Prop) l, (forall x, Q x -> P x x) ->
  Forall Q l -> Forall2 P l l.
Proof. intros A P Q l H F. induction F; constructor; auto. Qed.

Theorem positions_are_ids : forall fm a b rank block runs levelwise one u lists hc parallel sched queries,
  formats_ok fm -> collection_ok one u lists -> (2 <= u)%N ->
  loadable_options rank block levelwise ->
  Forall (stored_ok u (built_variant rank levelwise) runs) (kept_lists a b lists) ->
  exact_mode u runs parallel hc sched (kept_lists a b lists) ->
  Forall (unshifted a b lists) queries ->
  exists file rs,
    build_tries fm a b rank block runs levelwise (collection_file one u lists) = Ok file /\
    query_log fm sched hc parallel file queries = Ok rs /\
    Forall2 (answers lists) queries rs.
Proof.
  intros. eapply ids_mean_positions; eauto. eapply Forall_Forall2_same; [|eassumption].
  intros. apply unshifted_same. auto.
Qed.

Theorem fast_positions_are_ids :
  forall fm junk a b rank runs levelwise lw one u lists blank hc parallel sched queries,
  formats_ok fm -> collection_ok one u lists -> fast_universe u lw -> (rank < 2 ^ 32)%N -> rank <> 1%N ->
  junk_ok junk -> blank_ok blank -> Forall (fast_ok u) (kept_lists a b lists) ->
  fast_exact_mode u lw runs parallel hc sched (kept_lists a b lists) ->
  queries <> [] -> Forall (unshifted a b lists) queries ->
  exists file rs,
    build_fast_tries fm junk a b rank runs levelwise lw (collection_file one u lists) = Ok file /\
    fast_query_log fm blank sched hc parallel file queries = Ok rs /\
    Forall2 (answers lists) queries rs.
Proof.
  intros. eapply fast_ids_mean_positions; eauto. eapply Forall_Forall2_same; [|eassumption].
  intros. apply unshifted_same. auto.
Qed.

Lemma shifted_case : forall a b lists p, shifted a b lists p ->
  (N.of_nat (length (kept_lists a b lists)) <= p)%N \/
  exists p', (p < p')%N /\ same_query a b lists [p] [p'].
Proof.
  intros a b lists p S. destruct (N.leb_spec (N.of_nat (length (kept_lists a b lists))) p) as [|H]; auto.
  right. destruct (position_exists a b lists (N.to_nat p)) as (p' & H'); [lia|].
  rewrite N2Nat.id in H'. exists (N.of_nat p'). split; [eapply shifted_later; eauto|].
  split; [discriminate|]. repeat constructor; apply H'.
Qed.

Theorem positions_shifted : forall fm a b rank block runs levelwise one u lists hc parallel sched p,
  formats_ok fm -> collection_ok one u lists -> (2 <= u)%N ->
  loadable_options rank block levelwise ->
  Forall (stored_ok u (built_variant rank levelwise) runs) (kept_lists a b lists) ->
  exact_mode u runs parallel hc sched (kept_lists a b lists) ->
  shifted a b lists p ->
  exists file,
    build_tries fm a b rank block runs levelwise (collection_file one u lists) = Ok file /\
    (query_log fm sched hc parallel file [[p]] = UB OutOfBounds \/
     exists p', (p < p' < N.of_nat (length lists))%N /\
       query_log fm sched hc parallel file [[p]] = Ok [Some (nth (N.to_nat p') lists [])]).
Proof.
  intros fm a b rank block runs levelwise one u lists hc parallel sched p F C Hu O K M S.
  destruct (shifted_case _ _ _ _ S) as [H|(p' & Hp & Q)].
  - destruct (collection_round_trip fm a b rank block runs levelwise one u lists F C Hu O K)
      as (file & ts & E1 & E2 & E3 & _).
    exists file. split; auto. left. unfold query_log. rewrite E2. cbn [bind run_queries each_ok].
    unfold vgetN. rewrite (each_ok_length _ _ _ _ _ E3).
    destruct (N.ltb_spec p (N.of_nat (length (kept_lists a b lists)))); [lia|]. reflexivity.
  - destruct (ids_mean_positions fm a b rank block runs levelwise one u lists hc parallel sched [[p]] [[p']]
                F C Hu O K M) as (file & rs & E1 & E2 & E3); [constructor; [exact Q|constructor]|].
    exists file. split; auto. right. exists p'.
    destruct Q as (_ & Q). inversion Q as [|? ? ? ? Q' _]; subst. clear Q.
    assert (Hi := Q'). destruct Q' as ((l & L1 & L2) & _).
    assert (Hlt : N.to_nat p' < length lists) by (apply nth_error_Some; congruence).
    split; [lia|]. rewrite E2. inversion E3 as [|? r ? ? A G]; subst. inversion G; subst.
    do 2 f_equal. destruct r as [r|]; [|cbn in A; lia]. destruct A as (_ & A1 & A2). f_equal.
    cbn [lists_at map] in A2.
    assert (I : increasing (nth (N.to_nat p') lists [])).
    { destruct (has_id_nth _ _ _ _ _ Hi) as (K1 & K2). rewrite <- K2. rewrite Forall_forall in K.
      apply (K (nth (N.to_nat p) (kept_lists a b lists) [])). apply nth_In. lia. }
    apply increasing_unique; auto. intros x. rewrite A2. rewrite Forall_forall. cbn [In]. split.
    + intros Hx. apply Hx. auto.
    + intros Hx s [<-|[]]. auto.
Qed.

Theorem fast_positions_shifted : forall fm junk a b rank runs levelwise lw one u lists blank hc parallel sched p,
  formats_ok fm -> collection_ok one u lists -> fast_universe u lw -> (rank < 2 ^ 32)%N -> rank <> 1%N ->
  junk_ok junk -> blank_ok blank -> Forall (fast_ok u) (kept_lists a b lists) ->
  fast_exact_mode u lw runs parallel hc sched (kept_lists a b lists) ->
  shifted a b lists p ->
  exists file,
    build_fast_tries fm junk a b rank runs levelwise lw (collection_file one u lists) = Ok file /\
    (fast_query_log fm blank sched hc parallel file [[p]] = UB NullDeref \/
     exists p', (p < p' < N.of_nat (length lists))%N /\
       fast_query_log fm blank sched hc parallel file [[p]] = Ok [Some (nth (N.to_nat p') lists [])]).
Proof.
  intros fm junk a b rank runs levelwise lw one u lists blank hc parallel sched p F C Hu Hr H1 J B K M S.
  destruct (shifted_case _ _ _ _ S) as [H|(p' & Hp & Q)].
  - destruct (fast_collection fm junk a b rank runs levelwise lw one u lists blank [[p]] F C Hu Hr H1 J B K)
      as (file & rest & ts & tries & E1 & E2 & E3 & E4 & E5 & E6 & E7); [cbn; discriminate|].
    exists file. split; auto. left. unfold fast_query_log. rewrite E2. cbn [bind oget].
    rewrite word_log_wbits by apply Hu. rewrite E3. cbn [bind].
    unfold map_queries. cbn [run_queries each_ok bind length Nat.leb].
    unfold repeat_query. cbn [for_loop bind].
    unfold trie_pointer. destruct (find (fun q => N.eqb (fst q) p) tries) as [(j, t)|] eqn:E; [|reflexivity].
    exfalso. apply find_some in E. cbn [fst] in E. destruct E as (X1 & X2). apply N.eqb_eq in X2. subst j.
    assert (X : In p (map fst tries)) by (apply in_map_iff; exists (p, t); auto).
    apply E6 in X. lia.
  - destruct (fast_ids_mean_positions fm junk a b rank runs levelwise lw one u lists blank hc parallel sched
                [[p]] [[p']] F C Hu Hr H1 J B K M) as (file & rs & E1 & E2 & E3);
      [discriminate|constructor; [exact Q|constructor]|].
    exists file. split; auto. right. exists p'.
    destruct Q as (_ & Q). inversion Q as [|? ? ? ? Q' _]; subst. clear Q.
    assert (Hi := Q'). destruct Q' as ((l & L1 & L2) & _).
    assert (Hlt : N.to_nat p' < length lists) by (apply nth_error_Some; congruence).
    split; [lia|]. rewrite E2. inversion E3 as [|? r ? ? A G]; subst. inversion G; subst.
    do 2 f_equal. destruct r as [r|]; [|cbn in A; lia]. destruct A as (_ & A1 & A2). f_equal.
    cbn [lists_at map] in A2.
    assert (I : increasing (nth (N.to_nat p') lists [])).
    { destruct (has_id_nth _ _ _ _ _ Hi) as (K1 & K2). rewrite <- K2. rewrite Forall_forall in K.
      apply (K (nth (N.to_nat p) (kept_lists a b lists) [])). apply nth_In. lia. }
    apply increasing_unique; auto. intros x. rewrite A2. rewrite Forall_forall. cbn [In]. split.
    + intros Hx. apply Hx. auto.
    + intros Hx s [<-|[]]. auto.
Qed.
