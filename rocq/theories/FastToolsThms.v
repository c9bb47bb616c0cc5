(** The collection tools end to end: fast tries. *)

From Verif Require Import Base FlatTrie LevelTrie FastTrie ParallelFor Intersection Tries Serialize
  Tools Facts Spec SpecTries SpecFiles SpecTools SerializeFacts SerializeSound SerializeThms
  InterThms InterLaws InterRefute ParForThms ToolsFacts ToolsThms.

Lemma fast_ops_refines : forall t t', refines t t' -> fast_ops t' = fast_ops t.
Proof.
  intros t t' R. destruct t as [a1 a2 a3 a4 a5 a6 a7 a8 a9], t' as [b1 b2 b3 b4 b5 b6 b7 b8 b9].
  destruct R as (E1 & E2 & E3 & E4 & E5 & E6 & E7 & _). cbn in *. subst. reflexivity.
Qed.

Definition made (u : N) (lw : nat) (runs : bool) (junk : nat -> fast_junk) (p : nat * list N) : result fast :=
  fast_make u lw (j_hwr (junk (fst p))) (j_empty (junk (fst p))) runs (snd p).

Definition stored (c : codecs) (u : N) (lw : nat) (runs : bool) (junk : nat -> fast_junk)
           (p : nat * list N) : result (list N) :=
  let* t := made u lw runs junk p in
  Ok (fst (fast_serialize c (j_hwr_bytes (junk (fst p))) (j_empty_byte (junk (fst p))) t)).

Lemma fast_codecs_ok : forall fm rank, formats_ok fm -> codecs_ok (fast_codecs fm rank).
Proof. intros fm rank (H1 & H2 & _). unfold fast_codecs. destruct (N.eqb rank 0); auto. Qed.

Lemma all_made : forall u lw runs junk c kept i, fast_universe u lw -> junk_ok junk ->
  Forall (fast_ok u) kept ->
  exists ts, each_ok (made u lw runs junk) (indexed i kept) = Ok ts /\
  exists bs, each_ok (stored c u lw runs junk) (indexed i kept) = Ok bs.
Proof.
  intros u lw runs junk c kept i Hu J K. revert i. induction K as [|l kept Hl _ IH]; intros i; cbn [indexed each_ok].
  - exists []. split; eauto.
  - destruct (IH (S i)) as (ts & E1 & bs & E2). destruct (J i) as (J1 & _ & _).
    destruct (fast_made u lw (j_hwr (junk i)) (j_empty (junk i)) runs l Hu Hl J1) as (t & M1 & _).
    assert (M : made u lw runs junk (i, l) = Ok t) by exact M1.
    unfold stored at 1. rewrite M. cbn [bind]. rewrite E1. cbn [bind]. eexists. split; [reflexivity|].
    rewrite E2. cbn [bind]. eauto.
Qed.

(** * The file *)

Theorem fast_build_spec : forall fm junk a b rank runs levelwise lw one u lists,
  collection_ok one u lists ->
  build_fast_tries fm junk a b rank runs levelwise lw (collection_file one u lists)
  = (let* bs := each_ok (stored (fast_codecs fm rank) u lw runs junk) (indexed 0 (kept_lists a b lists)) in
     Ok ((le_bytes 4 rank ++ [bool_byte runs] ++ [bool_byte levelwise] ++ le_bytes 2 (wbits lw))
           ++ le_bytes 4 (N.of_nat (length (kept_lists a b lists)))
           ++ le_bytes 4 one ++ le_bytes 4 u ++ concat bs)).
Proof. intros. unfold build_fast_tries. rewrite build_file_spec by auto. reflexivity. Qed.

Lemma read_obool_app : forall b rest, read_obool ([bool_byte b] ++ rest) = Ok (Some b, rest).
Proof. destruct b; reflexivity. Qed.

Lemma wbits_small : forall lw, In lw [3; 4; 5; 6] -> (wbits lw < 2 ^ 16)%N.
Proof. intros lw H. cbn in H. destruct H as [<-|[<-|[<-|[<-|[]]]]]; reflexivity. Qed.

Lemma word_log_wbits : forall lw, In lw [3; 4; 5; 6] -> word_log (wbits lw) = lw.
Proof. intros lw H. cbn in H. destruct H as [<-|[<-|[<-|[<-|[]]]]]; reflexivity. Qed.

Lemma fast_header : forall rank runs levelwise lw rest, (rank < 2 ^ 32)%N -> rank <> 1%N -> In lw [3; 4; 5; 6] ->
  read_fast_header ((le_bytes 4 rank ++ [bool_byte runs] ++ [bool_byte levelwise] ++ le_bytes 2 (wbits lw)) ++ rest)
  = Ok (rank, Some runs, Some levelwise, wbits lw, rest).
Proof.
  intros rank runs levelwise lw rest Hr H1 Hlw. unfold read_fast_header. rewrite <- !app_assoc.
  rewrite read_le_app by auto. cbn [bind]. destruct (N.eqb_spec rank 1); [easy|]. cbn [bind].
  rewrite read_obool_app. cbn [bind]. rewrite read_obool_app. cbn [bind].
  rewrite read_le_app by (apply wbits_small; auto). reflexivity.
Qed.

(** With rank_type 1 the reader is four bytes ahead. *)
Lemma le_bytes_app : forall j k x, le_bytes (j + k) x = le_bytes j x ++ le_bytes k (x / 256 ^ N.of_nat j).
Proof.
  induction j; intros k x; cbn [Nat.add le_bytes app].
  - change (256 ^ N.of_nat 0)%N with 1%N. rewrite N.div_1_r. auto.
  - rewrite IHj. rewrite (Nat2N.inj_succ j), N.pow_succ_r', N.div_div; auto; try discriminate.
    apply N.pow_nonzero. discriminate.
Qed.

Theorem fast_header_il : forall runs levelwise lw n rest, (n < 2 ^ 32)%N ->
  read_fast_header ((le_bytes 4 1 ++ [bool_byte runs] ++ [bool_byte levelwise] ++ le_bytes 2 (wbits lw))
                    ++ le_bytes 4 n ++ rest)
  = Ok (1%N, byte_bool (n mod 256), byte_bool (n / 256 mod 256), (n / 65536)%N, rest).
Proof.
  intros runs levelwise lw n rest Hn. unfold read_fast_header. rewrite <- app_assoc.
  rewrite read_le_app by reflexivity. cbn [bind]. change (N.eqb 1 1) with true. cbv iota.
  assert (R : forall tail, exists blk, read_le 4 (([bool_byte runs] ++ [bool_byte levelwise] ++ le_bytes 2 (wbits lw)) ++ tail)
              = Ok (blk, tail)).
  { intros. cbn [le_bytes app]. unfold read_le. cbn [read_bytes bind]. eauto. }
  destruct (R (le_bytes 4 n ++ rest)) as (blk & R'). rewrite R'. cbn [bind].
  change 4 with (1 + (1 + 2)). rewrite (le_bytes_app 1 (1 + 2) n), (le_bytes_app 1 2).
  rewrite <- !app_assoc. change (256 ^ N.of_nat 1)%N with 256%N.
  assert (B : forall x tail, read_obool (le_bytes 1 x ++ tail) = Ok (byte_bool (x mod 256), tail)).
  { intros. unfold read_obool, read_le. cbn [le_bytes app read_bytes bind le_value].
    rewrite N.mul_0_r, N.add_0_r. reflexivity. }
  rewrite B. cbn [bind]. rewrite B. cbn [bind].
  rewrite N.div_div by discriminate. change (256 * 256)%N with 65536%N.
  rewrite read_le_app; [reflexivity|]. change (256 ^ N.of_nat 2)%N with 65536%N.
  apply N.div_lt_upper_bound; [discriminate|]. exact Hn.
Qed.

(** * Selective loading *)

Lemma insert_unique_In : forall x y l, In y (insert_unique x l) <-> y = x \/ In y l.
Proof.
  intros x y l. induction l as [|z l IH]; cbn [insert_unique].
  - cbn. intuition.
  - destruct (N.ltb x z); [cbn; intuition|]. destruct (N.eqb_spec x z) as [->|H]; cbn [In]; [intuition|].
    rewrite IH. intuition.
Qed.

Lemma insert_unique_increasing : forall x l, increasing l -> increasing (insert_unique x l).
Proof.
  unfold increasing. intros x l H. induction H as [|z l Hl IH Hz]; cbn [insert_unique].
  - repeat constructor.
  - destruct (N.ltb_spec x z).
    + constructor; [constructor; auto|]. constructor; auto. eapply Forall_impl; [|exact Hz]. cbn. intros. lia.
    + destruct (N.eqb_spec x z); [constructor; auto|]. constructor; auto.
      rewrite Forall_forall in *. intros y Hy. apply insert_unique_In in Hy. destruct Hy as [->|Hy]; [lia|auto].
Qed.

Lemma set_indexes_spec : forall queries, is_set_of (concat queries) (set_indexes queries).
Proof.
  intros queries. unfold set_indexes. induction (concat queries) as [|x l (IH1 & IH2)]; cbn [fold_right].
  - split; [constructor|tauto].
  - split; [apply insert_unique_increasing; auto|]. intros y. rewrite insert_unique_In, IH2. cbn. intuition.
Qed.

Definition wanted (i n : N) (ids : list N) : list N := filter (fun x => N.ltb x (i + n)) ids.

(** [ids] = [done ++ todo], the next trie in the stream has id [i] and [todo] holds
    the ids from [i] on. *)
Lemma load_tries_loop_spec : forall c blank junk u lw runs kept i bs ts done todo acc,
  codecs_ok c -> x_lw blank = lw -> x_lastLevel blank = [] -> fast_universe u lw -> junk_ok junk ->
  Forall (fast_ok u) kept ->
  each_ok (made u lw runs junk) (indexed i kept) = Ok ts ->
  each_ok (stored c u lw runs junk) (indexed i kept) = Ok bs ->
  increasing todo -> todo <> [] -> Forall (fun x => (N.of_nat i <= x)%N) todo ->
  exists new, load_tries_loop c blank (length kept) (N.of_nat i) (done ++ todo) (length done) (concat bs) acc
              = Ok (acc ++ new) /\
    map fst new = filter (fun x => N.ltb x (N.of_nat (i + length kept))) todo /\
    Forall (fun p => exists t, nth_error ts (N.to_nat (fst p) - i) = Some t /\ refines t (snd p)) new.
Proof.
  intros c blank junk u lw runs kept i bs ts done todo acc C El Eb Hu J K. revert i bs ts done todo acc.
  induction K as [|l kept Hl _ IH]; intros i bs ts done todo acc Em Es Inc Hne Hge; cbn [length load_tries_loop].
  - exists []. rewrite app_nil_r. split; auto. split; [|constructor]. rewrite Nat.add_0_r. cbn [map].
    symmetry. clear - Hge. induction Hge; cbn [filter]; auto. destruct (N.ltb_spec x (N.of_nat i)); [lia|auto].
  - cbn [indexed each_ok] in Em, Es. apply bind_inv in Em. destruct Em as (t & Et & Em).
    apply bind_inv in Em. destruct Em as (ts' & Ets & Em). injection Em as <-.
    apply bind_inv in Es. destruct Es as (b & Eb' & Es).
    apply bind_inv in Es. destruct Es as (bs' & Ebs & Es). injection Es as <-.
    unfold stored in Eb'. rewrite Et in Eb'. cbn [bind] in Eb'. cbn [fst snd] in Eb'.
    apply (f_equal (fun r => match r with Ok x => x | _ => [] end)) in Eb'. cbv beta iota in Eb'. subst b.
    destruct (J i) as (J1 & J2 & J3).
    assert (Et' : fast_make u lw (j_hwr (junk i)) (j_empty (junk i)) runs l = Ok t) by exact Et.
    destruct (fast_made u lw (j_hwr (junk i)) (j_empty (junk i)) runs l Hu Hl J1) as (t1 & M1 & M2 & _).
    rewrite Et' in M1. injection M1 as <-.
    destruct (fast_serialization_round_trip c u lw _ _ runs l t blank (j_hwr_bytes (junk i))
      (j_empty_byte (junk i)) (concat bs') C (proj1 Hu) J1 Et' M2 El Eb J2 J3) as (t' & L1 & L2 & _).
    cbn [concat]. rewrite L1. cbn [bind].
    destruct todo as [|x todo]; [easy|].
    assert (V : vget (done ++ x :: todo) (length done) = Ok x).
    { apply vget_nth. rewrite nth_error_app2, Nat.sub_diag; auto. }
    rewrite V. cbn [bind]. inversion Inc as [|? ? Inc' Hx]; subst. inversion Hge as [|? ? Hx0 Hge']; subst.
    replace (N.of_nat i + 1)%N with (N.of_nat (S i)) by lia.
    replace (i + S (length kept)) with (S i + length kept) by lia.
    destruct (N.eqb_spec (N.of_nat i) x) as [<-|Hix].
    + cbn [filter]. replace (N.ltb (N.of_nat i) (N.of_nat (S i + length kept))) with true
        by (symmetry; apply N.ltb_lt; lia).
      rewrite app_length. cbn [length]. destruct todo as [|y todo].
      * cbn [length]. replace (S (length done) =? length done + 1) with true by (symmetry; apply Nat.eqb_eq; lia).
        exists [(N.of_nat i, t')]. split; auto. split; auto. constructor; [|constructor].
        exists t. cbn [fst snd]. rewrite Nat2N.id, Nat.sub_diag. auto.
      * destruct (S (length done) =? length done + S (length (y :: todo))) eqn:EE;
          [apply Nat.eqb_eq in EE; cbn [length] in EE; lia|]. clear EE.
        destruct (IH (S i) bs' ts' (done ++ [N.of_nat i]) (y :: todo) (acc ++ [(N.of_nat i, t')]) Ets Ebs) as (new & N1 & N2 & N3); auto.
        { discriminate. }
        { eapply Forall_impl; [|exact Hx]. cbn. intros. lia. }
        rewrite <- app_assoc, app_length in N1. cbn [app length] in N1.
        replace (length done + 1) with (S (length done)) in N1 by lia.
        exists ((N.of_nat i, t') :: new). split; [|split].
        -- rewrite N1, <- app_assoc. reflexivity.
        -- cbn [map fst]. f_equal. auto.
        -- constructor.
           ++ exists t. cbn [fst snd]. rewrite Nat2N.id, Nat.sub_diag. auto.
           ++ assert (R : Forall (fun p : N * fast => (N.of_nat (S i) <= fst p)%N) new).
              { apply Forall_forall. intros p Hp. assert (Hin : In (fst p) (map fst new)) by (apply in_map; auto).
                rewrite N2 in Hin. apply filter_In in Hin. destruct Hin as (Hin & _).
                rewrite Forall_forall in Hx. specialize (Hx _ Hin). lia. }
              rewrite Forall_forall in *. intros p Hp. destruct (N3 p Hp) as (t0 & Q1 & Q2). exists t0. split; auto.
              specialize (R p Hp). replace (N.to_nat (fst p) - i) with (S (N.to_nat (fst p) - S i)) by lia. auto.
    + destruct (IH (S i) bs' ts' done (x :: todo) acc Ets Ebs) as (new & N1 & N2 & N3); auto.
      { constructor; [lia|]. rewrite Forall_forall in *. intros y Hy. specialize (Hx y Hy). lia. }
      exists new. split; auto. split; auto.
      assert (R : Forall (fun p : N * fast => (N.of_nat (S i) <= fst p)%N) new).
      { apply Forall_forall. intros p Hp. assert (Hin : In (fst p) (map fst new)) by (apply in_map; auto).
        rewrite N2 in Hin. apply filter_In in Hin. destruct Hin as (Hin & _).
        destruct Hin as [<-|Hin]; [lia|]. rewrite Forall_forall in Hx. specialize (Hx _ Hin). lia. }
      rewrite Forall_forall in *. intros p Hp. destruct (N3 p Hp) as (t0 & Q1 & Q2). exists t0. split; auto.
      specialize (R p Hp). replace (N.to_nat (fst p) - i) with (S (N.to_nat (fst p) - S i)) by lia. auto.
Qed.

(** Building, reading the header and loading. *)
Theorem fast_collection : forall fm junk a b rank runs levelwise lw one u lists blank queries,
  formats_ok fm -> collection_ok one u lists -> fast_universe u lw -> (rank < 2 ^ 32)%N -> rank <> 1%N ->
  junk_ok junk -> blank_ok blank -> Forall (fast_ok u) (kept_lists a b lists) ->
  concat queries <> [] ->
  exists file rest ts tries,
    build_fast_tries fm junk a b rank runs levelwise lw (collection_file one u lists) = Ok file /\
    read_fast_header file = Ok (rank, Some runs, Some levelwise, wbits lw, rest) /\
    load_tries (fast_codecs fm rank) (blank lw) queries rest = Ok tries /\
    each_ok (made u lw runs junk) (indexed 0 (kept_lists a b lists)) = Ok ts /\
    increasing (map fst tries) /\
    (forall i, In i (map fst tries) <->
               In i (concat queries) /\ (i < N.of_nat (length (kept_lists a b lists)))%N) /\
    (forall i t, In (i, t) tries -> exists t0, nth_error ts (N.to_nat i) = Some t0 /\ refines t0 t).
Proof.
  intros fm junk a b rank runs levelwise lw one u lists blank queries F C Hu Hr H1 J B K Hq.
  assert (Hc := fast_codecs_ok fm rank F).
  destruct (all_made u lw runs junk (fast_codecs fm rank) _ 0 Hu J K) as (ts & Ets & bs & Ebs).
  assert (Kc := kept_count a b one u lists C). assert (C' := C). destruct C' as (C1 & C2 & _).
  set (kept := kept_lists a b lists) in *.
  destruct (set_indexes_spec queries) as (S1 & S2).
  assert (Sne : set_indexes queries <> []).
  { intros E. destruct (concat queries) as [|x l]; [easy|]. assert (X := proj2 (S2 x) (or_introl eq_refl)). rewrite E in X. easy. }
  destruct (B lw) as (B1 & B2).
  destruct (load_tries_loop_spec (fast_codecs fm rank) (blank lw) junk u lw runs kept 0 bs ts []
    (set_indexes queries) [] Hc B1 B2 Hu J K Ets Ebs S1 Sne) as (new & N1 & N2 & N3).
  { apply Forall_forall. intros. change (N.of_nat 0) with 0%N. lia. }
  cbn [app length] in N1.
  eexists. eexists. exists ts, new.
  split; [rewrite fast_build_spec by eauto; fold kept; rewrite Ebs; cbn [bind]; reflexivity|].
  split; [apply fast_header; auto; apply Hu|].
  split; [|split; [exact Ets|split; [|split]]].
  - unfold load_tries. rewrite read_le_app by auto. cbn [bind]. rewrite read_le_app by auto. cbn [bind].
    rewrite read_le_app by auto. cbn [bind]. rewrite Nat2N.id. exact N1.
  - rewrite N2. clear - S1. unfold increasing in *. induction S1 as [|x l Hl IH Hx]; cbn [filter]; [constructor|].
    destruct (N.ltb x _); auto. constructor; auto. rewrite Forall_forall in *. intros y Hy.
    apply filter_In in Hy. apply Hx. tauto.
  - intros i. rewrite N2, filter_In, S2. cbn [Nat.add]. rewrite N.ltb_lt. tauto.
  - intros i t Hi. rewrite Forall_forall in N3. destruct (N3 _ Hi) as (t0 & Q1 & Q2).
    cbn [fst snd] in *. rewrite Nat.sub_0_r in Q1. eauto.
Qed.

Theorem no_ids_out_of_bounds : forall fm junk a b rank runs levelwise lw one u lists blank queries,
  formats_ok fm -> collection_ok one u lists -> fast_universe u lw -> (rank < 2 ^ 32)%N -> rank <> 1%N ->
  junk_ok junk -> blank_ok blank -> Forall (fast_ok u) (kept_lists a b lists) ->
  kept_lists a b lists <> [] -> concat queries = [] ->
  exists file rest,
    build_fast_tries fm junk a b rank runs levelwise lw (collection_file one u lists) = Ok file /\
    read_fast_header file = Ok (rank, Some runs, Some levelwise, wbits lw, rest) /\
    load_tries (fast_codecs fm rank) (blank lw) queries rest = UB OutOfBounds.
Proof.
  intros fm junk a b rank runs levelwise lw one u lists blank queries F C Hu Hr H1 J B K Hne Hq.
  assert (Hc := fast_codecs_ok fm rank F).
  destruct (all_made u lw runs junk (fast_codecs fm rank) _ 0 Hu J K) as (ts & Ets & bs & Ebs).
  assert (Kc := kept_count a b one u lists C). assert (C' := C). destruct C' as (C1 & C2 & _).
  destruct (B lw) as (B1 & B2).
  eexists. eexists.
  split; [rewrite fast_build_spec by eauto; rewrite Ebs; cbn [bind]; reflexivity|].
  split; [apply fast_header; auto; apply Hu|].
  unfold load_tries. rewrite read_le_app by auto. cbn [bind]. rewrite read_le_app by auto. cbn [bind].
  rewrite read_le_app by auto. cbn [bind]. rewrite Nat2N.id. unfold set_indexes. rewrite Hq. cbn [fold_right].
  destruct (kept_lists a b lists) as [|l kept]; [easy|]. inversion K as [|? ? Hl _]; subst.
  cbn [indexed each_ok] in Ebs. apply bind_inv in Ebs. destruct Ebs as (b0 & Eb0 & Ebs).
  apply bind_inv in Ebs. destruct Ebs as (bs' & _ & Ebs). injection Ebs as <-.
  destruct (J 0) as (J1 & J2 & J3).
  destruct (fast_made u lw (j_hwr (junk 0)) (j_empty (junk 0)) runs l Hu Hl J1) as (t1 & M1 & M2 & _).
  unfold stored, made in Eb0. cbn [fst snd] in Eb0. rewrite M1 in Eb0. cbn [bind] in Eb0.
  apply (f_equal (fun r => match r with Ok x => x | _ => [] end)) in Eb0. cbv beta iota in Eb0. subst b0.
  destruct (fast_serialization_round_trip (fast_codecs fm rank) u lw _ _ runs l t1 (blank lw) (j_hwr_bytes (junk 0))
      (j_empty_byte (junk 0)) (concat bs') Hc (proj1 Hu) J1 M1 M2 B1 B2 J2 J3) as (t' & L1 & _).
  cbn [length load_tries_loop concat]. rewrite L1. reflexivity.
Qed.

(** * Queries *)

(** The trie with id [i]. *)
Definition find_trie (tries : list (N * fast)) (i : N) : result fast := deref (trie_pointer tries i).

Lemma each_ok_total : forall {A B} (f : A -> B) q, each_ok (fun i => Ok (f i)) q = Ok (map f q).
Proof. induction q as [|i q IH]; cbn [each_ok map]; auto. rewrite IH. reflexivity. Qed.

Lemma each_ok_map : forall {A B C} (g : B -> result C) (f : A -> B) q,
  each_ok g (map f q) = each_ok (fun i => g (f i)) q.
Proof. induction q as [|i q IH]; cbn [each_ok map]; auto. rewrite IH. reflexivity. Qed.

(** Pointers that are not null. *)
Lemma map_queries_ok : forall tries answer queries rs,
  run_queries (find_trie tries) answer 0 queries = Ok rs -> map_queries tries answer queries = Ok rs.
Proof.
  intros tries answer queries. unfold map_queries. generalize 0.
  induction queries as [|q qs IH]; intros nq rs H; cbn [run_queries] in *; auto.
  apply bind_inv in H. destruct H as (ts & E1 & H). apply bind_inv in H. destruct H as (a & E2 & H).
  apply bind_inv in H. destruct H as (rs' & E3 & H). injection H as <-.
  rewrite each_ok_total. cbn [bind]. rewrite map_length. rewrite (each_ok_length _ _ _ _ _ E1) in E2.
  rewrite (IH _ _ E3).
  replace (if length q <=? 16 then _ else _) with (Ok (A := option (list N)) a); [reflexivity|].
  rewrite <- E2. destruct (length q <=? 16); auto. rewrite each_ok_map. fold (find_trie tries).
  change (fun i => deref (trie_pointer tries i)) with (find_trie tries). rewrite E1. reflexivity.
Qed.

Lemma find_In : forall (tries : list (N * fast)) i, In i (map fst tries) ->
  exists t, find_trie tries i = Ok t /\ In (i, t) tries.
Proof.
  intros tries i H. unfold find_trie, trie_pointer.
  destruct (find (fun p => N.eqb (fst p) i) tries) as [(j, t)|] eqn:E; cbn [option_map deref snd].
  - apply find_some in E. cbn [fst snd] in *. destruct E as (E1 & E2). apply N.eqb_eq in E2. subst. eauto.
  - exfalso. apply in_map_iff in H. destruct H as ((j, t) & <- & H). apply (find_none _ _ E) in H.
    cbn [fst] in H. rewrite N.eqb_refl in H. discriminate.
Qed.

Definition item_at (junk : nat -> fast_junk) (runs : bool) (kept : list (list N)) (i : N) : fitem :=
  (j_hwr (junk (N.to_nat i)), j_empty (junk (N.to_nat i)), runs, nth (N.to_nat i) kept []).

(** The tries a query takes from the map behave as freshly built ones. *)
Lemma fast_pick : forall u lw runs junk kept ts tries q,
  each_ok (made u lw runs junk) (indexed 0 kept) = Ok ts ->
  (forall i, In i q -> In i (map fst tries)) ->
  (forall i t, In (i, t) tries -> exists t0, nth_error ts (N.to_nat i) = Some t0 /\ refines t0 t) ->
  Forall (fun i => (i < N.of_nat (length kept))%N) q ->
  exists qs fresh, each_ok (find_trie tries) q = Ok qs /\
    each_ok (make_fitem u lw) (map (item_at junk runs kept) q) = Ok fresh /\
    map fast_ops qs = map fast_ops fresh.
Proof.
  intros u lw runs junk kept ts tries q E Hin Href Hq.
  induction Hq as [|i q Hi _ IH]; cbn [each_ok map]; [exists [], []; auto|].
  destruct IH as (qs & fresh & E1 & E2 & E3); [intros; apply Hin; right; auto|].
  destruct (find_In tries i) as (t & F1 & F2); [apply Hin; left; auto|].
  destruct (Href _ _ F2) as (t0 & R1 & R2).
  assert (Hn : nth_error kept (N.to_nat i) = Some (nth (N.to_nat i) kept [])) by (apply nth_error_nth'; lia).
  assert (Hx : nth_error (indexed 0 kept) (N.to_nat i) = Some (N.to_nat i, nth (N.to_nat i) kept [])).
  { rewrite indexed_nth, Hn. reflexivity. }
  destruct (each_ok_nth _ _ _ _ _ _ _ E Hx) as (y & Hy & Hyn). rewrite R1 in Hyn. injection Hyn as <-.
  rewrite F1. cbn [bind]. rewrite E1. cbn [bind].
  assert (M : make_fitem u lw (item_at junk runs kept i) = Ok t0) by exact Hy.
  rewrite M. cbn [bind]. rewrite E2. cbn [bind]. eexists. eexists. split; [reflexivity|]. split; [reflexivity|].
  cbn [map]. rewrite E3, (fast_ops_refines _ _ R2). reflexivity.
Qed.

Lemma map_snd_items : forall junk runs kept q,
  map snd (map (item_at junk runs kept) q) = lists_at kept q.
Proof. intros. rewrite map_map. reflexivity. Qed.

Lemma fast_answer : forall u lw runs parallel hc sched junk kept q fresh qs,
  fast_universe u lw -> fast_exact_mode u lw runs parallel hc sched kept ->
  Forall (fast_ok u) kept -> query_ok kept q -> length q <= 16 ->
  each_ok (make_fitem u lw) (map (item_at junk runs kept) q) = Ok fresh ->
  map fast_ops qs = map fast_ops fresh ->
  forall nq rep, exists r,
    Intersect (Fast lw) (fst (sched nq rep)) (snd (sched nq rep)) hc (map fast_ops qs) runs parallel = Ok r /\
    is_intersection (lists_at kept q) r.
Proof.
  intros u lw runs parallel hc sched junk kept q fresh qs Hu (Hhc & Hp) K (Hne & Hq) Hl E Eo nq rep.
  assert (Fo : Forall (fitem_ok u) (map (item_at junk runs kept) q)).
  { rewrite Forall_forall in *. intros x Hx. apply in_map_iff in Hx. destruct Hx as (i & <- & Hi).
    unfold fitem_ok, item_at. cbn [snd]. apply K. apply nth_In. specialize (Hq i Hi). lia. }
  assert (L : 1 <= length (map (item_at junk runs kept) q) <= 16).
  { rewrite map_length. destruct q; [easy|]. cbn [length] in *. lia. }
  assert (En : Forall (fun x => f_enc x = runs) (map (item_at junk runs kept) q)).
  { apply Forall_forall. intros x Hx. apply in_map_iff in Hx. destruct Hx as (i & <- & Hi). reflexivity. }
  rewrite Eo. destruct parallel.
  - destruct (Hp eq_refl) as (H1 & H2 & H4 & H3). specialize (H3 nq rep). destruct runs.
    { destruct H2 as [H2|(_ & H2)]; [|discriminate].
      destruct (fast_par_runs_exact u lw (map (item_at junk true kept) q) hc (fst (sched nq rep)) (snd (sched nq rep)))
        as (Ts & r & E1 & E2 & E3); auto; try tauto.
      { rewrite map_snd_items. destruct (H4 eq_refl) as [H5|H5]; [|auto]. left. apply Forall_lists_at; auto. }
      rewrite E in E1. injection E1 as <-. rewrite map_snd_items in E3. exists r. split; auto. }
    destruct (fast_parallel u lw _ Hu L Fo En) as (Ts & r & E1 & E2 & E3).
    rewrite E in E1. injection E1 as <-. rewrite map_snd_items in E2. exists r. split; auto. apply E3; tauto.
  - destruct (fast_seq_result u lw _ runs Hu L Fo) as (Ts & r & E1 & E2 & E3).
    { intros ->. auto. }
    rewrite E in E1. injection E1 as <-. rewrite map_snd_items in E2. exists r. split; auto.
Qed.

(** Also with any ids in the queries that are skipped. *)
Theorem fast_end_to_end_skipped : forall fm junk a b rank runs levelwise lw one u lists blank hc parallel sched queries,
  formats_ok fm -> collection_ok one u lists -> fast_universe u lw -> (rank < 2 ^ 32)%N -> rank <> 1%N ->
  junk_ok junk -> blank_ok blank -> Forall (fast_ok u) (kept_lists a b lists) ->
  fast_exact_mode u lw runs parallel hc sched (kept_lists a b lists) ->
  queries <> [] -> Forall (fun q => query_ok (kept_lists a b lists) q \/ 16 < length q) queries ->
  exists file rs,
    build_fast_tries fm junk a b rank runs levelwise lw (collection_file one u lists) = Ok file /\
    fast_query_log fm blank sched hc parallel file queries = Ok rs /\
    Forall2 (answers (kept_lists a b lists)) queries rs.
Proof.
  intros fm junk a b rank runs levelwise lw one u lists blank hc parallel sched queries F C Hu Hr H1 J B K M Hne Q.
  assert (Hq : concat queries <> []).
  { destruct queries as [|q qs]; [easy|]. inversion Q as [|? ? [(Hq & _)|Hq] _]; subst; destruct q; easy. }
  destruct (fast_collection fm junk a b rank runs levelwise lw one u lists blank queries F C Hu Hr H1 J B K Hq)
    as (file & rest & ts & tries & E1 & E2 & E3 & E4 & E5 & E6 & E7).
  exists file. unfold fast_query_log. rewrite E2. cbn [bind oget].
  rewrite word_log_wbits by apply Hu. rewrite E3. cbn [bind]. unfold map_queries.
  destruct (run_queries_spec _ (fun i => Ok (trie_pointer tries i))
    (fun nq rep ps => let* ts := each_ok deref ps in
       Intersect (Fast lw) (fst (sched nq rep)) (snd (sched nq rep)) hc (map fast_ops ts) runs parallel)
    (fun q r => is_intersection (lists_at (kept_lists a b lists) q) r) queries 0) as (rs & R1 & R2).
  { apply Forall_forall. intros q Hin. rewrite Forall_forall in Q. specialize (Q q Hin).
    exists (map (trie_pointer tries) q). split; [apply each_ok_total|]. intros Hl nq rep.
    destruct Q as [Q|Q]; [|lia].
    destruct (fast_pick u lw runs junk (kept_lists a b lists) ts tries q E4) as (qs & fresh & P1 & P2 & P3); auto.
    { intros i Hi. apply E6. split; [|destruct Q as (_ & Q); rewrite Forall_forall in Q; auto].
      apply in_concat. eauto. }
    { apply Q. }
    rewrite each_ok_map. change (fun i => deref (trie_pointer tries i)) with (find_trie tries).
    rewrite P1. cbn [bind]. eapply fast_answer; eauto. }
  exists rs. split; auto.
Qed.

Theorem fast_end_to_end : forall fm junk a b rank runs levelwise lw one u lists blank hc parallel sched queries,
  formats_ok fm -> collection_ok one u lists -> fast_universe u lw -> (rank < 2 ^ 32)%N -> rank <> 1%N ->
  junk_ok junk -> blank_ok blank -> Forall (fast_ok u) (kept_lists a b lists) ->
  fast_exact_mode u lw runs parallel hc sched (kept_lists a b lists) ->
  queries <> [] -> Forall (query_ok (kept_lists a b lists)) queries ->
  exists file rs,
    build_fast_tries fm junk a b rank runs levelwise lw (collection_file one u lists) = Ok file /\
    fast_query_log fm blank sched hc parallel file queries = Ok rs /\
    Forall2 (answers (kept_lists a b lists)) queries rs.
Proof.
  intros fm junk a b rank runs levelwise lw one u lists blank hc parallel sched queries F C Hu Hr H1 J B K M Hne Q.
  apply fast_end_to_end_skipped; auto. eapply Forall_impl; [|exact Q]. auto.
Qed.

(** An id that no kept list has, in a query that is not skipped. *)
Theorem fast_missing_id : forall fm junk a b rank runs levelwise lw one u lists blank hc parallel sched q i,
  formats_ok fm -> collection_ok one u lists -> fast_universe u lw -> (rank < 2 ^ 32)%N -> rank <> 1%N ->
  junk_ok junk -> blank_ok blank -> Forall (fast_ok u) (kept_lists a b lists) ->
  length q <= 16 -> In i q -> (N.of_nat (length (kept_lists a b lists)) <= i)%N ->
  exists file,
    build_fast_tries fm junk a b rank runs levelwise lw (collection_file one u lists) = Ok file /\
    fast_query_log fm blank sched hc parallel file [q] = UB NullDeref.
Proof.
  intros fm junk a b rank runs levelwise lw one u lists blank hc parallel sched q i F C Hu Hr H1 J B K Hl Hi Hn.
  assert (Hq : concat [q] <> []) by (destruct q; easy).
  destruct (fast_collection fm junk a b rank runs levelwise lw one u lists blank [q] F C Hu Hr H1 J B K Hq)
    as (file & rest & ts & tries & E1 & E2 & E3 & E4 & E5 & E6 & E7).
  exists file. split; auto. unfold fast_query_log. rewrite E2. cbn [bind oget].
  rewrite word_log_wbits by apply Hu. rewrite E3. cbn [bind]. unfold map_queries. cbn [run_queries].
  rewrite each_ok_total. cbn [bind]. rewrite map_length. replace (length q <=? 16) with true by (symmetry; apply Nat.leb_le; auto).
  unfold repeat_query. cbn [for_loop]. rewrite each_ok_map.
  assert (X : each_ok (fun i => deref (trie_pointer tries i)) q = UB NullDeref).
  { assert (N : find_trie tries i = UB NullDeref).
    { unfold find_trie, trie_pointer. destruct (find (fun q => N.eqb (fst q) i) tries) as [(j, t)|] eqn:E; [|reflexivity].
      exfalso. apply find_some in E. cbn [fst] in E. destruct E as (X1 & X2). apply N.eqb_eq in X2. subst j.
      assert (X : In i (map fst tries)) by (apply in_map_iff; exists (i, t); auto).
      apply E6 in X. lia. }
    clear - Hi N. induction q as [|j q IH]; [easy|]. cbn [each_ok].
    destruct Hi as [->|Hi]; [unfold find_trie in N; rewrite N; reflexivity|].
    destruct (deref (trie_pointer tries j)) as [t| |] eqn:E; cbn [bind].
    - rewrite (IH Hi). reflexivity.
    - unfold deref in E. destruct (trie_pointer tries j); congruence.
    - unfold deref in E. destruct (trie_pointer tries j); congruence. }
  rewrite X. reflexivity.
Qed.

(** * The statements of C35 and C37 *)

Theorem fast_header_round_trip : forall fm junk a b rank runs levelwise lw one u lists,
  formats_ok fm -> collection_ok one u lists -> fast_universe u lw -> (rank < 2 ^ 32)%N -> rank <> 1%N ->
  junk_ok junk -> Forall (fast_ok u) (kept_lists a b lists) ->
  exists file body,
    build_fast_tries fm junk a b rank runs levelwise lw (collection_file one u lists) = Ok file /\
    read_fast_header file = Ok (rank, Some runs, Some levelwise, wbits lw,
      le_bytes 4 (N.of_nat (length (kept_lists a b lists))) ++ le_bytes 4 one ++ le_bytes 4 u ++ body).
Proof.
  intros fm junk a b rank runs levelwise lw one u lists F C Hu Hr H1 J K.
  destruct (all_made u lw runs junk (fast_codecs fm rank) _ 0 Hu J K) as (ts & Ets & bs & Ebs).
  eexists. exists (concat bs).
  split; [rewrite fast_build_spec by eauto; rewrite Ebs; cbn [bind]; reflexivity|].
  apply fast_header; auto. apply Hu.
Qed.

Theorem fast_header_il_misread : forall fm junk a b runs levelwise lw one u lists,
  formats_ok fm -> collection_ok one u lists -> fast_universe u lw ->
  junk_ok junk -> Forall (fast_ok u) (kept_lists a b lists) ->
  let n := N.of_nat (length (kept_lists a b lists)) in
  exists file body,
    build_fast_tries fm junk a b 1 runs levelwise lw (collection_file one u lists) = Ok file /\
    read_fast_header file = Ok (1%N, byte_bool (n mod 256), byte_bool (n / 256 mod 256), (n / 65536)%N,
      le_bytes 4 one ++ le_bytes 4 u ++ body).
Proof.
  intros fm junk a b runs levelwise lw one u lists F C Hu J K n.
  destruct (all_made u lw runs junk (fast_codecs fm 1) _ 0 Hu J K) as (ts & Ets & bs & Ebs).
  eexists. exists (concat bs).
  split; [rewrite fast_build_spec by eauto; rewrite Ebs; cbn [bind]; reflexivity|].
  apply fast_header_il. eapply kept_count; eauto.
Qed.

Theorem selective_loading : forall fm junk a b rank runs levelwise lw one u lists blank queries,
  formats_ok fm -> collection_ok one u lists -> fast_universe u lw -> (rank < 2 ^ 32)%N -> rank <> 1%N ->
  junk_ok junk -> blank_ok blank -> Forall (fast_ok u) (kept_lists a b lists) ->
  concat queries <> [] ->
  exists file rest tries,
    build_fast_tries fm junk a b rank runs levelwise lw (collection_file one u lists) = Ok file /\
    read_fast_header file = Ok (rank, Some runs, Some levelwise, wbits lw, rest) /\
    load_tries (fast_codecs fm rank) (blank lw) queries rest = Ok tries /\
    increasing (map fst tries) /\
    (forall i, In i (map fst tries) <->
               In i (concat queries) /\ (i < N.of_nat (length (kept_lists a b lists)))%N) /\
    (forall i t, In (i, t) tries ->
       (exists t0, fast_make u lw (j_hwr (junk (N.to_nat i))) (j_empty (junk (N.to_nat i))) runs
                             (nth (N.to_nat i) (kept_lists a b lists) []) = Ok t0 /\ refines t0 t) /\
       ((runs = true -> j_empty (junk (N.to_nat i)) = Some false) ->
        fast_decode t [] = Ok (nth (N.to_nat i) (kept_lists a b lists) []))).
Proof.
  intros fm junk a b rank runs levelwise lw one u lists blank queries F C Hu Hr H1 J B K Hq.
  destruct (fast_collection fm junk a b rank runs levelwise lw one u lists blank queries F C Hu Hr H1 J B K Hq)
    as (file & rest & ts & tries & E1 & E2 & E3 & E4 & E5 & E6 & E7).
  exists file, rest, tries. repeat (split; [solve [auto]|]).
  intros i t Hi. destruct (E7 i t Hi) as (t0 & R1 & R2).
  assert (Hi' : In i (map fst tries)) by (apply in_map_iff; exists (i, t); auto).
  apply E6 in Hi'. destruct Hi' as (_ & Hi').
  assert (Hn : nth_error (kept_lists a b lists) (N.to_nat i) = Some (nth (N.to_nat i) (kept_lists a b lists) []))
    by (apply nth_error_nth'; lia).
  assert (Hx : nth_error (indexed 0 (kept_lists a b lists)) (N.to_nat i)
               = Some (N.to_nat i, nth (N.to_nat i) (kept_lists a b lists) [])).
  { rewrite indexed_nth, Hn. reflexivity. }
  destruct (each_ok_nth _ _ _ _ _ _ _ E4 Hx) as (y & Hy & Hyn). rewrite R1 in Hyn. injection Hyn as <-.
  split; [exists t0; auto|]. intros Hj. eapply fast_decode_refines; [exact R2|].
  assert (Hl : fast_ok u (nth (N.to_nat i) (kept_lists a b lists) [])).
  { rewrite Forall_forall in K. apply K. apply nth_In. lia. }
  destruct (fast_made u lw (j_hwr (junk (N.to_nat i))) (j_empty (junk (N.to_nat i))) runs _ Hu Hl (proj1 (J _)))
    as (t1 & M1 & _ & _ & _ & M5).
  unfold made in Hy. cbn [fst snd] in Hy. rewrite Hy in M1. injection M1 as <-. apply (M5 Hj []).
Qed.
