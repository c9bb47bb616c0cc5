(** Proofs about each of the tools that report statistics. *)

From Verif Require Import Base FlatTrie Serialize Tools Measures Stats Facts Spec SpecTools
  SpecMeasures SpecStats SerializeFacts ToolsFacts MeasureThms StatsThms.
From Coq Require Import Sorting.Permutation.

(** * classic_coders *)

Theorem classic_last_long : forall delta gamma fib m one u lists l f,
  collection_ok one u (lists ++ [l]) -> (m < N.of_nat (length l))%N -> 3 + length lists <= f ->
  let counted := long_lists m (lists ++ [l]) ++ [last_repeated l] in
  classic_coders f delta gamma fib m (Some (collection_file one u (lists ++ [l])))
  = Ok (mkTotals (total_length counted) (N.of_nat (length counted))
          [sumN (map delta counted); sumN (map gamma counted); sumN (map fib counted)]).
Proof.
  intros delta gamma fib m one u lists l f H K L counted. unfold classic_coders.
  rewrite main_opened by auto.
  rewrite (loop_last_long m _ (fun s => map (fun c => c s) [delta; gamma; fib])); auto.
  - f_equal. apply (add_columns [delta; gamma; fib]).
  - eapply ok_fit; eauto.
  - apply Forall_forall. reflexivity.
Qed.

Theorem classic_last_short : forall delta gamma fib m one u lists l f,
  collection_ok one u (lists ++ [l]) -> (N.of_nat (length l) <= m)%N ->
  classic_coders f delta gamma fib m (Some (collection_file one u (lists ++ [l]))) = OutOfFuel.
Proof.
  intros delta gamma fib m one u lists l f H K. unfold classic_coders.
  rewrite main_opened by auto.
  apply (loop_last_short m _ (fun s => map (fun c => c s) [delta; gamma; fib])); auto.
  - eapply ok_fit; eauto.
  - apply Forall_forall. reflexivity.
Qed.

Theorem classic_wrong : forall delta gamma fib m one u lists f t, collection_ok one u lists ->
  classic_coders f delta gamma fib m (Some (collection_file one u lists)) = Ok t ->
  t_sets t = (N.of_nat (length (long_lists m lists)) + 1)%N.
Proof. intros delta gamma fib m one u lists f t. apply main_wrong. Qed.

(** * pom *)

Lemma insert_perm : forall x l, Permutation (insert x l) (x :: l).
Proof.
  induction l; cbn [insert]; auto. destruct (N.leb x a); auto.
  rewrite IHl. constructor.
Qed.

Lemma sort_perm : forall l, Permutation (sort_values l) l.
Proof. induction l; cbn; auto. rewrite insert_perm. auto. Qed.

Lemma insert_sorted : forall x l, nondecreasing l -> nondecreasing (insert x l).
Proof.
  intros x l H. induction H; cbn [insert].
  - constructor; constructor.
  - destruct (N.leb_spec x a).
    + constructor; [constructor; auto|]. constructor; auto.
      eapply Forall_impl; [|exact H0]. cbn. intros. lia.
    + constructor; auto. apply Forall_forall. intros y Hy.
      apply (Permutation_in y (insert_perm x l)) in Hy. rewrite Forall_forall in H0.
      destruct Hy as [<-|Hy]; [lia|auto].
Qed.

Theorem sort_spec : forall l, nondecreasing (sort_values l) /\ Permutation (sort_values l) l.
Proof.
  intros. split; [|apply sort_perm]. induction l; cbn; [constructor|]. apply insert_sorted; auto.
Qed.

Lemma pom_repeat : forall x n, (0 < x < 2 ^ 48)%N ->
  pom_list (repeat x n) = Ok (repeat x n, (N.of_nat n * (2 * N.log2 x + 1))%N).
Proof.
  intros x n Hx. unfold pom_list.
  assert (G : forall n prev sp bits, (prev = None \/ prev = Some x) ->
    pom_loop prev (repeat x n) sp bits = Ok (sp ++ repeat x n, (bits + N.of_nat n * (2 * N.log2 x + 1))%N)).
  { clear n. induction n; intros prev sp bits P; cbn [repeat pom_loop].
    - rewrite app_nil_r. do 2 f_equal. lia.
    - assert (E : match prev with None => Ok x | Some y => prefixOf x y 64 end = Ok x).
      { destruct P as [-> | ->]; auto. apply prefixOf_same. }
      rewrite E. cbn [bind]. rewrite floor_log2_ok by lia. cbn [bind]. rewrite IHn by auto.
      rewrite <- app_assoc. cbn [app]. do 2 f_equal. rewrite Nat2N.inj_succ. lia. }
  rewrite G by auto. reflexivity.
Qed.

(** The first value is positive and the rest increases. *)
Definition positive_list (l : list N) : Prop := increasing l /\ Forall (fun x => 0 < x)%N l.

Lemma pom_long : forall l, positive_list l -> below (2 ^ 32) l -> exists r, pom_list l = Ok r.
Proof.
  intros [|x l] (H & P) B; [eexists; reflexivity|]. inversion P; subst.
  destruct (pom_list_spec x l) as (sp & E & _); auto; [|eexists; exact E].
  eapply Forall_impl; [|exact B]. cbn. intros a K. eapply N.lt_trans; [exact K|reflexivity].
Qed.

Lemma last_In : forall (l : list N) d, l <> [] -> In (last l d) l.
Proof.
  intros l d H. destruct (exists_last H) as (l' & x & ->). rewrite last_last. apply in_or_app.
  right. left. reflexivity.
Qed.

Definition pom_result (l : list N) : list N * N :=
  match pom_list l with Ok r => r | _ => ([], 0%N) end.

Lemma pom_results : forall lists, Forall (fun l => exists r, pom_list l = Ok r) lists ->
  Forall2 (fun l r => pom_list l = Ok r) lists (map pom_result lists).
Proof.
  intros lists H. induction H; cbn [map]; constructor; auto.
  destruct H as (r & E). unfold pom_result. rewrite E. reflexivity.
Qed.

Lemma positive_repeated : forall l, positive_list l -> below (2 ^ 32) l -> exists r, pom_list (last_repeated l) = Ok r.
Proof.
  intros l (H & P) B. destruct l as [|x l]; [eexists; reflexivity|].
  assert (I := last_In (x :: l) 0%N ltac:(discriminate)).
  unfold last_repeated. remember (last (x :: l) 0%N) as y. remember (x :: l) as l'.
  rewrite Forall_forall in P. unfold below in B. rewrite Forall_forall in B.
  eexists. apply pom_repeat. split; [apply P; auto|].
  eapply N.lt_trans; [apply B; exact I|reflexivity].
Qed.

Theorem pom_last_long : forall delta gamma fib m one u lists l f,
  collection_ok one u (lists ++ [l]) -> Forall positive_list (long_lists m (lists ++ [l])) ->
  (m < N.of_nat (length l))%N -> 3 + length lists <= f ->
  let counted := long_lists m (lists ++ [l]) ++ [last_repeated l] in
  exists suffixes, Forall2 (fun l r => pom_list l = Ok r) counted suffixes /\
  pom f delta gamma fib m (Some (collection_file one u (lists ++ [l])))
  = Ok (mkTotals (total_length counted) (N.of_nat (length counted))
          [sumN (map (fun r => delta (sort_values (fst r))) suffixes);
           sumN (map (fun r => gamma (sort_values (fst r))) suffixes);
           sumN (map (fun r => fib (sort_values (fst r))) suffixes);
           sumN (map snd suffixes)]).
Proof.
  intros delta gamma fib m one u lists l f H P K L counted.
  assert (F := ok_fit _ _ _ H). destruct F as (F1 & F2).
  assert (Hp : Forall (fun l => exists r, pom_list l = Ok r) counted).
  { apply Forall_app. split.
    - apply Forall_forall. intros l' I. rewrite Forall_forall in P. apply pom_long; auto.
      rewrite Forall_forall in F2. apply F2. apply filter_In in I. tauto.
    - constructor; auto. rewrite long_app in P. apply Forall_app in P. destruct P as (_ & P).
      rewrite long_cons in P. apply N.ltb_lt in K. rewrite K in P. inversion P; subst.
      apply positive_repeated; auto. apply Forall_app in F2. destruct F2 as (_ & F2). inversion F2; auto. }
  exists (map pom_result counted). split; [apply pom_results; auto|].
  unfold pom. rewrite main_opened by auto.
  pose (cols := [fun s => delta (sort_values (fst (pom_result s))); fun s => gamma (sort_values (fst (pom_result s)));
                 fun s => fib (sort_values (fst (pom_result s))); fun s => snd (pom_result s)]).
  rewrite (loop_last_long m _ (fun s => map (fun c => c s) cols)); auto.
  - f_equal. rewrite !map_map. apply (add_columns cols).
  - split; auto.
  - eapply Forall_impl; [|exact Hp]. cbn. intros s ((sp & b) & E). rewrite E. cbn [bind].
    unfold pom_result. rewrite E. reflexivity.
Qed.

Theorem pom_last_short : forall delta gamma fib m one u lists l f,
  collection_ok one u (lists ++ [l]) -> Forall positive_list (long_lists m lists) ->
  (N.of_nat (length l) <= m)%N ->
  pom f delta gamma fib m (Some (collection_file one u (lists ++ [l]))) = OutOfFuel.
Proof.
  intros delta gamma fib m one u lists l f H P K.
  assert (F := ok_fit _ _ _ H). destruct F as (F1 & F2).
  unfold pom. rewrite main_opened by auto.
  apply (loop_last_short m _ (fun s => [delta (sort_values (fst (pom_result s))); gamma (sort_values (fst (pom_result s)));
                 fib (sort_values (fst (pom_result s))); snd (pom_result s)])); auto.
  - split; auto.
  - apply Forall_forall. intros l' I. rewrite Forall_forall in P. destruct (pom_long l') as ((sp & b) & E); auto.
    + rewrite Forall_forall in F2. apply F2. apply in_or_app. left. apply filter_In in I. tauto.
    + rewrite E. cbn [bind]. unfold pom_result. rewrite E. reflexivity.
Qed.

Theorem pom_wrong : forall delta gamma fib m one u lists f t, collection_ok one u lists ->
  pom f delta gamma fib m (Some (collection_file one u lists)) = Ok t ->
  t_sets t = (N.of_nat (length (long_lists m lists)) + 1)%N.
Proof. intros delta gamma fib m one u lists f t. apply main_wrong. Qed.

(** * cbv_coding *)

Lemma mark_spec : forall s bv, Forall (fun x => x < N.of_nat (length bv))%N s ->
  exists bv', mark s bv = Ok bv' /\ length bv' = length bv /\
    forall i b, nth_error bv i = Some b ->
      nth_error bv' i = Some (b || existsb (N.eqb (N.of_nat i)) s)%bool.
Proof.
  intros s. induction s as [|x s IH]; intros bv H; cbn [mark].
  - exists bv. split; auto. split; auto. intros i b E. rewrite E. cbn. rewrite orb_false_r. reflexivity.
  - inversion H; subst. assert (K := H2). apply N.ltb_lt in K. rewrite K.
    destruct (vset_spec _ bv (N.to_nat x) true) as (bv1 & E1 & L1 & G1); [lia|].
    rewrite E1. cbn [bind]. destruct (IH bv1) as (bv' & E & L & G); [rewrite L1; auto|].
    exists bv'. split; auto. split; [congruence|]. intros i b Hi. cbn [existsb].
    rewrite (G i (if i =? N.to_nat x then true else b)) by (rewrite G1; destruct (i =? N.to_nat x); auto).
    f_equal. destruct (Nat.eqb_spec i (N.to_nat x)) as [->|Ne].
    + rewrite N2Nat.id, N.eqb_refl. destruct b; reflexivity.
    + destruct (N.eqb_spec (N.of_nat i) x); [lia|]. reflexivity.
Qed.

Lemma nth_error_nrange : forall n p i, i < n -> nth_error (nrange p n) i = Some (p + N.of_nat i)%N.
Proof.
  induction n; intros p i H; [lia|]. cbn [nrange]. destruct i as [|i]; cbn [nth_error].
  - f_equal. lia.
  - rewrite IHn by lia. f_equal. lia.
Qed.

Lemma nth_error_ext : forall A (a b : list A), length a = length b ->
  (forall i x, nth_error b i = Some x -> nth_error a i = Some x) -> a = b.
Proof.
  intros A a. induction a as [|x a IH]; intros [|y b] L H; try discriminate; auto.
  assert (E := H 0 y eq_refl). cbn in E. injection E as ->. f_equal. apply IH; auto.
  intros i z Hz. exact (H (S i) z Hz).
Qed.

Lemma characteristic_spec : forall l, l <> [] -> Forall (fun x => x <= last l 0)%N l ->
  characteristic l = Ok (member_bits l).
Proof.
  intros l N0 H. unfold characteristic.
  assert (E : vget l (length l - 1) = Ok (last l 0%N)).
  { clear - N0. destruct (exists_last N0) as (l' & x & ->). rewrite last_last, app_length.
    cbn [length]. unfold vget. rewrite nth_error_app2 by lia.
    replace (length l' + 1 - 1 - length l') with 0 by lia. reflexivity. }
  rewrite E. cbn [bind]. unfold bv_make. set (k := N.to_nat (last l 0 + 1)%N).
  destruct (mark_spec l (repeat false k)) as (bv & E1 & L1 & G1).
  { rewrite repeat_length. eapply Forall_impl; [|exact H]. cbn. intros a Ha. unfold k. lia. }
  rewrite E1. f_equal. rewrite repeat_length in L1. unfold member_bits. fold k.
  apply nth_error_ext; [rewrite map_length, nrange_length; auto|].
  intros i b Hb. assert (Hi : i < k).
  { assert (Q : nth_error (map (fun v => existsb (N.eqb v) l) (nrange 0 k)) i <> None) by congruence.
    apply nth_error_Some in Q. rewrite map_length, nrange_length in Q. exact Q. }
  rewrite (map_nth_error _ i _ (nth_error_nrange k 0 i Hi)) in Hb. injection Hb as <-.
  rewrite (G1 i false); [reflexivity|].
  apply nth_error_repeat; auto.
Qed.

Lemma increasing_last : forall l d, increasing l -> Forall (fun x => x <= last l d)%N l.
Proof.
  intros l d H. induction H as [|x l H IH F]; [constructor|]. destruct l as [|y l].
  - constructor; [cbn; lia|constructor].
  - change (last (x :: y :: l) d) with (last (y :: l) d). constructor; auto.
    inversion F; subst. inversion IH; subst. lia.
Qed.

Lemma last_repeat : forall (x : N) n d, last (repeat x (S n)) d = x.
Proof. induction n; intros; auto. change (last (repeat x (S n)) d = x). auto. Qed.

Lemma repeated_last : forall l, Forall (fun x => x <= last (last_repeated l) 0)%N (last_repeated l).
Proof.
  intros [|y l]; [constructor|]. unfold last_repeated. set (x := last (y :: l) 0%N).
  change (length (y :: l)) with (S (length l)). rewrite last_repeat.
  apply Forall_forall. intros z I. apply repeat_spec in I. subst. lia.
Qed.

Lemma long_ne : forall m (l : list N), (m < N.of_nat (length l))%N -> l <> [].
Proof. intros m l H ->. cbn in H. lia. Qed.

Theorem cbv_all_long : forall hyb m one u lists l f,
  collection_ok one u (lists ++ [l]) -> Forall increasing (lists ++ [l]) ->
  Forall (fun l => m < N.of_nat (length l))%N (lists ++ [l]) -> 3 + length lists <= f ->
  let counted := (lists ++ [l]) ++ [last_repeated l] in
  cbv_coding f hyb m (Some (collection_file one u (lists ++ [l])))
  = Ok (mkTotals (total_length counted) (N.of_nat (length counted))
          [0%N; 0%N; sumN (map (fun l => hyb (member_bits l)) counted)]).
Proof.
  intros hyb m one u lists l f H I K L counted. unfold cbv_coding. rewrite main_opened by auto.
  pose (cols := [fun _ => 0%N; fun _ => 0%N; fun s => hyb (member_bits s)]).
  rewrite (loop_stop_long m _ (fun s => map (fun c => c s) cols)); auto.
  - f_equal. change (repeat 0%N 3) with (map (fun _ : list N -> N => 0%N) cols).
    rewrite (add_columns cols). rewrite !N.add_0_l. apply mk_eq; [reflexivity|reflexivity|]. unfold cols. cbn [map].
    assert (Z : forall ls : list (list N), sumN (map (fun _ => 0%N) ls) = 0%N).
    { induction ls; cbn [map]; auto. }
    rewrite Z. reflexivity.
  - eapply ok_fit; eauto.
  - apply Forall_app. split.
    + rewrite Forall_forall in *. intros s Hs. rewrite characteristic_spec; auto.
      * eapply long_ne; apply K; auto.
      * apply increasing_last; auto.
    + constructor; auto. rewrite characteristic_spec; auto; [|apply repeated_last].
      apply Forall_app in K. destruct K as (_ & K). inversion K; subst.
      apply long_ne with m. rewrite repeat_len. auto.
Qed.

Theorem cbv_first_short : forall hyb m one u lists l more f,
  collection_ok one u (lists ++ l :: more) -> Forall increasing lists ->
  Forall (fun l => m < N.of_nat (length l))%N lists -> (N.of_nat (length l) <= m)%N ->
  1 + length lists <= f ->
  cbv_coding f hyb m (Some (collection_file one u (lists ++ l :: more)))
  = Ok (mkTotals (total_length lists) (N.of_nat (length lists))
          [0%N; 0%N; sumN (map (fun l => hyb (member_bits l)) lists)]).
Proof.
  intros hyb m one u lists l more f H I K K' L. unfold cbv_coding. rewrite main_opened by auto.
  pose (cols := [fun _ => 0%N; fun _ => 0%N; fun s => hyb (member_bits s)]).
  rewrite (loop_stop_short m _ (fun s => map (fun c => c s) cols)); auto.
  - f_equal. change (repeat 0%N 3) with (map (fun _ : list N -> N => 0%N) cols).
    rewrite (add_columns cols). rewrite !N.add_0_l. apply mk_eq; [reflexivity|reflexivity|]. unfold cols. cbn [map].
    assert (Z : forall ls : list (list N), sumN (map (fun _ => 0%N) ls) = 0%N).
    { induction ls; cbn [map]; auto. }
    rewrite Z. reflexivity.
  - eapply ok_fit; eauto.
  - rewrite Forall_forall in *. intros s Hs. rewrite characteristic_spec; auto.
    * eapply long_ne; apply K; auto.
    * apply increasing_last; auto.
Qed.
