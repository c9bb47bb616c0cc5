(** Proofs about the tools that report statistics of a collection. *)

From Verif Require Import Base FlatTrie Serialize Tools Measures Stats Facts Spec SpecTools
  SpecMeasures SpecStats SerializeFacts ToolsFacts MeasureThms.

(** * Reading *)

Lemma in_read4_app : forall v x rest, (x < 2 ^ 32)%N ->
  in_read4 v (mkIn (le_bytes 4 x ++ rest) false false) = (Some x, mkIn rest false false).
Proof.
  intros v x rest H. unfold in_read4. cbn [in_eof in_fail in_bytes orb].
  rewrite app_length, le_bytes_length. cbn [Nat.leb plus].
  assert (E : firstn 4 (le_bytes 4 x ++ rest) = le_bytes 4 x) by reflexivity.
  assert (F : skipn 4 (le_bytes 4 x ++ rest) = rest) by reflexivity.
  rewrite E, F, le_value_bytes; auto.
Qed.

Lemma last_app1 : forall A (l : list A) x d, last (l ++ [x]) d = x.
Proof. intros. apply last_last. Qed.

Lemma in_values_app : forall l x acc rest, below (2 ^ 32) l -> l <> [] ->
  in_values (length l) x (mkIn (concat (map (le_bytes 4) l) ++ rest) false false) acc
  = Ok (acc ++ l, Some (last l 0%N), mkIn rest false false).
Proof.
  intros l. induction l as [|y l IH]; intros x acc rest H N0; [congruence|].
  inversion H; subst. cbn [length map concat in_values]. rewrite <- app_assoc.
  rewrite in_read4_app by auto. cbn [oget bind].
  destruct l as [|z l].
  - cbn [length in_values map concat app last]. reflexivity.
  - rewrite IH by (auto; discriminate). rewrite <- app_assoc. reflexivity.
Qed.

Lemma in_values_end : forall n x e acc,
  in_values n (Some x) (mkIn [] e true) acc = Ok (acc ++ repeat x n, Some x, mkIn [] e true).
Proof.
  induction n; intros; cbn [in_values repeat].
  - rewrite app_nil_r. reflexivity.
  - unfold in_read4. cbn [in_eof in_fail in_bytes]. rewrite orb_true_r. cbn [oget bind].
    rewrite IHn, <- app_assoc. reflexivity.
Qed.

Lemma in_read4_end : forall v, in_read4 (Some v) (mkIn [] false false) = (Some v, mkIn [] true true).
Proof.
  intros. unfold in_read4. cbn [in_eof in_fail in_bytes orb length Nat.leb option_map le_value].
  change (256 ^ N.of_nat 0)%N with 1%N. rewrite N.div_1_r, N.mul_1_r. reflexivity.
Qed.

(** * One round of the loop *)

Lemma step_long : forall f stop m cf n x l rest t,
  (m < N.of_nat (length l))%N -> shorter 30 l -> below (2 ^ 32) l ->
  coding_loop (S f) stop m cf n x (mkIn (list_bytes l ++ rest) false false) t
  = (let* cols := cf l in
     coding_loop f stop m cf (Some (N.of_nat (length l))) (Some (last l 0%N)) (mkIn rest false false)
       (add_list t (N.of_nat (length l)) cols)).
Proof.
  intros f stop m cf n x l rest t H S B. cbn [coding_loop in_eof]. unfold list_bytes.
  rewrite <- app_assoc, in_read4_app by (apply shorter_len; auto). cbn [oget bind].
  apply N.ltb_lt in H. rewrite H. rewrite Nat2N.id.
  rewrite in_values_app; auto.
  intros ->. cbn in H. destruct m; discriminate.
Qed.

Lemma step_short : forall f m cf n x l rest t,
  (N.of_nat (length l) <= m)%N -> shorter 30 l ->
  coding_loop (S f) false m cf n x (mkIn (list_bytes l ++ rest) false false) t
  = coding_loop f false m cf (Some (N.of_nat (length l))) x (mkIn rest false false) t.
Proof.
  intros f m cf n x l rest t H S. cbn [coding_loop in_eof]. unfold list_bytes.
  rewrite <- app_assoc, in_read4_app by (apply shorter_len; auto). cbn [oget bind].
  apply N.ltb_ge in H. rewrite H. unfold in_skip. cbn [in_fail in_bytes].
  rewrite seek_list_app by auto. reflexivity.
Qed.

Lemma step_stop : forall f m cf n x l rest t,
  (N.of_nat (length l) <= m)%N -> shorter 30 l ->
  coding_loop (S f) true m cf n x (mkIn (list_bytes l ++ rest) false false) t = Ok t.
Proof.
  intros f m cf n x l rest t H S. cbn [coding_loop in_eof]. unfold list_bytes.
  rewrite <- app_assoc, in_read4_app by (apply shorter_len; auto). cbn [oget bind].
  apply N.ltb_ge in H. rewrite H. reflexivity.
Qed.

Lemma end_long : forall f stop m cf n x t, (m < n)%N ->
  coding_loop (S f) stop m cf (Some n) (Some x) (mkIn [] false false) t
  = (let* cols := cf (repeat x (N.to_nat n)) in
     match f with O => OutOfFuel | S _ => Ok (add_list t n cols) end).
Proof.
  intros f stop m cf n x t H. cbn [coding_loop in_eof]. rewrite in_read4_end. cbn [oget bind].
  apply N.ltb_lt in H. rewrite H, in_values_end. cbn [bind app].
  destruct (cf (repeat x (N.to_nat n))); cbn [bind]; auto. destruct f; reflexivity.
Qed.

Lemma stuck_short : forall f m cf n x t, (n <= m)%N ->
  coding_loop f false m cf (Some n) x (mkIn [] false true) t = OutOfFuel.
Proof.
  induction f; intros m cf n x t H; cbn [coding_loop in_eof]; auto.
  unfold in_read4. cbn [in_eof in_fail in_bytes orb oget bind]. assert (H' := H).
  apply N.ltb_ge in H'. rewrite H'. unfold in_skip. cbn [in_fail in_bytes]. apply IHf; auto.
Qed.

Lemma end_short : forall f m cf n x t, (n <= m)%N ->
  coding_loop f false m cf (Some n) x (mkIn [] false false) t = OutOfFuel.
Proof.
  intros [|f] m cf n x t H; cbn [coding_loop in_eof]; auto.
  rewrite in_read4_end. cbn [oget bind]. assert (H' := H). apply N.ltb_ge in H'. rewrite H'.
  unfold in_skip. cbn [in_fail in_bytes]. apply stuck_short; auto.
Qed.

(** * All lists *)

Definition add_lists (cost : list N -> list N) (lists : list (list N)) (t : totals) : totals :=
  fold_left (fun t l => add_list t (N.of_nat (length l)) (cost l)) lists t.

Lemma long_cons : forall m l lists, long_lists m (l :: lists) =
  if N.ltb m (N.of_nat (length l)) then l :: long_lists m lists else long_lists m lists.
Proof. reflexivity. Qed.

Lemma long_app : forall m a b, long_lists m (a ++ b) = long_lists m a ++ long_lists m b.
Proof. intros. apply filter_app. Qed.

Definition lists_fit (lists : list (list N)) : Prop :=
  Forall (shorter 30) lists /\ Forall (below (2 ^ 32)) lists.

(** Skipping short lists, all but the last list. *)
Lemma loop_lists : forall m cf cost lists f n x rest t, lists_fit lists ->
  Forall (fun l => cf l = Ok (cost l)) (long_lists m lists) ->
  exists n' x',
  coding_loop (length lists + f) false m cf n x (mkIn (concat (map list_bytes lists) ++ rest) false false) t
  = coding_loop f false m cf n' x' (mkIn rest false false) (add_lists cost (long_lists m lists) t).
Proof.
  intros m cf cost. induction lists as [|l lists IH]; intros f n x rest t (Hs & Hb) Hc.
  - exists n, x. reflexivity.
  - inversion Hs; subst. inversion Hb; subst. cbn [map concat length plus]. rewrite <- app_assoc.
    rewrite long_cons in *. destruct (N.ltb_spec m (N.of_nat (length l))) as [K|K].
    + inversion Hc; subst. rewrite step_long by auto. rewrite H5. cbn [bind].
      apply IH; auto. split; auto.
    + rewrite step_short by auto. apply IH; auto. split; auto.
Qed.

Lemma loop_lists_fuel : forall m cf cost lists f n x rest t, lists_fit lists ->
  Forall (fun l => cf l = Ok (cost l)) (long_lists m lists) -> f < length lists ->
  coding_loop f false m cf n x (mkIn (concat (map list_bytes lists) ++ rest) false false) t = OutOfFuel.
Proof.
  intros m cf cost. induction lists as [|l lists IH]; intros f n x rest t (Hs & Hb) Hc L;
    cbn [length] in L; [lia|].
  destruct f as [|f]; [reflexivity|].
  inversion Hs; subst. inversion Hb; subst. cbn [map concat]. rewrite <- app_assoc.
  rewrite long_cons in *. destruct (N.ltb_spec m (N.of_nat (length l))) as [K|K].
  - inversion Hc; subst. rewrite step_long by auto. rewrite H5. cbn [bind].
    apply IH; auto; [|lia]. split; auto.
  - rewrite step_short by auto. apply IH; auto; [|lia]. split; auto.
Qed.

Lemma fit_app : forall a b, lists_fit (a ++ b) -> lists_fit a /\ lists_fit b.
Proof.
  intros a b (H & K). apply Forall_app in H. apply Forall_app in K. unfold lists_fit. tauto.
Qed.

Lemma fit_one : forall l, lists_fit [l] -> shorter 30 l /\ below (2 ^ 32) l.
Proof. intros l (H & K). inversion H; inversion K; auto. Qed.

Lemma concat_last : forall lists l,
  concat (map list_bytes (lists ++ [l])) = concat (map list_bytes lists) ++ list_bytes l ++ [].
Proof. intros. rewrite map_app, concat_app. cbn [map concat]. reflexivity. Qed.

Lemma add_lists_app : forall cost a b t, add_lists cost (a ++ b) t = add_lists cost b (add_lists cost a t).
Proof. intros. apply fold_left_app. Qed.

Lemma repeat_len : forall l : list N, length (last_repeated l) = length l.
Proof. intros. apply repeat_length. Qed.

(** The last list is long: it is counted once more. *)
Theorem loop_last_long : forall m cf cost lists l f n x t, lists_fit (lists ++ [l]) ->
  (m < N.of_nat (length l))%N ->
  Forall (fun l => cf l = Ok (cost l)) (long_lists m (lists ++ [l]) ++ [last_repeated l]) ->
  3 + length lists <= f ->
  coding_loop f false m cf n x (mkIn (concat (map list_bytes (lists ++ [l]))) false false) t
  = Ok (add_lists cost (long_lists m (lists ++ [l]) ++ [last_repeated l]) t).
Proof.
  intros m cf cost lists l f n x t Hf H Hc L. rewrite concat_last.
  destruct (fit_app _ _ Hf) as (F1 & F2). apply fit_one in F2. destruct F2 as (Sh & Bl).
  apply Forall_app in Hc. destruct Hc as (C1 & C2). rewrite long_app in *.
  apply Forall_app in C1. destruct C1 as (C1 & C3).
  replace f with (length lists + S (S (S (f - length lists - 3)))) by lia.
  destruct (loop_lists m cf cost lists (S (S (S (f - length lists - 3)))) n x (list_bytes l ++ []) t F1 C1)
    as (n' & x' & ->).
  rewrite step_long by auto.
  assert (E : long_lists m [l] = [l]).
  { rewrite long_cons. apply N.ltb_lt in H. rewrite H. reflexivity. }
  rewrite E in *. inversion C3; subst. inversion C2; subst. rewrite H2. cbn [bind].
  rewrite end_long by auto. rewrite Nat2N.id. unfold last_repeated in H4. rewrite H4. cbn [bind].
  rewrite !add_lists_app. unfold add_lists at 1 2. cbn [fold_left]. rewrite repeat_len. reflexivity.
Qed.

(** The last list is short: the loop does not end. *)
Theorem loop_last_short : forall m cf cost lists l f n x t, lists_fit (lists ++ [l]) ->
  (N.of_nat (length l) <= m)%N ->
  Forall (fun l => cf l = Ok (cost l)) (long_lists m lists) ->
  coding_loop f false m cf n x (mkIn (concat (map list_bytes (lists ++ [l]))) false false) t
  = OutOfFuel.
Proof.
  intros m cf cost lists l f n x t Hf H Hc. rewrite concat_last.
  destruct (fit_app _ _ Hf) as (F1 & F2). apply fit_one in F2. destruct F2 as (Sh & Bl).
  destruct (Nat.lt_ge_cases f (length lists)) as [K|K]; [eapply loop_lists_fuel; eauto|].
  replace f with (length lists + (f - length lists)) by lia.
  destruct (loop_lists m cf cost lists (f - length lists) n x (list_bytes l ++ []) t F1 Hc)
    as (n' & x' & ->).
  destruct (f - length lists); [reflexivity|]. rewrite step_short by auto. apply end_short; auto.
Qed.

(** Whatever the lists, the number of sets is never right. *)
Lemma loop_wrong : forall m cf lists f n x t t', lists_fit lists -> lists <> [] ->
  coding_loop f false m cf n x (mkIn (concat (map list_bytes lists)) false false) t = Ok t' ->
  t_sets t' = (t_sets t + N.of_nat (length (long_lists m lists)) + 1)%N.
Proof.
  intros m cf. induction lists as [|l lists IH]; intros f n x t t' (Hs & Hb) N0 E; [congruence|].
  destruct f as [|f]; [discriminate|]. inversion Hs; subst. inversion Hb; subst.
  cbn [map concat] in E. rewrite long_cons in *.
  destruct (N.ltb_spec m (N.of_nat (length l))) as [K|K].
  - rewrite step_long in E by auto. destruct (cf l) as [cols|e|]; cbn [bind] in E; try discriminate.
    destruct lists as [|l' lists'].
    + cbn [map concat] in E. destruct f as [|f]; [discriminate|]. rewrite end_long in E by auto.
      destruct (cf (repeat (last l 0%N) (N.to_nat (N.of_nat (length l))))); cbn [bind] in E; try discriminate.
      destruct f; [discriminate|]. injection E as <-. cbn [long_lists filter length].
      unfold add_list. cbn [t_sets]. lia.
    + apply IH in E; [|split; auto|discriminate]. rewrite E.
      unfold add_list. cbn [t_sets length]. lia.
  - rewrite step_short in E by auto. destruct lists as [|l' lists'].
    + cbn [map concat] in E. rewrite end_short in E by auto. discriminate.
    + apply IH in E; [|split; auto|discriminate]. exact E.
Qed.

(** The loop that stops at the first short list. *)
Lemma loop_stop_lists : forall m cf cost lists f n x rest t, lists_fit lists ->
  Forall (fun l => m < N.of_nat (length l))%N lists ->
  Forall (fun l => cf l = Ok (cost l)) lists ->
  exists n' x',
  coding_loop (length lists + f) true m cf n x (mkIn (concat (map list_bytes lists) ++ rest) false false) t
  = coding_loop f true m cf n' x' (mkIn rest false false) (add_lists cost lists t).
Proof.
  intros m cf cost. induction lists as [|l lists IH]; intros f n x rest t (Hs & Hb) Hl Hc.
  - exists n, x. reflexivity.
  - inversion Hs; subst. inversion Hb; subst. inversion Hc; subst. inversion Hl; subst.
    cbn [map concat length plus]. rewrite <- app_assoc.
    rewrite step_long by auto. rewrite H5. cbn [bind]. apply IH; auto. split; auto.
Qed.

Theorem loop_stop_short : forall m cf cost lists l more f n x t, lists_fit (lists ++ l :: more) ->
  Forall (fun l => m < N.of_nat (length l))%N lists -> (N.of_nat (length l) <= m)%N ->
  Forall (fun l => cf l = Ok (cost l)) lists -> 1 + length lists <= f ->
  coding_loop f true m cf n x (mkIn (concat (map list_bytes (lists ++ l :: more))) false false) t
  = Ok (add_lists cost lists t).
Proof.
  intros m cf cost lists l more f n x t Hf Hl H Hc L. rewrite map_app, concat_app. cbn [map concat].
  destruct (fit_app _ _ Hf) as (F1 & F2). destruct F2 as (Sh & _). inversion Sh; subst.
  replace f with (length lists + S (f - length lists - 1)) by lia.
  edestruct (loop_stop_lists m cf cost lists (S (f - length lists - 1))) as (n' & x' & ->); eauto.
  apply step_stop; auto.
Qed.

Theorem loop_stop_long : forall m cf cost lists l f n x t, lists_fit (lists ++ [l]) ->
  Forall (fun l => m < N.of_nat (length l))%N (lists ++ [l]) ->
  Forall (fun l => cf l = Ok (cost l)) ((lists ++ [l]) ++ [last_repeated l]) ->
  3 + length lists <= f ->
  coding_loop f true m cf n x (mkIn (concat (map list_bytes (lists ++ [l]))) false false) t
  = Ok (add_lists cost ((lists ++ [l]) ++ [last_repeated l]) t).
Proof.
  intros m cf cost lists l f n x t Hf Hl Hc L. rewrite concat_last.
  destruct (fit_app _ _ Hf) as (F1 & F2). apply fit_one in F2. destruct F2 as (Sh & Bl).
  apply Forall_app in Hc. destruct Hc as (C1 & C2).
  apply Forall_app in C1. destruct C1 as (C1 & C3).
  apply Forall_app in Hl. destruct Hl as (L1 & L2). inversion L2; subst.
  inversion C3; subst. inversion C2; subst.
  replace f with (length lists + S (S (S (f - length lists - 3)))) by lia.
  destruct (loop_stop_lists m cf cost lists (S (S (S (f - length lists - 3)))) n x (list_bytes l ++ []) t F1 L1 C1)
    as (n' & x' & ->).
  rewrite step_long by auto. rewrite H3. cbn [bind].
  rewrite end_long by auto. rewrite Nat2N.id. unfold last_repeated in H5. rewrite H5. cbn [bind].
  rewrite !add_lists_app. unfold add_lists at 1 2. cbn [fold_left]. rewrite repeat_len. reflexivity.
Qed.

(** * The tools *)

Lemma main_opened : forall f stop m cf k one u lists, collection_ok one u lists ->
  coding_main f stop m cf k (Some (collection_file one u lists))
  = coding_loop f stop m cf None None (mkIn (concat (map list_bytes lists)) false false)
      (mkTotals 0 0 (repeat 0%N k)).
Proof.
  intros f stop m cf k one u lists (H1 & H2 & _). unfold coding_main, collection_file, in_open.
  rewrite in_read4_app by auto. rewrite in_read4_app by auto. destruct stop; reflexivity.
Qed.

Lemma main_empty : forall f stop m cf k one u, collection_ok one u [] -> 0 < f ->
  coding_main f stop m cf k (Some (collection_file one u [])) = UB Indeterminate.
Proof.
  intros f stop m cf k one u H L. rewrite main_opened by auto. destruct f; [lia|]. reflexivity.
Qed.

Lemma main_missing : forall f stop m cf k, 0 < f -> coding_main f stop m cf k None = UB Indeterminate.
Proof. intros f [] m cf k H; destruct f; [lia|reflexivity|lia|reflexivity]. Qed.

Lemma ok_fit : forall one u lists, collection_ok one u lists -> lists_fit lists.
Proof. intros one u lists (_ & _ & _ & H & K). split; auto. Qed.

Theorem main_wrong : forall f m cf k one u lists t, collection_ok one u lists ->
  coding_main f false m cf k (Some (collection_file one u lists)) = Ok t ->
  t_sets t = (N.of_nat (length (long_lists m lists)) + 1)%N.
Proof.
  intros f m cf k one u lists t H E. destruct lists as [|l lists].
  - destruct f; [discriminate|]. rewrite main_empty in E by (auto; lia). discriminate.
  - rewrite main_opened in E by auto. apply loop_wrong in E; [exact E|eapply ok_fit; eauto|discriminate].
Qed.

Lemma add_lists_cons : forall cost l lists t,
  add_lists cost (l :: lists) t = add_lists cost lists (add_list t (N.of_nat (length l)) (cost l)).
Proof. reflexivity. Qed.

Lemma mk_eq : forall a b c a' b' c', a = a' -> b = b' -> c = c' -> mkTotals a b c = mkTotals a' b' c'.
Proof. intros. congruence. Qed.

Lemma sumN_cons : forall x l, sumN (x :: l) = (x + sumN l)%N.
Proof. reflexivity. Qed.

Lemma add_columns : forall (cols : list (list N -> N)) lists n k,
  add_lists (fun l => map (fun c => c l) cols) lists (mkTotals n k (map (fun _ => 0%N) cols))
  = mkTotals (n + total_length lists) (k + N.of_nat (length lists))
      (map (fun c => sumN (map c lists)) cols).
Proof.
  intros cols lists n k.
  assert (G : forall lists n k acc, length acc = length cols ->
    add_lists (fun l => map (fun c => c l) cols) lists (mkTotals n k acc)
    = mkTotals (n + total_length lists) (k + N.of_nat (length lists))
      (add_cols acc (map (fun c => sumN (map c lists)) cols))).
  { clear. induction lists as [|l lists IH]; intros n k acc L.
    - unfold add_lists, total_length. cbn [fold_left map sumN fold_right length]. f_equal; try lia.
      revert acc L. induction cols; intros [|x acc] L; try discriminate; cbn [map add_cols]; auto.
      rewrite N.add_0_r. f_equal. apply IHcols. injection L; auto.
    - rewrite add_lists_cons. unfold add_list. cbn [t_ints t_sets t_cols].
      rewrite IH.
      + apply mk_eq; [unfold total_length; cbn [map]; rewrite sumN_cons; lia|cbn [length]; lia|].
        clear IH. revert acc L. induction cols; intros [|x acc] L; try discriminate; cbn [map add_cols]; auto.
        f_equal; [rewrite sumN_cons; lia|]. apply IHcols. injection L; auto.
      + clear IH. revert acc L. induction cols; intros [|x acc] L; try discriminate; cbn [map add_cols length]; auto. }
  rewrite G by (rewrite map_length; auto). f_equal. clear G.
  induction cols; cbn [map add_cols]; auto. f_equal. apply IHcols.
Qed.
