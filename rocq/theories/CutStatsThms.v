(** Collections that end too early, given to the tools that report statistics. *)

From Verif Require Import Base FlatTrie Serialize Tries Tools Measures Stats
  Facts Spec SpecTools SpecMeasures SpecStats SpecCut SpecCutInput SpecCutStats SerializeFacts
  InterRefute ToolsFacts StatsThms StatsTools StatsMeasures CutInputThms.

(** * Totals *)

Definition add_rows (counted : list (list N)) (rows : list (list N)) (t : totals) : totals :=
  fold_left (fun t p => add_list t (N.of_nat (length (fst p))) (snd p)) (combine counted rows) t.

Lemma add_cols_nth : forall a b j, length b = length a -> j < length a ->
  nth j (add_cols a b) 0%N = (nth j a 0 + nth j b 0)%N.
Proof.
  induction a as [|x a IH]; intros [|y b] j L J; cbn [length] in *; try lia.
  cbn [add_cols]. destruct j as [|j]; [reflexivity|]. cbn [nth]. apply IH; lia.
Qed.

Lemma add_cols_length : forall a b, length b = length a -> length (add_cols a b) = length a.
Proof. induction a as [|x a IH]; intros [|y b] L; cbn [length add_cols] in *; try lia. f_equal. apply IH. lia. Qed.

Lemma add_rows_spec : forall n counted rows a b cols, length rows = length counted -> length cols = n ->
  Forall (fun row => length row = n) rows ->
  add_rows counted rows (mkTotals a b cols)
  = mkTotals (a + total_length counted) (b + N.of_nat (length counted))
      (map (fun j => nth j cols 0 + sumN (map (fun row => nth j row 0) rows))%N (seq 0 n)).
Proof.
  intros n. induction counted as [|l counted IH]; intros [|row rows] a b cols L C R; try discriminate.
  - unfold add_rows, total_length. cbn [combine fold_left map sumN fold_right length].
    rewrite !N.add_0_r. f_equal. rewrite <- C. clear. apply nth_ext with (d := 0%N) (d' := 0%N).
    + rewrite map_length, seq_length. reflexivity.
    + intros j J. rewrite (nth_indep (map _ _) 0%N (nth 0 cols 0 + 0)%N) by (rewrite map_length, seq_length; auto).
      rewrite (map_nth (fun j => nth j cols 0 + 0)%N). rewrite seq_nth by auto. cbn [plus]. rewrite N.add_0_r. reflexivity.
  - inversion R as [|? ? R0 R']; subst. unfold add_rows. cbn [combine fold_left fst snd].
    fold (add_rows counted rows (add_list (mkTotals a b cols) (N.of_nat (length l)) row)).
    unfold add_list. cbn [t_ints t_sets t_cols].
    rewrite IH; auto.
    2: rewrite add_cols_length; auto.
    unfold total_length. cbn [map length]. rewrite sumN_cons, Nat2N.inj_succ. f_equal; try lia.
    apply map_ext_in. intros j J. apply in_seq in J. rewrite sumN_cons, add_cols_nth by lia. lia.
Qed.

Lemma each_ok_app : forall A B (f : A -> result B) a b,
  each_ok f (a ++ b) = (let* x := each_ok f a in let* y := each_ok f b in Ok (x ++ y)).
Proof.
  intros A B f a b. induction a as [|z a IH]; cbn [app each_ok bind].
  - destruct (each_ok f b); reflexivity.
  - destruct (f z); cbn [bind]; auto. rewrite IH. destruct (each_ok f a); cbn [bind]; auto.
    destruct (each_ok f b); reflexivity.
Qed.

Lemma each_ok_length : forall A B (f : A -> result B) l ys, each_ok f l = Ok ys -> length ys = length l.
Proof.
  intros A B f. induction l as [|x l IH]; intros ys E; cbn [each_ok] in E.
  - injection E as <-. reflexivity.
  - apply bind_inv in E. destruct E as (y & _ & E). apply bind_inv in E. destruct E as (ys' & E & X).
    injection X as <-. cbn [length]. f_equal. auto.
Qed.

Lemma each_ok_all : forall A B (f : A -> result B) (P : B -> Prop) l ys,
  (forall x y, f x = Ok y -> P y) -> each_ok f l = Ok ys -> Forall P ys.
Proof.
  intros A B f P. induction l as [|x l IH]; intros ys H E; cbn [each_ok] in E.
  - injection E as <-. constructor.
  - apply bind_inv in E. destruct E as (y & E0 & E). apply bind_inv in E. destruct E as (ys' & E & X).
    injection X as <-. constructor; eauto.
Qed.

Lemma totals_rows : forall n cf counted, (forall l row, cf l = Ok row -> length row = n) ->
  totals_of n cf counted
  = (let* rows := each_ok cf counted in Ok (add_rows counted rows (mkTotals 0 0 (repeat 0%N n)))).
Proof.
  intros n cf counted H. unfold totals_of. destruct (each_ok cf counted) as [rows|e|] eqn:E; cbn [bind]; auto.
  rewrite (add_rows_spec n).
  - rewrite !N.add_0_l. unfold column_sums. do 2 f_equal. apply map_ext_in. intros j J.
    rewrite nth_repeat. reflexivity.
  - eapply each_ok_length; eauto.
  - apply repeat_length.
  - eapply each_ok_all; eauto.
Qed.

(** * Complete lists *)

Definition next_n (n : option N) (lists : list (list N)) : option N :=
  match lists with [] => n | _ => Some (N.of_nat (length (last lists []))) end.

Definition next_x (x : option N) (values : list N) : option N :=
  match values with [] => x | _ => Some (last values 0%N) end.

Lemma last_app_ne : forall A (a b : list A) d, b <> [] -> last (a ++ b) d = last b d.
Proof.
  intros A a b d N0. destruct (exists_last N0) as (b' & x & ->). rewrite app_assoc, !last_last. reflexivity.
Qed.

Lemma next_x_app : forall x a b, next_x (next_x x a) b = next_x x (a ++ b).
Proof.
  intros x a b. destruct b as [|y b].
  - cbn [next_x]. rewrite app_nil_r. reflexivity.
  - assert (E : last (a ++ y :: b) 0%N = last (y :: b) 0%N) by (apply last_app_ne; discriminate).
    unfold next_x at 1 3. rewrite E. destruct a; reflexivity.
Qed.

Lemma next_n_cons : forall n l lists, next_n (Some (N.of_nat (length l))) lists = next_n n (l :: lists).
Proof. intros n l [|l' lists]; reflexivity. Qed.

Lemma loop_complete : forall stop m cf lists f n x rest t, lists_fit lists ->
  (stop = true -> all_long m lists) ->
  coding_loop (length lists + f) stop m cf n x (mkIn (concat (map list_bytes lists) ++ rest) false false) t
  = (let* rows := each_ok cf (long_lists m lists) in
     coding_loop f stop m cf (next_n n lists) (next_x x (concat (long_lists m lists))) (mkIn rest false false)
       (add_rows (long_lists m lists) rows t)).
Proof.
  intros stop m cf. induction lists as [|l lists IH]; intros f n x rest t (Hs & Hb) Hl.
  - reflexivity.
  - inversion Hs; subst. inversion Hb; subst. cbn [map concat length plus]. rewrite <- app_assoc.
    assert (Hl' : stop = true -> (m < N.of_nat (length l))%N /\ all_long m lists).
    { intros X. specialize (Hl X). unfold all_long in Hl. rewrite long_cons in Hl.
      destruct (N.ltb_spec m (N.of_nat (length l))) as [K|K].
      - injection Hl as Hl. auto.
      - exfalso. assert (Q := f_equal (@length _) Hl). cbn [length] in Q.
        assert (Z : length (long_lists m lists) <= length lists).
        { clear. unfold long_lists. induction lists as [|y lists IH]; cbn [filter length]; [lia|].
          destruct (m <? N.of_nat (length y))%N; cbn [length]; lia. }
        lia. }
    rewrite long_cons. destruct (N.ltb_spec m (N.of_nat (length l))) as [K|K].
    + rewrite step_long by auto. cbn [each_ok bind]. destruct (cf l) as [row|e|]; cbn [bind]; auto.
      rewrite IH; [|split; auto|intros; apply Hl'; auto].
      destruct (each_ok cf (long_lists m lists)) as [rows|e|]; cbn [bind]; auto.
      rewrite (next_n_cons n). cbn [concat].
      rewrite <- next_x_app. destruct l as [|y l']; [exfalso; eapply (long_ne m); eauto|].
      reflexivity.
    + destruct stop; [exfalso; destruct (Hl' eq_refl); lia|].
      rewrite step_short by auto. rewrite IH; [|split; auto|discriminate]. rewrite (next_n_cons n). reflexivity.
Qed.

(** * The list in which the file stops *)

Lemma in_values_more : forall n m x i acc,
  in_values (n + m) x i acc = (let* (s, x, i) := in_values n x i acc in in_values m x i s).
Proof. exact in_values_plus. Qed.

(** The values of [l] up to the end of the file. *)
Lemma values_end : forall l k r x acc v, below (2 ^ 32) l -> k < length l -> r < 4 ->
  next_x x (firstn k l) = Some v ->
  let y := low_bytes r (nth k l 0%N) v in
  in_values (length l) x
    (mkIn (concat (map (le_bytes 4) (firstn k l)) ++ firstn r (le_bytes 4 (nth k l 0%N))) false false) acc
  = Ok (acc ++ padded k y l, Some y, mkIn [] true true).
Proof.
  intros l k r x acc v Hb K Hr Hx y.
  assert (Lk : length (firstn k l) = k) by (rewrite firstn_length; lia).
  assert (Hbk : below (2 ^ 32) (firstn k l)).
  { unfold below in *. rewrite <- (firstn_skipn k l) in Hb. apply Forall_app in Hb. tauto. }
  replace (length l) with (length (firstn k l) + S (length l - k - 1)) by lia.
  rewrite in_values_plus, in_values_some by auto.
  change (match firstn k l with [] => x | _ => Some (last (firstn k l) 0%N) end) with (next_x x (firstn k l)).
  rewrite Hx. cbn [bind in_values].
  rewrite in_read4_part by auto. cbn [oget bind]. fold y. rewrite in_values_end. unfold padded.
  assert (R : repeat y (length l - k) = y :: repeat y (length l - k - 1)).
  { destruct (length l - k) as [|d] eqn:D; [lia|]. cbn [repeat]. repeat f_equal. lia. }
  rewrite R. rewrite <- !app_assoc. reflexivity.
Qed.

Lemma values_unset : forall n t, length t < 4 -> in_values (S n) None (mkIn t false false) [] = UB Indeterminate.
Proof. intros n t H. cbn [in_values]. rewrite in_read4_short by auto. reflexivity. Qed.

Section Coders.
  Variable stop : bool.
  Variable m : N.
  Variable cf : list N -> result (list N).
  Variable ncols : nat.
  Hypothesis Hcols : forall l row, cf l = Ok row -> length row = ncols.

  Lemma main_split : forall f one u w, (one < 2 ^ 32)%N -> (u < 2 ^ 32)%N ->
    coding_main f stop m cf ncols (Some (le_bytes 4 one ++ le_bytes 4 u ++ w))
    = coding_loop f stop m cf None None (mkIn w false false) (mkTotals 0 0 (repeat 0%N ncols)).
  Proof. clear Hcols.
    intros f one u w H1 H2. unfold coding_main, in_open.
    rewrite in_read4_app by auto. rewrite in_read4_app by auto. destruct stop; reflexivity.
  Qed.

  Lemma fit_split : forall one u before l more, collection_ok one u (before ++ l :: more) ->
    (one < 2 ^ 32)%N /\ (u < 2 ^ 32)%N /\ lists_fit before /\ shorter 30 l /\ below (2 ^ 32) l.
  Proof. clear Hcols.
    intros one u before l more (H1 & H2 & H3 & H4 & H5).
    apply Forall_app in H4. apply Forall_app in H5. destruct H4 as (A4 & B4). destruct H5 as (A5 & B5).
    inversion B4; subst. inversion B5; subst. repeat split; auto.
  Qed.

  Theorem coders_inside : forall one u before l more k r fuel,
    collection_ok one u (before ++ l :: more) -> (stop = true -> all_long m before) ->
    (m < N.of_nat (length l))%N -> k < length l -> r < 4 -> 2 + length before <= fuel ->
    values_read m before k l <> [] ->
    let p := length (collection_file one u before) + 4 + 4 * k + r in
    let y := low_bytes r (nth k l 0%N) (last (values_read m before k l) 0%N) in
    coding_main fuel stop m cf ncols (Some (cut_at p (collection_file one u (before ++ l :: more))))
    = totals_of ncols cf (long_lists m before ++ [padded k y l]).
  Proof.
    intros one u before l more k r fuel HC Hst H K Hr L Hne p y.
    unfold p. rewrite cut_values by auto. destruct (fit_split _ _ _ _ _ HC) as (H1 & H2 & HF & Sh & Bl).
    rewrite main_split by auto. replace fuel with (length before + S (S (fuel - length before - 2))) by lia.
    rewrite loop_complete by auto. rewrite totals_rows by auto. rewrite each_ok_app.
    rewrite bind_assoc. destruct (each_ok cf (long_lists m before)) as [rows|e|] eqn:E; cbn [bind]; auto.
    cbn [coding_loop in_eof]. rewrite in_read4_app by (apply shorter_len; auto). cbn [oget bind].
    assert (H' := H). apply N.ltb_lt in H'. rewrite H', Nat2N.id.
    rewrite (values_end l k r _ [] (last (values_read m before k l) 0%N)); auto.
    2: { rewrite next_x_app. fold (values_read m before k l). destruct (values_read m before k l); [congruence|reflexivity]. }
    fold y. cbn [bind app each_ok]. destruct (cf (padded k y l)) as [row|e|]; cbn [bind]; auto.
    cbn [in_eof]. f_equal. unfold add_rows.
    assert (Pl : length (padded k y l) = length l).
    { unfold padded. rewrite app_length, repeat_length, firstn_length. lia. }
    assert (Lr := each_ok_length _ _ _ _ _ E).
    assert (C : forall (a : list (list N)) (b : list (list N)) x z, length a = length b ->
      combine (a ++ [x]) (b ++ [z]) = combine a b ++ [(x, z)]).
    { clear. induction a; intros [|w b] x z L; try discriminate; cbn [app combine]; auto. f_equal. apply IHa. auto. }
    rewrite C by auto. rewrite fold_left_app. cbn [fold_left fst snd]. rewrite Pl. reflexivity.
  Qed.

  (** No value has been read before. *)
  Theorem coders_inside_unset : forall one u before l more r fuel,
    collection_ok one u (before ++ l :: more) -> (stop = true -> all_long m before) ->
    (m < N.of_nat (length l))%N -> r < 4 -> 1 + length before <= fuel ->
    long_lists m before = [] ->
    let p := length (collection_file one u before) + 4 + r in
    coding_main fuel stop m cf ncols (Some (cut_at p (collection_file one u (before ++ l :: more))))
    = UB Indeterminate.
  Proof. clear Hcols.
    intros one u before l more r fuel HC Hst H Hr L Hne p.
    unfold p. assert (N0 : l <> []) by (eapply long_ne; eauto).
    replace (length (collection_file one u before) + 4 + r) with (length (collection_file one u before) + 4 + 4 * 0 + r) by lia.
    assert (P0 : 0 < length l) by (destruct l; [congruence|cbn [length]; lia]).
    rewrite cut_values by auto.
    destruct (fit_split _ _ _ _ _ HC) as (H1 & H2 & HF & Sh & Bl).
    rewrite main_split by auto. replace fuel with (length before + S (fuel - length before - 1)) by lia.
    rewrite loop_complete by auto. rewrite Hne. cbn [each_ok bind concat next_x].
    cbn [coding_loop in_eof]. rewrite in_read4_app by (apply shorter_len; auto). cbn [oget bind].
    apply N.ltb_lt in H. rewrite H, Nat2N.id. cbn [firstn map concat app].
    destruct l as [|y l]; [congruence|]. cbn [length].
    rewrite values_unset; auto. rewrite firstn_length, le_bytes_length. lia.
  Qed.

  Lemma cut_length : forall one u before l more r, r < 4 ->
    cut_at (length (collection_file one u before) + r) (collection_file one u (before ++ l :: more))
    = le_bytes 4 one ++ le_bytes 4 u ++ concat (map list_bytes before) ++ firstn r (le_bytes 4 (N.of_nat (length l))).
  Proof. clear Hcols.
    intros one u before l more r Hr. rewrite <- file_split, file_app. unfold cut_at.
    rewrite firstn_app_2. f_equal. cbn [map concat]. unfold list_bytes at 1. rewrite <- app_assoc, firstn_app, le_bytes_length.
    replace (r - 4) with 0 by lia. cbn [firstn]. apply app_nil_r.
  Qed.

  (** The file stops in the length of [l]. *)
  Theorem coders_length : forall one u before l more r fuel,
    collection_ok one u (before ++ l :: more) -> (stop = true -> all_long m before) ->
    r < 4 -> 2 + length before <= fuel ->
    long_lists m before <> [] -> (m < length_read r before l)%N ->
    let p := length (collection_file one u before) + r in
    let y := last (concat (long_lists m before)) 0%N in
    coding_main fuel stop m cf ncols (Some (cut_at p (collection_file one u (before ++ l :: more))))
    = totals_of ncols cf (long_lists m before ++ [repeat y (N.to_nat (length_read r before l))]).
  Proof.
    intros one u before l more r fuel HC Hst Hr L Hne H p y.
    unfold p. rewrite cut_length by auto. destruct (fit_split _ _ _ _ _ HC) as (H1 & H2 & HF & Sh & Bl).
    rewrite main_split by auto. replace fuel with (length before + S (S (fuel - length before - 2))) by lia.
    rewrite loop_complete by auto. rewrite totals_rows by auto. rewrite each_ok_app.
    rewrite bind_assoc. destruct (each_ok cf (long_lists m before)) as [rows|e|] eqn:E; cbn [bind]; auto.
    cbn [coding_loop in_eof].
    assert (Hb : before <> []) by (intros ->; apply Hne; reflexivity).
    assert (En : next_n None before = Some (N.of_nat (length (last before [])))).
    { destruct before; [congruence|reflexivity]. }
    rewrite En, in_read4_part by auto. cbn [oget bind]. fold (length_read r before l).
    assert (H' := H). apply N.ltb_lt in H'. rewrite H'.
    assert (Ex : next_x None (concat (long_lists m before)) = Some y).
    { unfold next_x, y. destruct (concat (long_lists m before)) eqn:Q; [|reflexivity].
      exfalso. destruct (long_lists m before) as [|z zs] eqn:Z; [congruence|]. cbn [concat] in Q.
      assert (I : In z (long_lists m before)) by (rewrite Z; left; reflexivity).
      apply filter_In in I. destruct I as (_ & I). apply N.ltb_lt in I. apply long_ne in I.
      destruct z; [congruence|discriminate]. }
    rewrite Ex, in_values_end. cbn [bind app each_ok].
    set (q := repeat y (N.to_nat (length_read r before l))).
    destruct (cf q) as [row|e|]; cbn [bind]; auto.
    cbn [in_eof]. f_equal. unfold add_rows.
    assert (Lr := each_ok_length _ _ _ _ _ E).
    assert (C : forall (a : list (list N)) (b : list (list N)) x z, length a = length b ->
      combine (a ++ [x]) (b ++ [z]) = combine a b ++ [(x, z)]).
    { clear. induction a; intros [|w b] x z L; try discriminate; cbn [app combine]; auto. f_equal. apply IHa. auto. }
    rewrite C by auto. rewrite fold_left_app. cbn [fold_left fst snd].
    assert (Lq : N.of_nat (length q) = length_read r before l) by (unfold q; rewrite repeat_length; apply N2Nat.id).
    rewrite Lq. reflexivity.
  Qed.

  Theorem coders_length_unset : forall one u before l more r fuel,
    collection_ok one u (before ++ l :: more) -> (stop = true -> all_long m before) ->
    r < 4 -> 1 + length before <= fuel -> long_lists m before = [] ->
    before = [] \/ (m < length_read r before l)%N ->
    let p := length (collection_file one u before) + r in
    coding_main fuel stop m cf ncols (Some (cut_at p (collection_file one u (before ++ l :: more))))
    = UB Indeterminate.
  Proof. clear Hcols.
    intros one u before l more r fuel HC Hst Hr L Hne D p.
    unfold p. rewrite cut_length by auto. destruct (fit_split _ _ _ _ _ HC) as (H1 & H2 & HF & Sh & Bl).
    rewrite main_split by auto. replace fuel with (length before + S (fuel - length before - 1)) by lia.
    rewrite loop_complete by auto. rewrite Hne. cbn [each_ok bind concat next_x].
    cbn [coding_loop in_eof].
    assert (Lr : length (firstn r (le_bytes 4 (N.of_nat (length l)))) < 4).
    { rewrite firstn_length, le_bytes_length. lia. }
    destruct before as [|b0 before].
    - cbn [next_n]. rewrite in_read4_short by auto. reflexivity.
    - destruct D as [D|D]; [discriminate|].
      cbn [next_n]. rewrite in_read4_part by auto. cbn [oget bind]. fold (length_read r (b0 :: before) l).
      assert (H' := D). apply N.ltb_lt in H'. rewrite H'.
      destruct (N.to_nat (length_read r (b0 :: before) l)) as [|n] eqn:Q; [lia|].
      cbn [in_values]. unfold in_read4. cbn [in_eof in_fail orb oget bind]. reflexivity.
  Qed.

  Lemma cut_short : forall one u before l more j, j <= 4 * length l ->
    cut_at (length (collection_file one u before) + 4 + j) (collection_file one u (before ++ l :: more))
    = le_bytes 4 one ++ le_bytes 4 u ++ concat (map list_bytes before) ++ le_bytes 4 (N.of_nat (length l))
        ++ firstn j (concat (map (le_bytes 4) l)).
  Proof. clear Hcols.
    intros one u before l more j Hj. rewrite <- file_split, file_app. unfold cut_at.
    rewrite <- Nat.add_assoc. rewrite firstn_app_2. f_equal. cbn [map concat]. unfold list_bytes at 1. rewrite <- app_assoc.
    assert (E : firstn (4 + j) (le_bytes 4 (N.of_nat (length l)) ++ concat (map (le_bytes 4) l) ++ concat (map list_bytes more))
                = le_bytes 4 (N.of_nat (length l)) ++ firstn j (concat (map (le_bytes 4) l) ++ concat (map list_bytes more))).
    { rewrite <- (le_bytes_length 4 (N.of_nat (length l))) at 1. apply firstn_app_2. }
    rewrite E. f_equal. rewrite firstn_app, concat_bytes_length.
    replace (j - length l * 4) with 0 by lia. cbn [firstn]. apply app_nil_r.
  Qed.

  Lemma cut_past : forall one u before l more j, exists rest,
    cut_at (length (collection_file one u before) + 4 + j) (collection_file one u (before ++ l :: more))
    = le_bytes 4 one ++ le_bytes 4 u ++ concat (map list_bytes before) ++ le_bytes 4 (N.of_nat (length l)) ++ rest.
  Proof. clear Hcols.
    intros one u before l more j. eexists. rewrite <- file_split, file_app. unfold cut_at.
    rewrite <- Nat.add_assoc. rewrite firstn_app_2. f_equal. cbn [map concat]. unfold list_bytes at 1. rewrite <- app_assoc.
    rewrite <- (le_bytes_length 4 (N.of_nat (length l))) at 1. apply firstn_app_2.
  Qed.

  (** A short list, or what looks like the length of one, ends cbv_coding. *)
  Theorem coders_stop_length : forall one u before l more r fuel, stop = true ->
    collection_ok one u (before ++ l :: more) -> all_long m before ->
    r < 4 -> 1 + length before <= fuel -> before <> [] -> (length_read r before l <= m)%N ->
    let p := length (collection_file one u before) + r in
    coding_main fuel stop m cf ncols (Some (cut_at p (collection_file one u (before ++ l :: more))))
    = totals_of ncols cf before.
  Proof.
    intros one u before l more r fuel -> HC Hst Hr L Hb H p.
    unfold p. rewrite cut_length by auto. destruct (fit_split _ _ _ _ _ HC) as (H1 & H2 & HF & Sh & Bl).
    transitivity (totals_of ncols cf (long_lists m before)); [|f_equal; exact Hst]. rewrite totals_rows by auto.
    unfold coding_main, in_open. rewrite in_read4_app by auto. rewrite in_read4_app by auto. cbn [oget bind].
    replace fuel with (length before + S (fuel - length before - 1)) by lia.
    rewrite loop_complete by auto.
    destruct (each_ok cf (long_lists m before)) as [rows|e|] eqn:E; cbn [bind]; auto.
    cbn [coding_loop in_eof].
    assert (En : next_n None before = Some (N.of_nat (length (last before [])))).
    { destruct before; [congruence|reflexivity]. }
    rewrite En, in_read4_part by auto. cbn [oget bind]. fold (length_read r before l).
    apply N.ltb_ge in H. rewrite H. reflexivity.
  Qed.

  Theorem coders_stop_short : forall one u before l more j fuel, stop = true ->
    collection_ok one u (before ++ l :: more) -> all_long m before ->
    1 + length before <= fuel -> (N.of_nat (length l) <= m)%N ->
    let p := length (collection_file one u before) + 4 + j in
    coding_main fuel stop m cf ncols (Some (cut_at p (collection_file one u (before ++ l :: more))))
    = totals_of ncols cf before.
  Proof.
    intros one u before l more j fuel -> HC Hst L H p.
    destruct (cut_past one u before l more j) as (rest & Er). unfold p. rewrite Er. destruct (fit_split _ _ _ _ _ HC) as (H1 & H2 & HF & Sh & Bl).
    transitivity (totals_of ncols cf (long_lists m before)); [|f_equal; exact Hst]. rewrite totals_rows by auto.
    unfold coding_main, in_open. rewrite in_read4_app by auto. rewrite in_read4_app by auto. cbn [oget bind].
    replace fuel with (length before + S (fuel - length before - 1)) by lia.
    rewrite loop_complete by auto.
    destruct (each_ok cf (long_lists m before)) as [rows|e|] eqn:E; cbn [bind]; auto.
    cbn [coding_loop in_eof]. rewrite in_read4_app by (apply shorter_len; auto). cbn [oget bind].
    apply N.ltb_ge in H. rewrite H. reflexivity.
  Qed.

  (** The other two do not end then. *)
  Lemma loop_before : forall before rest f t, lists_fit before ->
    Forall (fun l => exists row, cf l = Ok row) (long_lists m before) ->
    (forall f n x t, n = next_n None before ->
       coding_loop f false m cf n x (mkIn rest false false) t = OutOfFuel) ->
    coding_loop f false m cf None None (mkIn (concat (map list_bytes before) ++ rest) false false) t = OutOfFuel.
  Proof. clear Hcols.
    intros before rest f t HF Hok Hend.
    destruct (Nat.lt_ge_cases f (length before)) as [L|L].
    - apply (loop_lists_fuel m cf (fun l => match cf l with Ok row => row | _ => [] end)); auto.
      eapply Forall_impl; [|exact Hok]. cbn. intros l (row & E). rewrite E. reflexivity.
    - replace f with (length before + (f - length before)) by lia.
      rewrite loop_complete by (auto; discriminate).
      destruct (each_ok cf (long_lists m before)) as [rows|e|] eqn:E; cbn [bind]; auto.
      exfalso. clear - E Hok. revert E. induction Hok as [|l ls (row & E0) _ IH]; cbn [each_ok]; [discriminate|].
      rewrite E0. cbn [bind]. destruct (each_ok cf ls); cbn [bind]; try discriminate. auto.
  Qed.

  Theorem coders_hang_length : forall one u before l more r fuel, stop = false ->
    collection_ok one u (before ++ l :: more) ->
    Forall (fun l => exists row, cf l = Ok row) (long_lists m before) ->
    r < 4 -> before <> [] -> (length_read r before l <= m)%N ->
    let p := length (collection_file one u before) + r in
    coding_main fuel stop m cf ncols (Some (cut_at p (collection_file one u (before ++ l :: more)))) = OutOfFuel.
  Proof. clear Hcols.
    intros one u before l more r fuel -> HC Hok Hr Hb H p.
    unfold p. rewrite cut_length by auto. destruct (fit_split _ _ _ _ _ HC) as (H1 & H2 & HF & Sh & Bl).
    unfold coding_main, in_open. rewrite in_read4_app by auto. rewrite in_read4_app by auto. cbn [bind].
    apply loop_before; auto. intros f n x t ->.
    assert (En : next_n None before = Some (N.of_nat (length (last before [])))).
    { destruct before; [congruence|reflexivity]. }
    rewrite En. destruct f as [|f]; [reflexivity|]. cbn [coding_loop in_eof].
    rewrite in_read4_part by auto. cbn [oget bind]. fold (length_read r before l).
    assert (H' := H). apply N.ltb_ge in H'. rewrite H'. unfold in_skip. cbn [in_fail in_bytes].
    apply stuck_short. exact H.
  Qed.

  Theorem coders_hang_short : forall one u before l more j fuel, stop = false ->
    collection_ok one u (before ++ l :: more) ->
    Forall (fun l => exists row, cf l = Ok row) (long_lists m before) ->
    j < 4 * length l -> (N.of_nat (length l) <= m)%N ->
    let p := length (collection_file one u before) + 4 + j in
    coding_main fuel stop m cf ncols (Some (cut_at p (collection_file one u (before ++ l :: more)))) = OutOfFuel.
  Proof. clear Hcols.
    intros one u before l more j fuel -> HC Hok Hj H p.
    unfold p. rewrite cut_short by lia. destruct (fit_split _ _ _ _ _ HC) as (H1 & H2 & HF & Sh & Bl).
    unfold coding_main, in_open. rewrite in_read4_app by auto. rewrite in_read4_app by auto. cbn [bind].
    apply loop_before; auto. intros f n x t _.
    destruct f as [|f]; [reflexivity|]. cbn [coding_loop in_eof].
    rewrite in_read4_app by (apply shorter_len; auto). cbn [oget bind].
    assert (H' := H). apply N.ltb_ge in H'. rewrite H'. unfold in_skip. cbn [in_fail in_bytes].
    rewrite seek_past; auto.
    - apply end_short. exact H.
    - rewrite firstn_length, concat_bytes_length. lia.
  Qed.

  (** The header. *)
  Theorem coders_header : forall one u lists fuel p, p < 8 -> 0 < fuel ->
    coding_main fuel stop m cf ncols (Some (cut_at p (collection_file one u lists)))
    = if stop then UB Indeterminate else Ok (mkTotals 0 0 (repeat 0%N ncols)).
  Proof. clear Hcols.
    intros one u lists fuel p H F. destruct fuel as [|fuel]; [lia|].
    do 8 (destruct p as [|p]; [destruct stop; reflexivity|]). lia.
  Qed.
End Coders.

Theorem coders_hangs_length : forall m cf ncols one u before l more r fuel,
  collection_ok one u (before ++ l :: more) ->
  Forall (fun l => exists row, cf l = Ok row) (long_lists m before) ->
  r < 4 -> before <> [] -> (length_read r before l <= m)%N ->
  let p := length (collection_file one u before) + r in
  coding_main fuel false m cf ncols (Some (cut_at p (collection_file one u (before ++ l :: more)))) = OutOfFuel.
Proof. intros m cf ncols one u before l more r fuel HC Hok Hr Hb H. apply coders_hang_length; auto. Qed.

Theorem coders_hangs_short : forall m cf ncols one u before l more j fuel,
  collection_ok one u (before ++ l :: more) ->
  Forall (fun l => exists row, cf l = Ok row) (long_lists m before) ->
  j < 4 * length l -> (N.of_nat (length l) <= m)%N ->
  let p := length (collection_file one u before) + 4 + j in
  coding_main fuel false m cf ncols (Some (cut_at p (collection_file one u (before ++ l :: more)))) = OutOfFuel.
Proof. intros m cf ncols one u before l more j fuel HC Hok Hj H. apply coders_hang_short; auto. Qed.

Theorem cbv_stops_length : forall m cf ncols,
  (forall l row, cf l = Ok row -> length row = ncols) ->
  forall one u before l more r fuel,
  collection_ok one u (before ++ l :: more) -> all_long m before ->
  r < 4 -> 1 + length before <= fuel -> before <> [] -> (length_read r before l <= m)%N ->
  let p := length (collection_file one u before) + r in
  coding_main fuel true m cf ncols (Some (cut_at p (collection_file one u (before ++ l :: more))))
  = totals_of ncols cf before.
Proof. intros m cf ncols Hc one u before l more r fuel HC Hl Hr L Hb H. apply coders_stop_length; auto. Qed.

Theorem cbv_stops_short : forall m cf ncols,
  (forall l row, cf l = Ok row -> length row = ncols) ->
  forall one u before l more j fuel,
  collection_ok one u (before ++ l :: more) -> all_long m before ->
  1 + length before <= fuel -> (N.of_nat (length l) <= m)%N ->
  let p := length (collection_file one u before) + 4 + j in
  coding_main fuel true m cf ncols (Some (cut_at p (collection_file one u (before ++ l :: more))))
  = totals_of ncols cf before.
Proof. intros m cf ncols Hc one u before l more j fuel HC Hl L H. apply coders_stop_short; auto. Qed.

(** * measures *)

Lemma fresh_short : forall n t acc, length t < 4 * n ->
  in_fresh_values n (mkIn t false false) acc = UB Indeterminate.
Proof.
  induction n; intros t acc H; [lia|]. cbn [in_fresh_values].
  destruct (Nat.lt_ge_cases (length t) 4) as [K|K].
  - rewrite in_read4_short by auto. reflexivity.
  - rewrite in_read4_good by auto. cbn [oget bind]. apply IHn. rewrite skipn_length. lia.
Qed.

(** What the loop does with complete lists does not depend on what follows them. *)
Lemma measures_lists : forall m u lists last acc,
  Forall (shorter 30) lists -> Forall (below (2 ^ 32)) lists ->
  exists R : result (N * measured), forall f rest,
  measures_loop (length lists + f) m u last (mkIn (concat (map list_bytes lists) ++ rest) false false) acc
  = (let* (last', acc') := R in measures_loop f m u last' (mkIn rest false false) acc').
Proof.
  intros m u lists. induction lists as [|l lists IH]; intros la acc Hs Hb.
  - exists (Ok (la, acc)). reflexivity.
  - inversion Hs; subst. inversion Hb; subst.
    destruct (m <? N.of_nat (length l))%N eqn:K.
    + pose (head := let* first := vget l 0 in
        let* uv := oget u in
        let delta := list_delta uv first la in
        let* g := Gap l in
        let* d := floor_log2 delta in
        let* r := Rle l in
        let* t := Trie l uv false in
        let* tr := Trie l uv true in
        let* last := vget l (length l - 1) in
        Ok (last, mkMeasured (m_ints acc + N.of_nat (length l)) (m_sets acc + 1) (m_gap acc + g + (d + 1)) (m_rle acc + r)
                      (m_trie acc + N.of_nat t) (m_trie_run acc + N.of_nat tr))).
      assert (E : forall f rest,
        measures_loop (length (l :: lists) + f) m u la (mkIn (concat (map list_bytes (l :: lists)) ++ rest) false false) acc
        = (let* (last', acc') := head in
           measures_loop (length lists + f) m u last' (mkIn (concat (map list_bytes lists) ++ rest) false false) acc')).
      { intros f rest. cbn [map concat length plus measures_loop]. unfold list_bytes at 1. rewrite <- !app_assoc.
        rewrite in_read4_app by (apply shorter_len; auto). cbn [in_eof oget bind]. rewrite K.
        rewrite Nat2N.id, fresh_values_app by auto. cbn [bind app]. unfold head.
        repeat match goal with
        | |- bind ?x _ = bind (bind ?x _) _ => destruct x as [?|?|]; cbn [bind]; [|reflexivity|reflexivity]
        end. reflexivity. }
      destruct head as [(la' & acc')|e|]; cbn [bind] in E.
      * destruct (IH la' acc') as (R & HR); auto. exists R. intros f rest. rewrite E. apply HR.
      * exists (UB e). exact E.
      * exists OutOfFuel. exact E.
    + destruct (IH la acc) as (R & HR); auto. exists R. intros f rest.
      cbn [map concat length plus measures_loop]. unfold list_bytes at 1. rewrite <- !app_assoc.
      rewrite in_read4_app by (apply shorter_len; auto). cbn [in_eof oget bind]. rewrite K.
      unfold in_skip. cbn [in_fail in_bytes]. rewrite seek_list_app by auto. apply HR.
Qed.

Lemma measures_tail : forall m u l tail q f last acc, shorter 30 l -> list_bytes l = tail ++ q -> q <> [] ->
  2 <= f ->
  measures_loop f m u last (mkIn tail false false) acc
  = (if ((4 <=? length tail) && (m <? N.of_nat (length l))%N)%bool then UB Indeterminate else Ok acc).
Proof.
  intros m u l tail q f la acc Hs E Hq Hf. destruct f as [|[|f]]; try lia.
  destruct (Nat.leb_spec 4 (length tail)) as [K|K]; cbn [andb].
  - destruct (tail_split _ _ _ E Hq K) as (t & -> & Lt).
    cbn [measures_loop]. rewrite in_read4_app by (apply shorter_len; auto). cbn [in_eof oget bind].
    destruct (m <? N.of_nat (length l))%N.
    + rewrite Nat2N.id, fresh_short by auto. reflexivity.
    + unfold in_skip. cbn [in_fail in_bytes]. rewrite seek_past by auto. reflexivity.
  - cbn [measures_loop]. rewrite in_read4_short by auto. reflexivity.
Qed.

Lemma measures_split : forall f m one u w, (one < 2 ^ 32)%N -> (u < 2 ^ 32)%N ->
  measures f m (Some (le_bytes 4 one ++ le_bytes 4 u ++ w))
  = measures_loop f m (Some u) 0 (mkIn w false false) (mkMeasured 0 0 0 0 0 0).
Proof.
  intros f m one u w H1 H2. unfold measures, in_open.
  rewrite in_read4_app by auto. rewrite in_read4_app by auto. reflexivity.
Qed.

Theorem measures_cut : forall m one u lists p before after f,
  collection_ok one u lists -> whole_lists p one u lists before after -> 2 + length before <= f ->
  (~ cut_inside p one u m (2 ^ 32) before after ->
   measures f m (Some (cut_at p (collection_file one u lists)))
   = measures f m (Some (collection_file one u before))) /\
  (cut_inside p one u m (2 ^ 32) before after -> forall r,
   measures f m (Some (collection_file one u before)) = Ok r ->
   measures f m (Some (cut_at p (collection_file one u lists))) = UB Indeterminate).
Proof.
  intros m one u lists p before after f HC W Lf.
  destruct (cut_split _ _ _ _ _ _ W) as (tail & E & T).
  destruct W as (-> & Lp & _). rewrite E.
  destruct (before_ok _ _ _ _ HC) as (H1 & H2 & _ & B4 & B5).
  assert (Eb : collection_file one u before
               = le_bytes 4 one ++ le_bytes 4 u ++ concat (map list_bytes before) ++ []).
  { rewrite <- file_split. symmetry. apply app_nil_r. }
  rewrite file_split, Eb. rewrite !measures_split by auto.
  destruct (measures_lists m (Some u) before 0%N (mkMeasured 0 0 0 0 0 0)) as (R & HR); auto.
  replace f with (length before + (f - length before)) by lia. rewrite !HR.
  assert (Em : forall last acc, measures_loop (f - length before) m (Some u) last (mkIn [] false false) acc = Ok acc).
  { intros. apply measures_end. lia. }
  destruct T as [(-> & ->)|(l & more & q & -> & El & Hq & Lt)].
  - split; [reflexivity|]. intros (l & more & X & _). discriminate.
  - assert (Hl : shorter 30 l).
    { destruct HC as (_ & _ & _ & H4 & _). apply Forall_app in H4. destruct H4 as (_ & H4). inversion H4; auto. }
    assert (Hk : keep_list m (2 ^ 32) (N.of_nat (length l)) = (m <? N.of_nat (length l))%N).
    { unfold keep_list, shorter in *. assert (P : (2 ^ 30 < 2 ^ 32)%N) by reflexivity.
      assert (Q : (N.of_nat (length l) <=? 2 ^ 32)%N = true) by (apply N.leb_le; lia). rewrite Q. apply andb_true_r. }
    assert (Et : forall last acc, measures_loop (f - length before) m (Some u) last (mkIn tail false false) acc
       = if ((4 <=? length tail) && (m <? N.of_nat (length l))%N)%bool then UB Indeterminate else Ok acc).
    { intros. apply (measures_tail m _ l tail q); auto. lia. }
    split.
    + intros N0. destruct R as [(la & acc)|e|]; cbn [bind]; auto. rewrite Em, Et.
      destruct (Nat.leb_spec 4 (length tail)) as [K|K]; auto. cbn [andb].
      destruct (m <? N.of_nat (length l))%N eqn:Kp; auto. exfalso. apply N0.
      exists l, more. split; auto. split; [apply kept_one; rewrite Hk; auto|]. lia.
    + intros (l' & more' & X & Kp & L4) r. injection X as <- <-. apply kept_one in Kp. rewrite Hk in Kp.
      destruct R as [(la & acc)|e|]; cbn [bind]; try discriminate. intros _. rewrite Et, Kp, andb_true_r.
      destruct (Nat.leb_spec 4 (length tail)) as [K|K]; auto. lia.
Qed.

Theorem measures_cut_between : forall m one u lists p before after f,
  collection_ok one u lists -> whole_lists p one u lists before after -> 2 + length before <= f ->
  ~ cut_inside p one u m (2 ^ 32) before after ->
  measures f m (Some (cut_at p (collection_file one u lists)))
  = measures f m (Some (collection_file one u before)).
Proof. intros m one u lists p before after f H W L. eapply measures_cut; eauto. Qed.

Theorem measures_cut_inside : forall m one u lists p before after f r,
  collection_ok one u lists -> whole_lists p one u lists before after -> 2 + length before <= f ->
  cut_inside p one u m (2 ^ 32) before after ->
  measures f m (Some (collection_file one u before)) = Ok r ->
  measures f m (Some (cut_at p (collection_file one u lists))) = UB Indeterminate.
Proof. intros m one u lists p before after f r H W L I E. eapply measures_cut; eauto. Qed.

Theorem measures_header : forall m one u lists p f, p < 8 ->
  measures f m (Some (cut_at p (collection_file one u lists))) = UB Indeterminate.
Proof.
  intros m one u lists p f H. do 8 (destruct p as [|p]; [reflexivity|]). lia.
Qed.

Lemma cut_stats_example :
  let lists := [[5; 7; 300]; [4]; [258; 515]]%N in
  let file := collection_file 1 512 lists in
  let sum := fun l : list N => sumN l in
  let ones := fun v : list bool => N.of_nat (count_true v) in
  collection_ok 1 512 lists /\ length file = 44 /\
  values_read 1 [[5; 7; 300]; [4]]%N 1 [258; 515]%N = [5; 7; 300; 258]%N /\
  padded 1 (low_bytes 1 515 258) [258; 515]%N = [258; 259]%N /\
  padded 0 (low_bytes 1 258 300) [258; 515]%N = [258; 258]%N /\
  classic_coders 9 sum sum sum 1 (Some (cut_at 41 file)) = Ok (mkTotals 5 2 [829; 829; 829])%N /\
  pom 9 sum sum sum 1 (Some (cut_at 37 file)) = Ok (mkTotals 5 2 [824; 824; 824; 59])%N /\
  length_read 1 [[5; 7; 300]; [4]]%N [258; 515]%N = 2%N /\
  classic_coders 9 sum sum sum 1 (Some (cut_at 33 file)) = Ok (mkTotals 5 2 [912; 912; 912])%N /\
  classic_coders 900 sum sum sum 1 (Some (cut_at 29 file)) = OutOfFuel /\
  classic_coders 9 sum sum sum 1 (Some (cut_at 10 file)) = UB Indeterminate /\
  classic_coders 9 sum sum sum 1 (Some (cut_at 14 file)) = UB Indeterminate /\
  classic_coders 9 sum sum sum 1 (Some (cut_at 7 file)) = Ok (mkTotals 0 0 [0; 0; 0])%N /\
  cbv_coding 9 ones 1 (Some (cut_at 29 file)) = Ok (mkTotals 3 1 [0; 0; 3])%N /\
  cbv_coding 9 ones 0 (Some (cut_at 20 file)) = Ok (mkTotals 3 1 [0; 0; 2])%N /\
  whole_lists 33 1 512 lists [[5; 7; 300]; [4]]%N [[258; 515]]%N /\
  ~ cut_inside 33 1 512 1 (2 ^ 32) [[5; 7; 300]; [4]]%N [[258; 515]]%N /\
  cut_inside 41 1 512 1 (2 ^ 32) [[5; 7; 300]; [4]]%N [[258; 515]]%N /\
  (exists r, measures 9 1 (Some (cut_at 33 file)) = Ok r /\ m_sets r = 1%N) /\
  measures 9 1 (Some (cut_at 41 file)) = UB Indeterminate /\ measures 9 1 (Some (cut_at 7 file)) = UB Indeterminate.
Proof.
  cbv zeta. split; [sets_ok|]. split; [reflexivity|].
  repeat match goal with |- _ = _ /\ _ => split; [vm_compute; reflexivity|] end.
  split; [|split; [|split; [|split; [|split; vm_compute; reflexivity]]]].
  - split; [reflexivity|]. split; [vm_compute; lia|]. intros l more E. injection E as <- <-. vm_compute. lia.
  - intros (l & more & _ & _ & K). vm_compute in K. lia.
  - exists [258; 515]%N, []. split; [reflexivity|]. split; [reflexivity|]. vm_compute. lia.
  - eexists. split; vm_compute; reflexivity.
Qed.
