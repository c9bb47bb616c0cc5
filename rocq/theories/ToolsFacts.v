(** Proofs about the files read and written by the tools. *)

From Verif Require Import Base FlatTrie LevelTrie FastTrie ParallelFor Intersection Tries Serialize
  Tools Facts Spec SpecTries SpecFiles SpecTools SerializeFacts SerializeSound.

(** * Reading a collection *)

Lemma read_eof_app : forall x rest, (x < 2 ^ 32)%N ->
  read_eof 4 (le_bytes 4 x ++ rest) = Some (x, rest).
Proof.
  intros x rest H. unfold read_eof.
  assert (E : read_bytes 4 (le_bytes 4 x ++ rest) = Ok (le_bytes 4 x, rest)).
  { assert (E := read_bytes_app (le_bytes 4 x) rest). rewrite le_bytes_length in E. exact E. }
  rewrite E, le_value_bytes; auto.
Qed.

Lemma skipn_length_app : forall A (l r : list A), skipn (length l) (l ++ r) = r.
Proof. induction l; cbn; auto. Qed.

Lemma seek_list_app : forall l rest, shorter 30 l ->
  seek_list (N.of_nat (length l)) (concat (map (le_bytes 4) l) ++ rest) = rest.
Proof.
  intros l rest H. unfold shorter in H. unfold seek_list.
  assert (Hm : ((4 * N.of_nat (length l)) mod 2 ^ 32 = 4 * N.of_nat (length l))%N).
  { apply N.mod_small. change (2 ^ 32)%N with (4 * 2 ^ 30)%N. apply N.mul_lt_mono_pos_l; auto. reflexivity. }
  rewrite Hm.
  assert (L := concat_bytes_length 4 l).
  replace (4 * N.of_nat (length l))%N with (N.of_nat (length (concat (map (le_bytes 4) l)))) by (rewrite L; lia).
  rewrite Nat2N.id, app_length. destruct (N.leb_spec (N.of_nat (length (concat (map (le_bytes 4) l)) + length rest))
    (N.of_nat (length (concat (map (le_bytes 4) l))))) as [K|K].
  - destruct rest; auto. cbn [length] in K. lia.
  - apply skipn_length_app.
Qed.

Lemma read_inv_list_app : forall l rest, below (2 ^ 32) l ->
  read_inv_list (length l) (concat (map (le_bytes 4) l) ++ rest) = Ok (l, rest).
Proof.
  intros l rest H. induction H; cbn [length map concat read_inv_list app]; auto.
  rewrite <- app_assoc, read_le_app by auto. cbn [bind]. rewrite IHForall. reflexivity.
Qed.

Lemma shorter_len : forall l, shorter 30 l -> (N.of_nat (length l) < 2 ^ 32)%N.
Proof.
  unfold shorter. intros l H. eapply N.lt_trans; [exact H|reflexivity].
Qed.

Lemma kept_cons : forall a b l lists,
  kept_lists a b (l :: lists) =
  if keep_list a b (N.of_nat (length l)) then l :: kept_lists a b lists else kept_lists a b lists.
Proof. reflexivity. Qed.

Lemma count_sets_spec : forall a b lists fuel n0, length lists <= fuel ->
  Forall (shorter 30) lists -> (n0 + N.of_nat (length lists) < 2 ^ 32)%N ->
  count_sets fuel a b (concat (map list_bytes lists)) n0
  = Ok (n0 + N.of_nat (length (kept_lists a b lists)))%N.
Proof.
  intros a b lists. induction lists as [|l lists IH]; intros fuel n0 Hf Hs Hn.
  - destruct fuel; cbn; f_equal; lia.
  - inversion Hs; subst. cbn [length] in Hf. destruct fuel as [|fuel]; [lia|].
    cbn [map concat]. unfold list_bytes at 1. rewrite <- !app_assoc.
    cbn [count_sets]. rewrite read_eof_app by (apply shorter_len; auto). rewrite seek_list_app by auto.
    rewrite kept_cons. cbn [length] in Hn. rewrite Nat2N.inj_succ in Hn.
    destruct (keep_list a b (N.of_nat (length l))).
    + rewrite N.mod_small by lia. rewrite IH by (auto; lia). f_equal. cbn [length]. lia.
    + apply IH; auto; lia.
Qed.

Fixpoint indexed {A} (n : nat) (l : list A) : list (nat * A) :=
  match l with [] => [] | x :: l' => (n, x) :: indexed (S n) l' end.

Lemma bind_assoc : forall A B C (m : result A) (f : A -> result B) (g : B -> result C),
  bind (bind m f) g = bind m (fun a => bind (f a) g).
Proof. intros A B C [] f g; reflexivity. Qed.

Lemma build_loop_spec : forall a b store lists fuel i out, length lists <= fuel ->
  Forall (shorter 30) lists -> Forall (below (2 ^ 32)) lists ->
  build_loop fuel a b store (concat (map list_bytes lists)) i out
  = (let* bs := each_ok (fun p => store (fst p) (snd p)) (indexed i (kept_lists a b lists)) in
     Ok (out ++ concat bs)).
Proof.
  intros a b store lists. induction lists as [|l lists IH]; intros fuel i out Hf Hs Hb.
  - destruct fuel; cbn; rewrite app_nil_r; reflexivity.
  - inversion Hs; subst. inversion Hb; subst. cbn [length] in Hf. destruct fuel as [|fuel]; [lia|].
    cbn [map concat]. unfold list_bytes at 1. rewrite <- !app_assoc.
    cbn [build_loop]. rewrite read_eof_app by (apply shorter_len; auto).
    rewrite kept_cons. destruct (keep_list a b (N.of_nat (length l))).
    + rewrite Nat2N.id, read_inv_list_app by auto. cbn [bind indexed each_ok fst snd].
      destruct (store i l) as [bytes|e|]; cbn [bind]; auto.
      rewrite IH by (auto; lia). rewrite bind_assoc. cbn [bind].
      destruct (each_ok (fun p => store (fst p) (snd p)) (indexed (S i) (kept_lists a b lists))); cbn [bind]; auto.
      cbn [concat]. rewrite app_assoc. reflexivity.
    + rewrite seek_list_app by auto. apply IH; auto. lia.
Qed.

Lemma lists_fuel : forall lists, length lists <= length (concat (map list_bytes lists)).
Proof.
  induction lists; cbn [map concat length]; auto. rewrite app_length.
  assert (1 <= length (list_bytes a)).
  { unfold list_bytes. rewrite app_length, le_bytes_length. lia. }
  lia.
Qed.

Theorem build_file_spec : forall a b header store one u lists, collection_ok one u lists ->
  build_file a b header store (collection_file one u lists)
  = (let* bs := each_ok (fun p => store u (fst p) (snd p)) (indexed 0 (kept_lists a b lists)) in
     Ok (header ++ le_bytes 4 (N.of_nat (length (kept_lists a b lists)))
           ++ le_bytes 4 one ++ le_bytes 4 u ++ concat bs)).
Proof.
  intros a b header store one u lists (H1 & H2 & H3 & H4 & H5). unfold build_file, collection_file.
  rewrite read_le_app by auto. cbn [bind]. rewrite read_le_app by auto. cbn [bind].
  rewrite count_sets_spec; auto; [|apply lists_fuel]. cbn [bind].
  rewrite build_loop_spec; auto; [|apply lists_fuel].
  destruct (each_ok (fun p => store u (fst p) (snd p)) (indexed 0 (kept_lists a b lists))); cbn [bind]; auto.
  rewrite N.add_0_l, <- !app_assoc. reflexivity.
Qed.

Lemma kept_count : forall a b one u lists, collection_ok one u lists ->
  (N.of_nat (length (kept_lists a b lists)) < 2 ^ 32)%N.
Proof.
  intros a b one u lists (_ & _ & H & _). eapply N.le_lt_trans; [|exact H].
  assert (length (kept_lists a b lists) <= length lists).
  { unfold kept_lists. clear. induction lists as [|l lists IH]; cbn [filter length]; auto.
    destruct (_ && _)%bool; cbn [length]; lia. }
  lia.
Qed.

Lemma kept_nonempty : forall a b lists, Forall (fun l => l <> []) (kept_lists a b lists).
Proof.
  intros. apply Forall_forall. intros l H. unfold kept_lists in H. apply filter_In in H. destruct H as (_ & H).
  intros ->. cbn [length] in H. apply andb_prop in H. destruct H as (H & _).
  apply N.ltb_lt in H. destruct a; discriminate.
Qed.

(** * each_ok *)

Lemma each_ok_length : forall X Y (f : X -> result Y) l ys, each_ok f l = Ok ys -> length ys = length l.
Proof.
  intros X Y f l. induction l as [|x l IH]; intros ys H; cbn [each_ok] in H.
  - injection H as <-. auto.
  - binv H. binv H. injection H as <-. cbn [length]. f_equal. eauto.
Qed.

Lemma each_ok_nth : forall X Y (f : X -> result Y) l ys i x, each_ok f l = Ok ys ->
  nth_error l i = Some x -> exists y, f x = Ok y /\ nth_error ys i = Some y.
Proof.
  intros X Y f l. induction l as [|x0 l IH]; intros ys i x H Hi; cbn [each_ok] in H.
  - destruct i; discriminate.
  - binv H. binv H. injection H as <-. destruct i as [|i]; cbn [nth_error] in *.
    + injection Hi as <-. eauto.
    + eauto.
Qed.

Lemma each_ok_map : forall X X' Y (g : X -> X') (f : X' -> result Y) l,
  each_ok f (map g l) = each_ok (fun x => f (g x)) l.
Proof. intros. induction l; cbn [map each_ok]; auto. rewrite IHl. reflexivity. Qed.

Lemma each_ok_ext : forall X Y (f g : X -> result Y) l, (forall x, In x l -> f x = g x) ->
  each_ok f l = each_ok g l.
Proof.
  intros X Y f g l H. induction l as [|x l IH]; cbn [each_ok]; auto.
  rewrite H by (left; auto). rewrite IH; auto. intros. apply H. right. auto.
Qed.

Lemma each_ok_Forall : forall X Y (f : X -> result Y) (P : X -> Y -> Prop) l,
  Forall (fun x => exists y, f x = Ok y /\ P x y) l ->
  exists ys, each_ok f l = Ok ys /\ Forall2 P l ys.
Proof.
  intros X Y f P l H. induction H as [|x l (y & E & Py) _ (ys & E' & F)]; cbn [each_ok]; eauto.
  rewrite E. cbn [bind]. rewrite E'. cbn [bind]. eauto.
Qed.

Lemma indexed_map_snd : forall A (l : list A) n, map snd (indexed n l) = l.
Proof. induction l; intros; cbn [indexed map snd]; auto. rewrite IHl. auto. Qed.

Lemma indexed_Forall : forall A (P : A -> Prop) l n, Forall P l -> Forall (fun p : nat * A => P (snd p)) (indexed n l).
Proof. intros A P l n H. revert n. induction H; intros; cbn [indexed]; constructor; auto. Qed.

Lemma indexed_nth : forall A (l : list A) n i, nth_error (indexed n l) i
  = match nth_error l i with Some x => Some (n + i, x) | None => None end.
Proof.
  induction l; intros n i; cbn [indexed].
  - destruct i; reflexivity.
  - destruct i; cbn [nth_error]; [f_equal; f_equal; lia|]. rewrite IHl.
    destruct (nth_error l i); auto. do 2 f_equal. lia.
Qed.

(** * Queries *)

Lemma pick_spec : forall Y (f : list N -> result Y) kept ts q,
  each_ok f kept = Ok ts -> Forall (fun i => (i < N.of_nat (length kept))%N) q ->
  exists qs, each_ok (fun i => vgetN ts i) q = Ok qs /\ each_ok f (lists_at kept q) = Ok qs.
Proof.
  intros Y f kept ts q H Hq. induction Hq as [|i q Hi _ (qs & E1 & E2)]; cbn [each_ok lists_at map]; eauto.
  assert (Hn : nth_error kept (N.to_nat i) = Some (nth (N.to_nat i) kept [])).
  { apply nth_error_nth'. lia. }
  destruct (each_ok_nth _ _ _ _ _ _ _ H Hn) as (y & Hy & Hyn).
  unfold lists_at in E2. rewrite Hy. cbn [bind]. rewrite E2. cbn [bind].
  assert (V : vgetN ts i = Ok y).
  { unfold vgetN. rewrite (vget_nth _ _ _ _ Hyn).
    destruct (N.ltb_spec i (N.of_nat (length ts))) as [|K]; auto.
    rewrite (each_ok_length _ _ _ _ _ H) in K. lia. }
  rewrite V. cbn [bind]. rewrite E1. cbn [bind]. eauto.
Qed.

Lemma for_loop_last : forall (f : nat -> result (list N)) (P : list N -> Prop),
  (forall rep, exists r, f rep = Ok r /\ P r) -> forall n i s, P s \/ 1 <= n ->
  exists r, for_loop n i (fun rep _ => f rep) s = Ok r /\ P r.
Proof.
  intros f P H. induction n; intros i s Hs; cbn [for_loop].
  - exists s. split; auto. destruct Hs; [auto|lia].
  - destruct (H i) as (r & E & Pr). rewrite E. cbn [bind]. apply IHn. auto.
Qed.

Lemma repeat_query_spec : forall f (P : list N -> Prop), (forall rep, exists r, f rep = Ok r /\ P r) ->
  exists r, repeat_query f = Ok r /\ P r.
Proof. intros f P H. unfold repeat_query. apply for_loop_last; auto. right. lia. Qed.

(** [P] is what is known of the answer to one query of at most 16 ids. *)
Lemma run_queries_spec : forall T (pick : N -> result T) answer (P : list N -> list N -> Prop) qs nq,
  Forall (fun q => exists ts, each_ok pick q = Ok ts /\
            (length q <= 16 -> forall nq rep, exists r, answer nq rep ts = Ok r /\ P q r)) qs ->
  exists rs, run_queries pick answer nq qs = Ok rs /\
    Forall2 (fun q a => match a with None => 16 < length q | Some r => length q <= 16 /\ P q r end) qs rs.
Proof.
  intros T pick answer P qs nq H. revert nq. induction H as [|q qs (ts & E & A) _ IH]; intros nq; cbn [run_queries].
  - eauto.
  - rewrite E. cbn [bind]. assert (L := each_ok_length _ _ _ _ _ E).
    destruct (IH (S nq)) as (rs & E' & F). destruct (length ts <=? 16) eqn:K.
    + apply Nat.leb_le in K. 
      destruct (repeat_query_spec (fun rep => answer nq rep ts) (P q)) as (r & Er & Pr).
      { intros rep. apply A. lia. }
      rewrite Er. cbn [bind]. rewrite E'. cbn [bind].
      eexists. split; [reflexivity|]. constructor; auto. split; [lia|auto].
    + apply Nat.leb_gt in K. cbn [bind]. rewrite E'. cbn [bind].
      eexists. split; [reflexivity|]. constructor; auto. lia.
Qed.
