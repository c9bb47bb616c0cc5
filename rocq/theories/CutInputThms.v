(** Collections that end too early. *)

From Verif Require Import Base FlatTrie LevelTrie FastTrie Tries Serialize Tools Measures Stats CutInput
  Facts Spec SpecTries SpecFiles SpecTools SpecMeasures SpecStats SpecCut SpecCutInput SerializeFacts
  InterRefute ToolsFacts StatsThms ToolsThms CutThms.

(** * Agreement with the reading of whole files *)

Lemma read_bytes_split : forall k l a r, read_bytes k l = Ok (a, r) ->
  k <= length l /\ a = firstn k l /\ r = skipn k l.
Proof.
  induction k; intros l a r H; cbn [read_bytes] in H.
  - injection H as <- <-. cbn. repeat split; auto. lia.
  - destruct l as [|x l]; [discriminate|]. apply bind_inv in H. destruct H as ((a' & r') & E & H).
    injection H as <- <-. destruct (IHk _ _ _ E) as (L & -> & ->). cbn [length firstn skipn]. repeat split. lia.
Qed.

Lemma read_bytes_short : forall k l, length l < k -> exists e, read_bytes k l = UB e.
Proof.
  induction k; intros l H; [lia|]. destruct l as [|x l]; cbn [read_bytes]; [eauto|].
  cbn [length] in H. destruct (IHk l) as (e & ->); [lia|]. cbn [bind]. eauto.
Qed.

Lemma read_bytes_long : forall k l, k <= length l -> read_bytes k l = Ok (firstn k l, skipn k l).
Proof.
  induction k; intros l H; cbn [read_bytes firstn skipn]; auto.
  destruct l as [|x l]; cbn [length] in H; [lia|]. rewrite IHk by lia. reflexivity.
Qed.

Lemma in_read4_short : forall l, length l < 4 -> in_read4 None (mkIn l false false) = (None, mkIn [] true true).
Proof.
  intros l H. unfold in_read4. cbn [in_eof in_fail in_bytes orb].
  apply Nat.leb_gt in H. rewrite H. reflexivity.
Qed.

Lemma in_read4_good : forall v l, 4 <= length l ->
  in_read4 v (mkIn l false false) = (Some (le_value (firstn 4 l)), mkIn (skipn 4 l) false false).
Proof.
  intros v l H. unfold in_read4. cbn [in_eof in_fail in_bytes orb].
  apply Nat.leb_le in H. rewrite H. reflexivity.
Qed.

Lemma read_eof_short : forall l, length l < 4 -> read_eof 4 l = None.
Proof. intros l H. unfold read_eof. destruct (read_bytes_short 4 l H) as (e & ->). reflexivity. Qed.

Lemma read_eof_good : forall l, 4 <= length l -> read_eof 4 l = Some (le_value (firstn 4 l), skipn 4 l).
Proof. intros l H. unfold read_eof. rewrite read_bytes_long by auto. reflexivity. Qed.

Lemma count_sets_in_eq : forall a b fuel l n0,
  count_sets_in fuel a b (mkIn l false false) n0 = count_sets fuel a b l n0.
Proof.
  intros a b. induction fuel as [|fuel IH]; intros l n0; cbn [count_sets_in count_sets];
    (destruct (Nat.lt_ge_cases (length l) 4) as [H|H];
     [rewrite in_read4_short, read_eof_short by auto; reflexivity
     |rewrite in_read4_good, read_eof_good by auto; cbn [in_eof oget bind]]); auto.
  unfold in_skip. cbn [in_fail in_bytes]. apply IH.
Qed.

Lemma read_inv_list_ok : forall n l il rest, read_inv_list n l = Ok (il, rest) ->
  read_inv_list_in n (mkIn l false false) = Ok (il, mkIn rest false false).
Proof.
  induction n; intros l il rest H; cbn [read_inv_list] in H; cbn [read_inv_list_in].
  - injection H as <- <-. reflexivity.
  - apply bind_inv in H. destruct H as ((x & l1) & E & H). unfold read_le in E.
    apply bind_inv in E. destruct E as ((bs & l2) & E & E2). apply read_bytes_split in E.
    destruct E as (L & -> & ->). assert (X1 : l1 = skipn 4 l) by congruence.
    assert (X2 : x = le_value (firstn 4 l)) by congruence. clear E2. subst l1 x.
    rewrite in_read4_good by auto. cbn [oget bind].
    apply bind_inv in H. destruct H as ((il' & r') & E & H). rewrite (IHn _ _ _ E). cbn [bind].
    injection H as <- <-. reflexivity.
Qed.

Lemma build_loop_ok : forall a b store fuel l i out f,
  build_loop fuel a b store l i out = Ok f ->
  build_loop_in fuel a b store (mkIn l false false) i out = Ok f.
Proof.
  intros a b store. induction fuel as [|fuel IH]; intros l i out f; cbn [build_loop_in build_loop];
    (destruct (Nat.lt_ge_cases (length l) 4) as [H|H];
     [rewrite in_read4_short, read_eof_short by auto; cbn [in_eof]; auto
     |rewrite in_read4_good, read_eof_good by auto; cbn [in_eof oget bind]]); try discriminate.
  destruct (keep_list a b (le_value (firstn 4 l))).
  - intros E. apply bind_inv in E. destruct E as ((il & r) & E1 & E). rewrite (read_inv_list_ok _ _ _ _ E1). cbn [bind].
    apply bind_inv in E. destruct E as (bytes & E2 & E). rewrite E2. cbn [bind]. auto.
  - unfold in_skip. cbn [in_fail in_bytes]. auto.
Qed.

Theorem build_file_ok : forall a b header store input f,
  build_file a b header store input = Ok f -> build_file_in a b header store input = Ok f.
Proof.
  intros a b header store input f H. unfold build_file in H. unfold build_file_in, in_open.
  apply bind_inv in H. destruct H as ((one & l1) & E1 & H). unfold read_le in E1.
  apply bind_inv in E1. destruct E1 as ((b1 & l1') & E1 & E1'). apply read_bytes_split in E1.
  destruct E1 as (L1 & -> & ->). assert (X1 : l1 = skipn 4 input) by congruence.
  assert (X2 : one = le_value (firstn 4 input)) by congruence. clear E1'. subst l1 one.
  apply bind_inv in H. destruct H as ((u & l2) & E2 & H). unfold read_le in E2.
  apply bind_inv in E2. destruct E2 as ((b2 & l2') & E2 & E2'). apply read_bytes_split in E2.
  destruct E2 as (L2 & -> & ->). assert (X1 : l2 = skipn 4 (skipn 4 input)) by congruence.
  assert (X2 : u = le_value (firstn 4 (skipn 4 input))) by congruence. clear E2'. subst l2 u.
  rewrite in_read4_good by auto. rewrite in_read4_good by auto. rewrite count_sets_in_eq.
  assert (S8 : skipn 4 (skipn 4 input) = skipn 8 input).
  { do 4 (destruct input as [|? input]; [reflexivity|]). reflexivity. }
  rewrite S8 in *. apply bind_inv in H. destruct H as (n & E3 & H).
  rewrite E3. cbn [bind oget]. apply build_loop_ok. exact H.
Qed.

(** * Where the file stops *)

Lemma file_app : forall one u a b, collection_file one u (a ++ b)
  = collection_file one u a ++ concat (map list_bytes b).
Proof. intros. unfold collection_file. rewrite map_app, concat_app, <- !app_assoc. reflexivity. Qed.

Lemma file_length : forall one u, length (collection_file one u []) = 8.
Proof. intros. unfold collection_file. cbn [map concat]. rewrite !app_length, !le_bytes_length. reflexivity. Qed.

Theorem whole_lists_exist : forall p one u lists, 8 <= p ->
  exists before after, whole_lists p one u lists before after.
Proof.
  intros p one u lists H.
  assert (G : forall after before, length (collection_file one u before) <= p ->
    exists b a, whole_lists p one u (before ++ after) b a).
  { induction after as [|l after IH]; intros before L.
    - exists before, []. repeat split; auto. intros; discriminate.
    - destruct (Nat.lt_ge_cases p (length (collection_file one u (before ++ [l])))) as [K|K].
      + exists before, (l :: after). repeat split; auto. intros l' more E. injection E as <- _. exact K.
      + destruct (IH (before ++ [l]) K) as (b & a & W). rewrite <- app_assoc in W. eauto. }
  destruct (G lists []) as (b & a & W); [rewrite file_length; auto|]. exists b, a. exact W.
Qed.

(** What is left of the file: the complete lists and a proper part of the next. *)
Lemma cut_split : forall p one u lists before after, whole_lists p one u lists before after ->
  exists tail, cut_at p (collection_file one u lists) = collection_file one u before ++ tail /\
    (after = [] /\ tail = [] \/
     exists l more q, after = l :: more /\ list_bytes l = tail ++ q /\ q <> [] /\
       (length tail = p - length (collection_file one u before))).
Proof.
  intros p one u lists before after (-> & L & K).
  rewrite file_app. unfold cut_at. rewrite firstn_app, firstn_all2 by auto.
  exists (firstn (p - length (collection_file one u before)) (concat (map list_bytes after))).
  split; auto. destruct after as [|l more]; [left; split; auto; apply firstn_nil|].
  right. specialize (K l more eq_refl). rewrite file_app, app_length in K. cbn [map concat] in *.
  rewrite app_nil_r in K. exists l, more, (skipn (p - length (collection_file one u before)) (list_bytes l)).
  assert (E : firstn (p - length (collection_file one u before)) (list_bytes l ++ concat (map list_bytes more))
              = firstn (p - length (collection_file one u before)) (list_bytes l)).
  { rewrite firstn_app.
    replace (p - length (collection_file one u before) - length (list_bytes l)) with 0 by lia.
    cbn [firstn]. apply app_nil_r. }
  rewrite E. repeat split; auto.
  - symmetry. apply firstn_skipn.
  - intros X. apply (f_equal (@length N)) in X. rewrite skipn_length in X. cbn [length] in X. lia.
  - rewrite firstn_length. lia.
Qed.

(** * The passes over complete lists *)

Lemma count_lists : forall a b lists fuel rest n0, Forall (shorter 30) lists ->
  (n0 + N.of_nat (length lists) < 2 ^ 32)%N ->
  count_sets (length lists + fuel) a b (concat (map list_bytes lists) ++ rest) n0
  = count_sets fuel a b rest (n0 + N.of_nat (length (kept_lists a b lists)))%N.
Proof.
  intros a b lists. induction lists as [|l lists IH]; intros fuel rest n0 Hs Hn.
  - cbn [length plus map concat app kept_lists filter]. f_equal. lia.
  - inversion Hs; subst. cbn [map concat length plus count_sets]. unfold list_bytes at 1. rewrite <- !app_assoc.
    rewrite read_eof_app by (apply shorter_len; auto). rewrite seek_list_app by auto.
    rewrite kept_cons. cbn [length] in Hn. rewrite Nat2N.inj_succ in Hn.
    destruct (keep_list a b (N.of_nat (length l))).
    + rewrite N.mod_small by lia. rewrite IH by (auto; lia). f_equal. cbn [length]. lia.
    + apply IH; auto; lia.
Qed.

Lemma build_lists : forall a b store lists fuel i rest out,
  Forall (shorter 30) lists -> Forall (below (2 ^ 32)) lists ->
  build_loop_in (length lists + fuel) a b store (mkIn (concat (map list_bytes lists) ++ rest) false false) i out
  = (let* bs := each_ok (fun p => store (fst p) (snd p)) (indexed i (kept_lists a b lists)) in
     build_loop_in fuel a b store (mkIn rest false false) (i + length (kept_lists a b lists)) (out ++ concat bs)).
Proof.
  intros a b store lists. induction lists as [|l lists IH]; intros fuel i rest out Hs Hb.
  - cbn [length plus map concat app kept_lists filter indexed each_ok bind].
    rewrite Nat.add_0_r, app_nil_r. reflexivity.
  - inversion Hs; subst. inversion Hb; subst.
    cbn [map concat length plus build_loop_in]. unfold list_bytes at 1. rewrite <- !app_assoc.
    rewrite in_read4_app by (apply shorter_len; auto). cbn [in_eof oget bind].
    rewrite kept_cons. destruct (keep_list a b (N.of_nat (length l))).
    + rewrite Nat2N.id, (read_inv_list_ok _ _ _ _ (read_inv_list_app l _ H3)). cbn [bind indexed each_ok fst snd].
      destruct (store i l) as [bytes|e|]; cbn [bind]; auto.
      rewrite IH by auto. rewrite bind_assoc. cbn [bind].
      destruct (each_ok (fun p => store (fst p) (snd p)) (indexed (S i) (kept_lists a b lists))); cbn [bind]; auto.
      cbn [concat length]. rewrite app_assoc. f_equal. lia.
    + unfold in_skip. cbn [in_fail in_bytes]. rewrite seek_list_app by auto. apply IH; auto.
Qed.

(** * The list in which the file stops *)

Lemma list_bytes_length : forall l, length (list_bytes l) = 4 + 4 * length l.
Proof. intros. unfold list_bytes. rewrite app_length, le_bytes_length, concat_bytes_length. lia. Qed.

Lemma seek_past : forall l t, shorter 30 l -> length t < 4 * length l ->
  seek_list (N.of_nat (length l)) t = [].
Proof.
  intros l t H L. unfold shorter in H. unfold seek_list.
  assert (Hm : ((4 * N.of_nat (length l)) mod 2 ^ 32 = 4 * N.of_nat (length l))%N).
  { apply N.mod_small. change (2 ^ 32)%N with (4 * 2 ^ 30)%N. apply N.mul_lt_mono_pos_l; auto. reflexivity. }
  rewrite Hm. destruct (N.leb_spec (N.of_nat (length t)) (4 * N.of_nat (length l))) as [K|K]; auto. lia.
Qed.

Lemma values_short : forall n t, length t < 4 * n -> read_inv_list_in n (mkIn t false false) = UB Indeterminate.
Proof.
  induction n; intros t H; [lia|]. cbn [read_inv_list_in].
  destruct (Nat.lt_ge_cases (length t) 4) as [K|K].
  - rewrite in_read4_short by auto. reflexivity.
  - rewrite in_read4_good by auto. cbn [oget bind]. rewrite IHn; auto. rewrite skipn_length. lia.
Qed.

Lemma count_end : forall a b fuel n0, count_sets fuel a b [] n0 = Ok n0.
Proof. intros a b [|fuel] n0; reflexivity. Qed.

Lemma build_end : forall a b store fuel i out, build_loop_in fuel a b store (mkIn [] false false) i out = Ok out.
Proof. intros a b store [|fuel] i out; reflexivity. Qed.

Lemma tail_split : forall l tail q, list_bytes l = tail ++ q -> q <> [] -> 4 <= length tail ->
  exists t, tail = le_bytes 4 (N.of_nat (length l)) ++ t /\ length t < 4 * length l.
Proof.
  intros l tail q E Hq L. unfold list_bytes in E.
  destruct (prefix_cases _ _ _ _ E) as [(q1 & Hq1 & X)|(t & -> & X)].
  - exfalso. apply (f_equal (@length N)) in X. rewrite le_bytes_length, app_length in X.
    destruct q1; [easy|]. cbn [length] in X. lia.
  - exists t. split; auto. apply (f_equal (@length N)) in X.
    rewrite concat_bytes_length, app_length in X. destruct q; [easy|]. cbn [length] in X. lia.
Qed.

Lemma count_tail : forall a b l tail q fuel n0, shorter 30 l -> list_bytes l = tail ++ q -> q <> [] ->
  length tail <= fuel ->
  count_sets fuel a b tail n0
  = Ok (if ((4 <=? length tail) && keep_list a b (N.of_nat (length l)))%bool
        then ((n0 + 1) mod 2 ^ 32)%N else n0).
Proof.
  intros a b l tail q fuel n0 Hs E Hq Hf. destruct (Nat.leb_spec 4 (length tail)) as [K|K]; cbn [andb].
  - destruct (tail_split _ _ _ E Hq K) as (t & -> & Lt). destruct fuel as [|fuel]; [lia|].
    cbn [count_sets]. rewrite read_eof_app by (apply shorter_len; auto). rewrite seek_past by auto.
    apply count_end.
  - destruct fuel; cbn [count_sets]; rewrite read_eof_short by auto; reflexivity.
Qed.

Lemma build_tail : forall a b store l tail q fuel i out, shorter 30 l -> list_bytes l = tail ++ q -> q <> [] ->
  length tail <= fuel ->
  build_loop_in fuel a b store (mkIn tail false false) i out
  = (if ((4 <=? length tail) && keep_list a b (N.of_nat (length l)))%bool
     then UB Indeterminate else Ok out).
Proof.
  intros a b store l tail q fuel i out Hs E Hq Hf. destruct (Nat.leb_spec 4 (length tail)) as [K|K]; cbn [andb].
  - destruct (tail_split _ _ _ E Hq K) as (t & -> & Lt). destruct fuel as [|fuel]; [lia|].
    cbn [build_loop_in]. rewrite in_read4_app by (apply shorter_len; auto). cbn [in_eof oget bind].
    destruct (keep_list a b (N.of_nat (length l))).
    + rewrite Nat2N.id, values_short by auto. reflexivity.
    + unfold in_skip. cbn [in_fail in_bytes]. rewrite seek_past by auto. apply build_end.
  - destruct fuel; cbn [build_loop_in]; rewrite in_read4_short by auto; reflexivity.
Qed.

Lemma kept_one : forall a b l, kept_lists a b [l] = [l] <-> keep_list a b (N.of_nat (length l)) = true.
Proof. intros. rewrite kept_cons. destruct (keep_list a b (N.of_nat (length l))); split; intros; auto; discriminate. Qed.

(** * The build tools *)

Lemma opened : forall one u w a b header store, (one < 2 ^ 32)%N -> (u < 2 ^ 32)%N ->
  build_file_in a b header store (le_bytes 4 one ++ le_bytes 4 u ++ w)
  = (let* n := count_sets (length w) a b w 0 in
     build_loop_in (length w) a b (store u) (mkIn w false false) 0
       (header ++ le_bytes 4 n ++ le_bytes 4 one ++ le_bytes 4 u)).
Proof.
  intros one u w a b header store H1 H2. unfold build_file_in, in_open.
  rewrite in_read4_app by auto. rewrite in_read4_app by auto.
  assert (S8 : skipn 8 (le_bytes 4 one ++ le_bytes 4 u ++ w) = w) by reflexivity.
  rewrite S8, count_sets_in_eq. reflexivity.
Qed.

Lemma before_ok : forall one u before after, collection_ok one u (before ++ after) -> collection_ok one u before.
Proof.
  intros one u before after (H1 & H2 & H3 & H4 & H5). apply Forall_app in H4. apply Forall_app in H5.
  rewrite app_length in H3. split; [auto|split; [auto|split; [lia|tauto]]].
Qed.

Lemma file_split : forall one u before tail,
  collection_file one u before ++ tail = le_bytes 4 one ++ le_bytes 4 u ++ concat (map list_bytes before) ++ tail.
Proof. intros. unfold collection_file. rewrite <- !app_assoc. reflexivity. Qed.

Lemma length_concat : forall (lists : list (list N)) tail,
  length lists <= length (concat (map list_bytes lists) ++ tail).
Proof. intros. rewrite app_length. assert (H := lists_fuel lists). lia. Qed.

Lemma fuel_split : forall (lists : list (list N)) tail,
  exists f, length (concat (map list_bytes lists) ++ tail) = length lists + f /\ length tail <= f.
Proof.
  intros. exists (length (concat (map list_bytes lists) ++ tail) - length lists).
  rewrite app_length. assert (H := lists_fuel lists). lia.
Qed.

Theorem build_cut : forall p a b header store one u lists before after,
  collection_ok one u lists -> whole_lists p one u lists before after ->
  (~ cut_inside p one u a b before after ->
   build_file_in a b header store (cut_at p (collection_file one u lists))
   = build_file a b header store (collection_file one u before)) /\
  (cut_inside p one u a b before after -> forall f,
   build_file a b header store (collection_file one u before) = Ok f ->
   build_file_in a b header store (cut_at p (collection_file one u lists)) = UB Indeterminate).
Proof.
  intros p a b header store one u lists before after HC W.
  assert (HC0 := HC). destruct (cut_split _ _ _ _ _ _ W) as (tail & E & T).
  destruct W as (-> & Lp & _). assert (HB := before_ok _ _ _ _ HC). rewrite E, file_split.
  destruct HC0 as (H1 & H2 & H3 & H4 & H5). rewrite opened by auto.
  destruct HB as (_ & _ & B3 & B4 & B5).
  destruct (fuel_split before tail) as (f & F & Ft). rewrite F.
  rewrite count_lists by (auto; rewrite N.add_0_l; auto). rewrite N.add_0_l.
  rewrite (build_file_spec a b header store one u before) by (eapply before_ok; eauto).
  set (k := length (kept_lists a b before)) in *.
  assert (Kk : (N.of_nat k < 2 ^ 32)%N) by (eapply kept_count; eapply before_ok; eauto).
  destruct T as [(-> & ->)|(l & more & q & -> & El & Hq & Lt)].
  - rewrite count_end. cbn [bind]. rewrite build_lists by auto. split.
    + intros _. destruct (each_ok _ _); cbn [bind]; auto. rewrite build_end.
      rewrite <- !app_assoc. reflexivity.
    + intros (l & more & X & _). discriminate.
  - assert (Hl : shorter 30 l) by (apply Forall_app in H4; destruct H4 as (_ & H4); inversion H4; auto).
    rewrite (count_tail a b l tail q) by auto. cbn [bind]. rewrite build_lists by auto. split.
    + intros N0.
      assert (D : ((4 <=? length tail) && keep_list a b (N.of_nat (length l)))%bool = false).
      { destruct (Nat.leb_spec 4 (length tail)) as [K|K]; auto. cbn [andb].
        destruct (keep_list a b (N.of_nat (length l))) eqn:Kp; auto. exfalso. apply N0.
        exists l, more. split; auto. split; [apply kept_one; auto|]. lia. }
      rewrite D. destruct (each_ok _ _); cbn [bind]; auto.
      rewrite (build_tail a b _ l tail q) by auto. rewrite D. rewrite <- !app_assoc. reflexivity.
    + intros (l' & more' & X & Kp & L4) g G. injection X as <- <-. apply kept_one in Kp.
      assert (D : ((4 <=? length tail) && keep_list a b (N.of_nat (length l)))%bool = true).
      { rewrite Kp. rewrite andb_true_r. apply Nat.leb_le. lia. }
      rewrite D. destruct (each_ok _ _); cbn [bind] in *; try discriminate.
      rewrite (build_tail a b _ l tail q) by auto. rewrite D. reflexivity.
Qed.

Theorem header_cut : forall p a b header store one u lists, p < 8 ->
  build_file_in a b header store (cut_at p (collection_file one u lists)) = UB Indeterminate.
Proof.
  intros p a b header store one u lists H.
  do 8 (destruct p as [|p]; [reflexivity|]). lia.
Qed.

(** * The coders *)

Lemma le_value_low : forall r k x, r <= k -> le_value (firstn r (le_bytes k x)) = (x mod 256 ^ N.of_nat r)%N.
Proof.
  induction r; intros k x H; cbn [firstn le_value].
  - change (256 ^ N.of_nat 0)%N with 1%N. symmetry. apply N.mod_1_r.
  - destruct k as [|k]; [lia|]. cbn [le_bytes firstn le_value]. rewrite IHr by lia.
    rewrite Nat2N.inj_succ, N.pow_succ_r'. symmetry. apply N.mod_mul_r; [discriminate|].
    apply N.pow_nonzero. discriminate.
Qed.

Lemma in_values_some : forall l x acc rest, below (2 ^ 32) l ->
  in_values (length l) x (mkIn (concat (map (le_bytes 4) l) ++ rest) false false) acc
  = Ok (acc ++ l, match l with [] => x | _ => Some (last l 0%N) end, mkIn rest false false).
Proof.
  intros [|y l] x acc rest H.
  - cbn. rewrite app_nil_r. reflexivity.
  - apply in_values_app; auto. discriminate.
Qed.

Lemma in_values_plus : forall n m x i acc,
  in_values (n + m) x i acc = (let* (s, x, i) := in_values n x i acc in in_values m x i s).
Proof.
  induction n; intros m x i acc; cbn [plus in_values bind]; auto.
  destruct (in_read4 x i) as [y j]. destruct (oget y); cbn [bind]; auto.
Qed.

Lemma in_read4_part : forall y x r, r < 4 ->
  in_read4 (Some y) (mkIn (firstn r (le_bytes 4 x)) false false) = (Some (low_bytes r x y), mkIn [] true true).
Proof.
  intros y x r H. unfold in_read4. cbn [in_eof in_fail in_bytes orb].
  assert (L : length (firstn r (le_bytes 4 x)) = r) by (rewrite firstn_length, le_bytes_length; lia).
  rewrite L. destruct (Nat.leb_spec 4 r) as [K|K]; [lia|]. cbn [option_map].
  rewrite le_value_low by lia. reflexivity.
Qed.

Lemma values_cut : forall l k r x acc, below (2 ^ 32) l -> 0 < k -> k < length l -> r < 4 ->
  let y := low_bytes r (nth k l 0%N) (nth (k - 1) l 0%N) in
  in_values (length l) x
    (mkIn (concat (map (le_bytes 4) (firstn k l)) ++ firstn r (le_bytes 4 (nth k l 0%N))) false false) acc
  = Ok (acc ++ padded k y l, Some y, mkIn [] true true).
Proof.
  intros l k r x acc Hb K0 K Hr y.
  assert (Lk : length (firstn k l) = k) by (rewrite firstn_length; lia).
  replace (length l) with (length (firstn k l) + S (length l - k - 1)) by lia.
  rewrite in_values_plus, in_values_app.
  - cbn [bind in_values].
    assert (La : last (firstn k l) 0%N = nth (k - 1) l 0%N).
    { rewrite <- (firstn_skipn (k - 1) (firstn k l)) at 1. rewrite skipn_firstn_comm.
      replace (k - (k - 1)) with 1 by lia.
      assert (X : firstn 1 (skipn (k - 1) l) = [nth (k - 1) l 0%N]).
      { assert (X : k - 1 < length l) by lia. revert X. generalize (k - 1) as j. clear. 
        induction l as [|z l IH]; intros j X; cbn [length] in X; [lia|]. destruct j; [reflexivity|].
        cbn [skipn nth]. apply IH. lia. }
      rewrite X. apply last_last. }
    rewrite La, in_read4_part by auto. cbn [oget bind]. fold y. rewrite in_values_end. unfold padded.
    assert (R : repeat y (length l - k) = y :: repeat y (length l - k - 1)).
    { destruct (length l - k) as [|d] eqn:D; [lia|]. cbn [repeat]. repeat f_equal. lia. }
    rewrite R. rewrite <- !app_assoc. reflexivity.
  - unfold below in *. rewrite <- (firstn_skipn k l) in Hb. apply Forall_app in Hb. tauto.
  - intros X. rewrite X in Lk. cbn [length] in Lk. lia.
Qed.

Theorem loop_cut : forall m cf cost before l k r f n x t, lists_fit (before ++ [l]) ->
  (m < N.of_nat (length l))%N -> 0 < k -> k < length l -> r < 4 ->
  let y := low_bytes r (nth k l 0%N) (nth (k - 1) l 0%N) in
  let counted := long_lists m before ++ [padded k y l] in
  Forall (fun l => cf l = Ok (cost l)) counted -> 2 + length before <= f ->
  coding_loop f false m cf n x
    (mkIn (concat (map list_bytes before) ++ le_bytes 4 (N.of_nat (length l))
           ++ concat (map (le_bytes 4) (firstn k l)) ++ firstn r (le_bytes 4 (nth k l 0%N))) false false) t
  = Ok (add_lists cost counted t).
Proof.
  intros m cf cost before l k r f n x t Hf H K0 K Hr y counted Hc L.
  destruct (fit_app _ _ Hf) as (F1 & F2). apply fit_one in F2. destruct F2 as (Sh & Bl).
  unfold counted in *. apply Forall_app in Hc. destruct Hc as (C1 & C2).
  replace f with (length before + S (S (f - length before - 2))) by lia.
  edestruct (loop_lists m cf cost before (S (S (f - length before - 2))) n x) as (n' & x' & ->); eauto.
  assert (Pl : length (padded k y l) = length l).
  { unfold padded. rewrite app_length, repeat_length, firstn_length. lia. }
  cbn [coding_loop in_eof]. rewrite in_read4_app by (apply shorter_len; auto). cbn [oget bind].
  apply N.ltb_lt in H. rewrite H, Nat2N.id. unfold y in *. rewrite values_cut by auto. cbn [bind app].
  inversion C2; subst. rewrite H2. cbn [bind in_eof]. rewrite add_lists_app, add_lists_cons.
  rewrite Pl. reflexivity.
Qed.

Lemma cut_values : forall one u before l more k r, k < length l -> r < 4 ->
  cut_at (length (collection_file one u before) + 4 + 4 * k + r) (collection_file one u (before ++ l :: more))
  = le_bytes 4 one ++ le_bytes 4 u ++ concat (map list_bytes before) ++ le_bytes 4 (N.of_nat (length l))
      ++ concat (map (le_bytes 4) (firstn k l)) ++ firstn r (le_bytes 4 (nth k l 0%N)).
Proof.
  intros one u before l more k r K Hr. rewrite <- file_split, file_app. unfold cut_at.
  rewrite <- !Nat.add_assoc. rewrite firstn_app_2. f_equal. cbn [map concat]. unfold list_bytes at 1. rewrite <- app_assoc.
  assert (E : firstn (4 + (4 * k + r)) (le_bytes 4 (N.of_nat (length l)) ++ concat (map (le_bytes 4) l) ++ concat (map list_bytes more))
              = le_bytes 4 (N.of_nat (length l)) ++ firstn (4 * k + r) (concat (map (le_bytes 4) l) ++ concat (map list_bytes more))).
  { rewrite <- (le_bytes_length 4 (N.of_nat (length l))) at 1. apply firstn_app_2. }
  rewrite E. f_equal. rewrite <- (firstn_skipn k l) at 1. rewrite map_app, concat_app, <- app_assoc.
  assert (Lk : length (concat (map (le_bytes 4) (firstn k l))) = 4 * k).
  { rewrite concat_bytes_length, firstn_length. lia. }
  rewrite <- Lk at 1. rewrite firstn_app_2. f_equal.
  assert (X : skipn k l = nth k l 0%N :: skipn (S k) l).
  { revert K. generalize k. clear. induction l as [|z l IH]; intros j X; cbn [length] in X; [lia|].
    destruct j; [reflexivity|]. cbn [skipn nth]. apply IH. lia. }
  rewrite X. cbn [map concat]. rewrite <- app_assoc, firstn_app, le_bytes_length.
  replace (r - 4) with 0 by lia. cbn [firstn]. apply app_nil_r.
Qed.

Theorem classic_cut : forall delta gamma fib m one u before l more k r fuel,
  collection_ok one u (before ++ l :: more) -> (m < N.of_nat (length l))%N ->
  0 < k -> k < length l -> r < 4 -> 2 + length before <= fuel ->
  let p := length (collection_file one u before) + 4 + 4 * k + r in
  let y := low_bytes r (nth k l 0%N) (nth (k - 1) l 0%N) in
  let counted := long_lists m before ++ [padded k y l] in
  classic_coders fuel delta gamma fib m (Some (cut_at p (collection_file one u (before ++ l :: more))))
  = Ok (mkTotals (total_length counted) (N.of_nat (length counted))
          [sumN (map delta counted); sumN (map gamma counted); sumN (map fib counted)]).
Proof.
  intros delta gamma fib m one u before l more k r fuel HC H K0 K Hr L p y counted.
  unfold p. rewrite cut_values by auto. destruct HC as (H1 & H2 & H3 & H4 & H5).
  unfold classic_coders, coding_main, in_open. rewrite in_read4_app by auto. rewrite in_read4_app by auto.
  cbn [bind].
  rewrite (loop_cut m _ (fun s => map (fun c => c s) [delta; gamma; fib])); auto.
  - f_equal. apply (add_columns [delta; gamma; fib]).
  - apply Forall_app in H4. apply Forall_app in H5. destruct H4 as (A4 & B4). destruct H5 as (A5 & B5).
    inversion B4; subst. inversion B5; subst. split; apply Forall_app; auto.
  - apply Forall_forall. reflexivity.
Qed.

(** * The tools *)

Theorem tries_ok : forall fm a b rank_type block runs levelwise input f,
  build_tries fm a b rank_type block runs levelwise input = Ok f ->
  build_tries_in fm a b rank_type block runs levelwise input = Ok f.
Proof. intros. apply build_file_ok. exact H. Qed.

Theorem fast_ok : forall fm junk a b rank_type runs levelwise lw input f,
  build_fast_tries fm junk a b rank_type runs levelwise lw input = Ok f ->
  build_fast_tries_in fm junk a b rank_type runs levelwise lw input = Ok f.
Proof. intros. apply build_file_ok. exact H. Qed.

Theorem tries_cut : forall fm a b rank_type block runs levelwise one u lists p before after,
  collection_ok one u lists -> whole_lists p one u lists before after ->
  ~ cut_inside p one u a b before after ->
  build_tries_in fm a b rank_type block runs levelwise (cut_at p (collection_file one u lists))
  = build_tries fm a b rank_type block runs levelwise (collection_file one u before).
Proof. intros fm a b rank_type block runs levelwise one u lists p before after H W. eapply build_cut; eauto. Qed.

Theorem tries_inside : forall fm a b rank_type block runs levelwise one u lists p before after f,
  collection_ok one u lists -> whole_lists p one u lists before after ->
  cut_inside p one u a b before after ->
  build_tries fm a b rank_type block runs levelwise (collection_file one u before) = Ok f ->
  build_tries_in fm a b rank_type block runs levelwise (cut_at p (collection_file one u lists)) = UB Indeterminate.
Proof.
  intros fm a b rank_type block runs levelwise one u lists p before after f H W I E.
  eapply build_cut; eauto.
Qed.

Theorem fast_cut : forall fm junk a b rank_type runs levelwise lw one u lists p before after,
  collection_ok one u lists -> whole_lists p one u lists before after ->
  ~ cut_inside p one u a b before after ->
  build_fast_tries_in fm junk a b rank_type runs levelwise lw (cut_at p (collection_file one u lists))
  = build_fast_tries fm junk a b rank_type runs levelwise lw (collection_file one u before).
Proof. intros fm junk a b rank_type runs levelwise lw one u lists p before after H W. eapply build_cut; eauto. Qed.

Theorem fast_inside : forall fm junk a b rank_type runs levelwise lw one u lists p before after f,
  collection_ok one u lists -> whole_lists p one u lists before after ->
  cut_inside p one u a b before after ->
  build_fast_tries fm junk a b rank_type runs levelwise lw (collection_file one u before) = Ok f ->
  build_fast_tries_in fm junk a b rank_type runs levelwise lw (cut_at p (collection_file one u lists))
  = UB Indeterminate.
Proof.
  intros fm junk a b rank_type runs levelwise lw one u lists p before after f H W I E.
  eapply build_cut; eauto.
Qed.

Theorem silent_cut : forall fm a b rank_type block runs levelwise one u lists l,
  collection_ok one u (lists ++ [l]) ->
  exists p, p < length (collection_file one u (lists ++ [l])) /\
    build_tries_in fm a b rank_type block runs levelwise (cut_at p (collection_file one u (lists ++ [l])))
    = build_tries fm a b rank_type block runs levelwise (collection_file one u lists).
Proof.
  intros fm a b rank_type block runs levelwise one u lists l H.
  assert (L : length (collection_file one u lists) < length (collection_file one u (lists ++ [l]))).
  { rewrite file_app, app_length. cbn [map concat]. rewrite app_length, list_bytes_length. lia. }
  exists (length (collection_file one u lists)). split; auto.
  apply (tries_cut fm a b rank_type block runs levelwise one u (lists ++ [l]) _ lists [l]); auto.
  - split; auto. split; auto. intros l' more E. injection E as <- <-. exact L.
  - intros (l' & more & _ & _ & X). lia.
Qed.

Theorem tries_header : forall fm a b rank_type block runs levelwise one u lists p, p < 8 ->
  build_tries_in fm a b rank_type block runs levelwise (cut_at p (collection_file one u lists)) = UB Indeterminate.
Proof. intros. apply header_cut. auto. Qed.

Theorem fast_header_cut : forall fm junk a b rank_type runs levelwise lw one u lists p, p < 8 ->
  build_fast_tries_in fm junk a b rank_type runs levelwise lw (cut_at p (collection_file one u lists))
  = UB Indeterminate.
Proof. intros. apply header_cut. auto. Qed.

Lemma cut_input_example :
  let lists := [[1; 2; 9]; [4]; [3; 300]]%N in
  let file := collection_file 1 512 lists in
  let build := build_tries_in plain_formats 1 100 0 512 false false in
  let sum := fun l : list N => sumN l in
  collection_ok 1 512 lists /\ length file = 44 /\
  whole_lists 29 1 512 lists [[1; 2; 9]]%N [[4]; [3; 300]]%N /\
  whole_lists 33 1 512 lists [[1; 2; 9]; [4]]%N [[3; 300]]%N /\
  ~ cut_inside 29 1 512 1 100 [[1; 2; 9]]%N [[4]; [3; 300]]%N /\
  ~ cut_inside 33 1 512 1 100 [[1; 2; 9]; [4]]%N [[3; 300]]%N /\
  cut_inside 41 1 512 1 100 [[1; 2; 9]; [4]]%N [[3; 300]]%N /\
  (exists f, build (cut_at 29 file) = Ok f /\ build (cut_at 33 file) = Ok f /\
             build (collection_file 1 512 [[1; 2; 9]]%N) = Ok f /\ build file <> Ok f) /\
  build (cut_at 41 file) = UB Indeterminate /\ build (cut_at 7 file) = UB Indeterminate /\
  classic_coders 9 sum sum sum 1 (Some (cut_at 41 file)) = Ok (mkTotals 5 2 [12 + 3 + 44; 59; 59])%N.
Proof.
  cbv zeta. split; [sets_ok|]. split; [reflexivity|].
  split; [|split; [|split; [|split; [|split; [|split; [|split; [|split]]]]]]]; try (vm_compute; reflexivity).
  - split; [reflexivity|]. split; [vm_compute; lia|]. intros l more E. injection E as <- <-. vm_compute. lia.
  - split; [reflexivity|]. split; [vm_compute; lia|]. intros l more E. injection E as <- <-. vm_compute. lia.
  - intros (l & more & E & K & _). injection E as <- <-. discriminate K.
  - intros (l & more & _ & _ & K). vm_compute in K. lia.
  - exists [3; 300]%N, []. split; [reflexivity|]. split; [reflexivity|]. vm_compute. lia.
  - eexists. split; [vm_compute; reflexivity|]. split; [vm_compute; reflexivity|]. split; [vm_compute; reflexivity|].
    vm_compute. discriminate.
Qed.
