(** Proofs about serialize() and load(). *)

From Verif Require Import Base Split FlatTrie LevelTrie FastTrie Tries Serialize SpecFiles Facts.

(** * Integers *)

Lemma le_bytes_length : forall k x, length (le_bytes k x) = k.
Proof. induction k; intros; cbn [le_bytes length]; auto. Qed.

Lemma le_value_bytes : forall k x, (x < 256 ^ N.of_nat k)%N -> le_value (le_bytes k x) = x.
Proof.
  induction k; intros x H; cbn [le_bytes le_value].
  - change (256 ^ N.of_nat 0)%N with 1%N in H. lia.
  - rewrite Nat2N.inj_succ, N.pow_succ_r' in H.
    rewrite IHk by (apply N.div_lt_upper_bound; lia).
    rewrite N.add_comm. symmetry. apply N.div_mod. discriminate.
Qed.

Lemma read_bytes_app : forall l rest, read_bytes (length l) (l ++ rest) = Ok (l, rest).
Proof. induction l; intros; cbn [length read_bytes app]; auto. rewrite IHl. reflexivity. Qed.

Lemma read_le_app : forall k x rest, (x < 256 ^ N.of_nat k)%N ->
  read_le k (le_bytes k x ++ rest) = Ok (x, rest).
Proof.
  intros. unfold read_le. rewrite <- (le_bytes_length k x) at 1. rewrite read_bytes_app.
  cbn [bind]. rewrite le_value_bytes; auto.
Qed.

Lemma read_bool_app : forall b rest, read_bool ([bool_byte b] ++ rest) = Ok (b, rest).
Proof. destruct b; reflexivity. Qed.

Lemma scalars_app : forall h hwr e r rest,
  (N.of_nat h < 2 ^ 16)%N -> (N.of_nat hwr < 2 ^ 16)%N ->
  load_scalars (ser_scalars h hwr e r ++ rest) = Ok (h, hwr, e, r, rest).
Proof.
  intros. unfold load_scalars, ser_scalars. rewrite <- !app_assoc.
  rewrite read_le_app by auto. cbn [bind]. rewrite read_le_app by auto. cbn [bind].
  rewrite read_bool_app. cbn [bind]. rewrite read_bool_app. cbn [bind].
  rewrite !Nat2N.id. reflexivity.
Qed.

Lemma scalars_length : forall h hwr e r, length (ser_scalars h hwr e r) = 6.
Proof. intros. unfold ser_scalars. rewrite !app_length, !le_bytes_length. reflexivity. Qed.

(** * Flat tries *)

Definition u16 (n : nat) : Prop := (N.of_nat n < 2 ^ 16)%N.

Definition flat_sound (t : flat) : Prop :=
  u16 (f_height t) /\ u16 (f_height_with_runs t) /\ f_rank t = f_bTrie t.

Lemma flat_load_serialize : forall c t old rest, codecs_ok c -> flat_sound t ->
  bv_fits (f_bTrie t) -> bv_fits (f_lastLevel t) ->
  flat_load c old (fst (flat_serialize c t) ++ rest) = Ok (t, rest).
Proof.
  intros c t old rest (C1 & C2 & C3) (S1 & S2 & S3) F1 F2. unfold flat_load, flat_serialize.
  cbn [fst]. rewrite S3, <- !app_assoc, scalars_app by auto. cbn [bind].
  rewrite C1 by auto. cbn [bind]. rewrite C2 by auto. cbn [bind]. rewrite C3 by auto. cbn [bind].
  rewrite <- S3 at 2. destruct t; reflexivity.
Qed.

Lemma flat_serialize_count : forall c t,
  snd (flat_serialize c t) = N.of_nat (length (fst (flat_serialize c t))).
Proof.
  intros. unfold flat_serialize. cbn [fst snd]. rewrite !app_length, scalars_length. lia.
Qed.

Lemma flat_size_short : forall c t,
  (flat_size_in_bytes c t + 2 = N.of_nat (length (fst (flat_serialize c t))))%N.
Proof.
  intros. unfold flat_serialize, flat_size_in_bytes. cbn [fst snd].
  rewrite !app_length, scalars_length. lia.
Qed.

(** * Level-wise tries *)

Lemma total_length_concat : forall l, total_length l = N.of_nat (length (concat l)).
Proof.
  unfold total_length. induction l; auto. cbn [fold_right concat]. rewrite app_length, IHl. lia.
Qed.

Definition level_sound (t : level_trie) : Prop :=
  l_bTrie t <> [] /\ u16 (length (l_bTrie t)) /\ u16 (l_height_with_runs t) /\
  l_rank t = firstn (length (l_bTrie t) - 1) (l_bTrie t).

Lemma load_bvs_app : forall c vs rest, bv_codec_ok c -> Forall bv_fits vs ->
  load_bvs c (length vs) (concat (map (bv_ser c) vs) ++ rest) = Ok (vs, rest).
Proof.
  intros c vs rest C F. induction F; cbn [length map concat load_bvs app]; auto.
  rewrite <- app_assoc, C by auto. cbn [bind]. rewrite IHF. reflexivity.
Qed.

Lemma load_ranks_app : forall c vs rest, rank_codec_ok c -> Forall bv_fits vs ->
  load_ranks c vs (concat (map (rk_ser c) vs) ++ rest) = Ok (vs, rest).
Proof.
  intros c vs rest C F. induction F; cbn [length map concat load_ranks app]; auto.
  rewrite <- app_assoc, C by auto. cbn [bind]. rewrite IHF. reflexivity.
Qed.

Lemma Forall_firstn : forall A (P : A -> Prop) n l, Forall P l -> Forall P (firstn n l).
Proof.
  intros A P n l H. revert n. induction H; intros [|n]; cbn; auto.
Qed.

Lemma level_load_serialize : forall c t old rest, codecs_ok c -> level_sound t ->
  l_il t = false -> l_il old = false -> Forall bv_fits (l_bTrie t) ->
  exists bytes n, level_serialize c t = Ok (bytes, n) /\
    n = N.of_nat (length bytes) /\
    level_load c old (bytes ++ rest) = Ok (t, rest).
Proof.
  intros c t old rest (C1 & C2 & C3) (S0 & S1 & S2 & S3) E Eo Fb.
  unfold level_serialize. rewrite E. eexists. eexists. split; [reflexivity|].
  assert (TL := total_length_concat).
  split.
  { rewrite !app_length, scalars_length, !TL. lia. }
  unfold level_load. rewrite <- !app_assoc, scalars_app by auto. cbn [bind].
  destruct (length (l_bTrie t) =? 0) eqn:H0.
  { apply Nat.eqb_eq in H0. destruct (l_bTrie t); [easy|discriminate]. }
  rewrite Eo. rewrite load_bvs_app by auto. cbn [bind].
  rewrite S3, firstn_firstn, Nat.min_id.
  rewrite load_ranks_app by (auto; apply Forall_firstn; auto). cbn [bind].
  rewrite <- S3. destruct t; cbn in *. subst. reflexivity.
Qed.

Lemma level_size_short : forall c t bytes n, level_serialize c t = Ok (bytes, n) ->
  (level_size_in_bytes c t + 2 = N.of_nat (length bytes))%N.
Proof.
  assert (TL := total_length_concat).
  intros c t bytes n. unfold level_serialize, level_size_in_bytes. destruct (l_il t); [discriminate|].
  intros H. apply (f_equal (fun r => match r with Ok (b, _) => b | _ => [] end)) in H. subst bytes.
  rewrite !app_length, scalars_length, !TL. lia.
Qed.

(** The interleaved class. *)
Lemma load_il_app : forall c vs rest, codecs_ok c -> Forall bv_fits vs ->
  load_il c (length vs) (ser_il c vs ++ rest) = Ok (vs, rest).
Proof.
  intros c vs rest (C1 & C2 & C3) F. induction F as [|v vs Fv Fvs IH]; [reflexivity|].
  destruct vs as [|v' vs].
  - cbn [length load_il ser_il]. rewrite C1 by auto. reflexivity.
  - change (ser_il c (v :: v' :: vs)) with
      (bv_ser (c_bv c) v ++ rk_ser (c_rank c) v ++ ser_il c (v' :: vs)).
    rewrite <- !app_assoc. remember (v' :: vs) as w eqn:Ew.
    change (length (v :: w)) with (S (length w)).
    assert (Hw : (length w =? 0) = false) by (subst w; reflexivity).
    cbn [load_il]. rewrite C1 by auto. cbn [bind]. rewrite Hw, C3 by auto. cbn [bind].
    rewrite IH. reflexivity.
Qed.

Lemma level_il_load : forall c t old rest, codecs_ok c -> level_sound t ->
  l_il old = true -> Forall bv_fits (l_bTrie t) ->
  level_load c old (level_il_intended c t ++ rest)
  = Ok (mkLevel true (l_height_with_runs t) (l_empty_trie t) (l_runs_encoded t) (l_bTrie t) [], rest).
Proof.
  intros c t old rest C (S0 & S1 & S2 & S3) Eo Fb. unfold level_load, level_il_intended.
  rewrite <- !app_assoc, scalars_app by auto. cbn [bind].
  destruct (length (l_bTrie t) =? 0) eqn:H0.
  { apply Nat.eqb_eq in H0. destruct (l_bTrie t); [easy|discriminate]. }
  rewrite Eo, load_il_app by auto. reflexivity.
Qed.

(** * Fast tries *)

Definition fast_sound (t : fast) : Prop :=
  3 <= x_lw t /\ u16 (x_height t) /\ u16_member (x_height_with_runs t) /\
  x_height_u t = x_height t + x_lw t - 1 /\ x_rank t = x_bTrie t /\
  Forall (fun w => (w < 2 ^ wbits (x_lw t))%N) (x_lastLevel t).

Lemma wbytes_pow : forall lw, 3 <= lw -> (256 ^ N.of_nat (wbytes lw) = 2 ^ wbits lw)%N.
Proof.
  intros lw H. change 256%N with (2 ^ 8)%N. rewrite <- N.pow_mul_r. f_equal.
  unfold wbits, wbytes. replace lw with (3 + (lw - 3)) at 2 by lia.
  rewrite Nat2N.inj_add, N.pow_add_r. change (2 ^ N.of_nat 3)%N with 8%N. f_equal.
  induction (lw - 3); [reflexivity|]. rewrite Nat.pow_succ_r', Nat2N.inj_mul, IHn.
  rewrite (Nat2N.inj_succ n), N.pow_succ_r'. reflexivity.
Qed.

Lemma load_words_app : forall k ws rest, Forall (fun w => (w < 256 ^ N.of_nat k)%N) ws ->
  load_words k (length ws) (concat (map (le_bytes k) ws) ++ rest) = Ok (ws, rest).
Proof.
  intros k ws rest F. induction F; cbn [length map concat load_words app]; auto.
  rewrite <- app_assoc, read_le_app by auto. cbn [bind]. rewrite IHF. reflexivity.
Qed.

Lemma concat_bytes_length : forall k ws, length (concat (map (le_bytes k) ws)) = length ws * k.
Proof.
  induction ws; cbn [map concat length]; auto. rewrite app_length, le_bytes_length, IHws. lia.
Qed.

Lemma wbytes_pos : forall lw, 1 <= wbytes lw.
Proof. intros. unfold wbytes. change 1 with (2 ^ 0) at 1. apply Nat.pow_le_mono_r; lia. Qed.

(** The trie obtained by loading: the words are appended to the old ones. *)
Definition fast_restored (jh je : N) (old t : fast) : fast :=
  mkFast (x_lw t) (x_height t)
         (Some (match x_height_with_runs t with Some h => h | None => N.to_nat jh end))
         (x_height_u t) (x_runs_encoded t)
         (match x_empty_trie t with Some e => Some e | None => byte_bool je end)
         (x_bTrie t) (x_lastLevel old ++ x_lastLevel t) (x_rank t).

Lemma fast_load_serialize : forall c jh je t old rest, codecs_ok c -> fast_sound t -> fast_fits t ->
  x_lw old = x_lw t -> (jh < 2 ^ 16)%N -> (je < 256)%N ->
  fast_load c old (fst (fast_serialize c jh je t) ++ rest) = Ok (fast_restored jh je old t, rest).
Proof.
  intros c jh je t old rest (C1 & C2 & C3) (S0 & S1 & S2 & S3 & S4 & S5) (F1 & F2) El Hjh Hje.
  unfold fast_load, fast_serialize. cbn [fst]. rewrite S4, <- !app_assoc.
  rewrite read_le_app by auto. cbn [bind].
  rewrite read_le_app.
  2:{ destruct (x_height_with_runs t) eqn:E; auto. }
  cbn [bind]. unfold read_obool at 1. rewrite read_le_app.
  2:{ destruct (x_empty_trie t) as [[]|]; auto; reflexivity. }
  cbn [bind]. rewrite read_bool_app. cbn [bind]. rewrite C1 by auto. cbn [bind].
  rewrite C3 by auto. cbn [bind]. rewrite read_le_app by auto. cbn [bind].
  rewrite app_length, concat_bytes_length.
  destruct (N.ltb_spec (N.of_nat (length (x_lastLevel t) * wbytes (x_lw t) + length rest))
                       (N.of_nat (length (x_lastLevel t)))) as [H|H].
  { exfalso. assert (W := wbytes_pos (x_lw t)). nia. }
  rewrite El, Nat2N.id, load_words_app.
  2:{ rewrite wbytes_pow by auto. auto. }
  cbn [bind]. unfold fast_restored. rewrite S3, S4, Nat2N.id. f_equal. f_equal. f_equal.
  - destruct (x_height_with_runs t); f_equal. apply Nat2N.id.
  - destruct (x_empty_trie t) as [[]|]; reflexivity.
Qed.

Lemma fast_restored_refines : forall jh je old t, x_lastLevel old = [] ->
  refines t (fast_restored jh je old t).
Proof.
  intros. unfold refines, fast_restored. cbn. rewrite H. repeat split; intros h E; rewrite E; auto.
Qed.

Lemma fast_serialize_count : forall c jh je t,
  (N.of_nat (length (fst (fast_serialize c jh je t))) + 16
   = snd (fast_serialize c jh je t) + N.of_nat (length (x_lastLevel t) * wbytes (x_lw t)))%N.
Proof.
  intros. unfold fast_serialize. cbn [fst snd]. rewrite !app_length, !le_bytes_length, concat_bytes_length.
  cbn [length]. lia.
Qed.

Lemma fast_size_long : forall c jh je t,
  (fast_size_in_bytes c t = N.of_nat (length (fst (fast_serialize c jh je t))) + 14)%N.
Proof.
  intros. unfold fast_serialize, fast_size_in_bytes. cbn [fst snd].
  rewrite !app_length, !le_bytes_length, concat_bytes_length. cbn [length]. lia.
Qed.

(** Behaviour depends on the determinate members only. *)
Lemma bind_congr : forall A B (m m' : result A) (f f' : A -> result B),
  m = m' -> (forall a, f a = f' a) -> bind m f = bind m' f'.
Proof. intros A B m m' f f' -> H. destruct m'; cbn; auto. Qed.

Ltac same := repeat first
  [ reflexivity
  | apply bind_congr; [|intros ?]
  | match goal with
    | |- (if ?b then _ else _) = (if ?b then _ else _) => destruct b
    | H : context [_ = _] |- _ => solve [apply H]
    end ].

Lemma fast_recursiveDecode_refines : forall t t', refines t t' -> forall fuel dec p id lev,
  fast_recursiveDecode fuel t' dec p id lev = fast_recursiveDecode fuel t dec p id lev.
Proof.
  intros t t' R. destruct t as [a1 a2 a3 a4 a5 a6 a7 a8 a9], t' as [b1 b2 b3 b4 b5 b6 b7 b8 b9]. destruct R as (E1 & E2 & E3 & E4 & E5 & E6 & E7 & _).
  cbn in *. subst. induction fuel; intros; cbn [fast_recursiveDecode x_height x_lw x_height_u]; same.
Qed.

Lemma fast_runsRecursiveDecode_refines : forall t t', refines t t' -> forall fuel dec p id lev,
  fast_runsRecursiveDecode fuel t' dec p id lev = fast_runsRecursiveDecode fuel t dec p id lev.
Proof.
  intros t t' R. destruct t as [a1 a2 a3 a4 a5 a6 a7 a8 a9], t' as [b1 b2 b3 b4 b5 b6 b7 b8 b9]. destruct R as (E1 & E2 & E3 & E4 & E5 & E6 & E7 & _).
  cbn in *. subst. induction fuel; intros; cbn [fast_runsRecursiveDecode x_height x_lw x_height_u]; same.
Qed.

Lemma fast_decode_refines : forall t t' v r, refines t t' ->
  fast_decode t v = Ok r -> fast_decode t' v = Ok r.
Proof.
  intros t t' v r R. assert (R' := R). destruct R' as (E1 & E2 & E3 & E4 & E5 & E6 & E7 & E8 & E9).
  unfold fast_decode. rewrite E4, E2. destruct (x_runs_encoded t).
  - destruct (x_empty_trie t) as [e|] eqn:Ee; [|discriminate]. rewrite (E9 _ eq_refl). cbn [oget bind].
    destruct e; auto. rewrite (fast_runsRecursiveDecode_refines t t' R). auto.
  - rewrite (fast_recursiveDecode_refines t t' R). auto.
Qed.
