(** What load() makes of the bytes in either order. *)

From Verif Require Import Base FlatTrie LevelTrie FastTrie Tries Serialize EvalOrder Spec SpecFiles Facts SerializeFacts SerializeSound SerializeThms
  SpecTries SpecMeasures SpecLayout LayoutThms.

Theorem left_first : forall c t, flat_serialize_order c false t = flat_serialize c t.
Proof. intros. unfold flat_serialize_order, flat_serialize. rewrite <- !app_assoc. reflexivity. Qed.

Theorem order_count : forall c o t,
  snd (flat_serialize_order c o t) = N.of_nat (length (fst (flat_serialize_order c o t))).
Proof.
  intros. unfold flat_serialize_order. cbn [fst snd]. destruct o; rewrite !app_length, scalars_length; lia.
Qed.

Theorem right_first : forall c u enc s t old rest t' rest',
  codecs_ok c -> c_bv c = c_last c ->
  bin_make u (VFlat false) enc s = Ok (BFlat t) -> fits (BFlat t) ->
  flat_load c old (fst (flat_serialize_order c true t) ++ rest) = Ok (t', rest') ->
  f_height t' = f_height t /\ f_bTrie t' = f_lastLevel t /\ f_lastLevel t' = f_bTrie t.
Proof.
  intros c u enc s t old rest t' rest' (C1 & C2 & C3) Ec Hm (F1 & F2) H.
  destruct (bin_make_sound _ _ _ _ _ Hm) as ((S1 & S2 & _) & _).
  unfold flat_load, flat_serialize_order in H. cbn [fst] in H.
  rewrite <- !app_assoc, scalars_app in H by auto. cbn [bind] in H.
  rewrite Ec in H. rewrite C2 in H by auto. cbn [bind] in H. rewrite C2 in H by auto. cbn [bind] in H.
  apply (bind_inv _ _ _ _ _) in H. destruct H as ((rk & input) & _ & H). cbn in H.
  injection H as <- _. auto.
Qed.

Theorem right_first_changed : forall c u enc s t old rest,
  codecs_ok c -> c_bv c = c_last c ->
  bin_make u (VFlat false) enc s = Ok (BFlat t) -> fits (BFlat t) -> f_bTrie t <> f_lastLevel t ->
  flat_load c old (fst (flat_serialize_order c true t) ++ rest) <> Ok (t, rest).
Proof.
  intros c u enc s t old rest C Ec Hm F Hd H.
  destruct (right_first c u enc s t old rest t rest C Ec Hm F H) as (_ & E & _). congruence.
Qed.

(** A plain trie comes back exactly when its last level holds the same bits as all the others. *)
Theorem right_first_exact : forall c u s old rest,
  codecs_ok c -> c_bv c = c_last c ->
  (3 <= u <= 2 ^ 48)%N -> s <> [] -> increasing s -> below u s -> shorter 32 s ->
  exists t, flat_build s u = Ok t /\
    (flat_load c old (fst (flat_serialize_order c true t) ++ rest) = Ok (t, rest) <->
     concat (removelast (set_levels (digits u) s)) = last (set_levels (digits u) s) []).
Proof.
  intros c u s old rest C Ec Hu Hne Hi Hb Hs.
  destruct (flat_stored u s Hu Hne Hi Hb Hs) as (t & E & _ & E1 & E2). exists t. split; auto.
  rewrite <- E1, <- E2.
  assert (Hm : bin_make u (VFlat false) false s = Ok (BFlat t)).
  { unfold bin_make, bin_build. rewrite E. reflexivity. }
  destruct (bin_made u (VFlat false) false s) as (t0 & M & F & _).
  { lia. } { split; [split; auto; split; auto; split; [lia|auto]|]. split; auto. intros H; discriminate. }
  assert (t0 = BFlat t) by congruence. subst t0. split.
  - intros H. destruct (right_first c u false s t old rest t rest C Ec Hm F H) as (_ & H1 & _). auto.
  - intros H. destruct (bin_make_sound _ _ _ _ _ Hm) as (S & _). destruct F as (F1 & F2).
    rewrite <- (flat_load_serialize c t old rest C S F1 F2). f_equal. f_equal. unfold flat_serialize_order, flat_serialize.
    cbn [fst]. rewrite H, Ec, <- !app_assoc. reflexivity.
Qed.
