(** Proofs about what a level-wise trie of the empty set stores. *)

From Verif Require Import Base FlatTrie LevelTrie FastTrie ParallelFor Intersection Tries Serialize Facts Tree
  Groups BuildLevel Spec RoundTrip RoundTripFacts EdgeFacts Compress SpecTries SpecMeasures SpecFiles SpecDistinct
  NodeCount Reps Layout LayoutThms InterThms CallsMain SerializeFacts SerializeSound SerializeThms DistinctThms.

Theorem empty_stored : forall il u, (2 <= u <= 2 ^ 48)%N ->
  exists t t', level_build il [] u = Ok t /\ level_encodeRuns t = Ok t' /\
    l_bTrie t = map (fun l => repeat false (2 * 2 ^ l)) (seq 0 (digits u)) /\
    l_bTrie t' = (if N.eqb u 2 then [[false; false]] else repeat [] (digits u)).
Proof.
  intros il u Hu. destruct (height_of_spec u ltac:(lia)) as (h & Hh & Hr & Hp & H2 & _).
  assert (Eh := height_digits u h ltac:(lia) Hh). rewrite <- Eh.
  destruct (N.eqb_spec u 2) as [->|Hn].
  - change (height_of 2) with (@Ok nat 1) in Hh. injection Hh as <-.
    exists (mkLevel il 0 false false [[false; false]] []). eexists. split; [apply level_build_empty1|].
    split; [destruct il; reflexivity|]. split; destruct il; reflexivity.
  - rewrite (level_build_empty il u h) by (auto; lia). eexists. 
    assert (HH : forall a b c d, level_getHeight (mkLevel a b c d (empty_levels h)
                    (firstn (h - 1) (empty_levels h))) = h).
    { intros. unfold level_getHeight, empty_levels. cbn [l_bTrie]. rewrite map_length, seq_length. auto. }
    assert (G : forall f g, writeCompressTrie h (level_getNode (mkLevel il 0 false false (empty_levels h)
                    (firstn (h - 1) (empty_levels h)))) f g (S h) (repeat [] h, repeat 0 h) 0 0 false
                = Ok ((repeat [] h, repeat 0 h), false)).
    { intros f g. cbn [writeCompressTrie]. destruct h as [|[|h]]; [lia|lia|].
      unfold level_getNode. unfold empty_levels at 1. cbn [l_bTrie seq map]. reflexivity. }
    eexists. split; [reflexivity|]. split.
    { unfold level_encodeRuns, compress_run. rewrite HH.
      rewrite G. cbn [bind]. unfold level_writeOnes. rewrite HH. unfold level_sizes.
      rewrite empty_sizes by (rewrite ?repeat_length; auto using repeat_all).
      cbn [bind l_il]. rewrite empty_write by (destruct il; lia). cbn [bind]. reflexivity. }
    split; reflexivity.
Qed.

Lemma concat_repeat_nil : forall A n, concat (repeat (@nil A) n) = [].
Proof. induction n; auto. Qed.

Lemma empty_length : forall h, length (concat (map (fun l => repeat false (2 * 2 ^ l)) (seq 0 h))) + 2 = 2 * 2 ^ h.
Proof.
  induction h as [|h IH]; [reflexivity|]. rewrite seq_S, map_app, concat_app, app_length.
  cbn [map concat Nat.add]. rewrite app_nil_r, repeat_length. cbn [Nat.pow]. lia.
Qed.

Lemma empty_false : forall h, Forall (eq false) (concat (map (fun l => repeat false (2 * 2 ^ l)) (seq 0 h))).
Proof.
  intros h. apply Forall_forall. intros b Hb. apply in_concat in Hb. destruct Hb as (l & Hl & Hb).
  apply in_map_iff in Hl. destruct Hl as (k & <- & _). apply repeat_spec in Hb. auto.
Qed.

Theorem empty_space : forall il u, (2 <= u <= 2 ^ 48)%N ->
  exists t, level_build il [] u = Ok t /\ length (concat (l_bTrie t)) + 2 = 2 * 2 ^ digits u /\
    Forall (eq false) (concat (l_bTrie t)).
Proof.
  intros il u Hu. destruct (empty_stored il u Hu) as (t & t' & E & _ & B & _). exists t. split; auto.
  rewrite B. split; [apply empty_length|apply empty_false].
Qed.

(** * No other trie stores that *)

Lemma first_code : forall h (T : tree unit), wf (S h) T -> exists rest, prebits T (S h) = code2 T ++ rest /\ (T = Full -> rest = []).
Proof.
  intros h T W. rewrite concat_levels. unfold levels. cbn [levelsF concat bits flat_map]. rewrite app_nil_r.
  eexists. split; [reflexivity|]. intros ->. cbn [kids]. clear. cbn [app]. induction h; cbn; auto.
Qed.

Theorem empty_apart : forall u v enc s u' il enc', (2 <= u <= 2 ^ 48)%N -> stored_ok u v false s ->
  (2 <= u' <= 2 ^ 48)%N ->
  exists t t', bin_make u v enc s = Ok t /\ bin_make u' (VLevel il) enc' [] = Ok t' /\ stored_bits t <> stored_bits t'.
Proof.
  intros u v enc s u' il enc' Hu Hx Hu'.
  destruct (bin_bits u v enc s Hu Hx) as (t & Ht & B & W & Es & _).
  destruct (empty_stored il u' Hu') as (t0 & t1 & E0 & E1 & B0 & B1).
  destruct (height_of_spec u' ltac:(lia)) as (h' & Hh' & Hr' & _ & H2' & _).
  assert (Eh' := height_digits u' h' ltac:(lia) Hh'). rewrite <- Eh' in *.
  assert (X : exists t', bin_make u' (VLevel il) enc' [] = Ok t' /\ exists z, stored_bits t' = (h', z) /\
    Forall (eq false) z /\ (length z = 2 -> h' = 1)).
  { unfold bin_make. cbn [bin_build]. rewrite E0. cbn [bind]. destruct enc'.
    - cbn [bin_encodeRuns]. rewrite E1. cbn [bind]. eexists. split; [reflexivity|]. cbn [stored_bits].
      destruct (N.eqb_spec u' 2) as [->|Hn].
      + change (height_of 2) with (@Ok nat 1) in Hh'. injection Hh' as <-. rewrite B1. eexists. split; [reflexivity|].
        split; [repeat constructor|auto].
      + rewrite B1, concat_repeat_nil, repeat_length. eexists. split; [reflexivity|].
        split; [constructor|discriminate].
    - eexists. split; [reflexivity|]. cbn [stored_bits]. rewrite B0, map_length, seq_length. eexists. split; [reflexivity|].
      split; [apply empty_false|]. intros L. assert (Z := empty_length h'). rewrite L in Z.
      destruct h' as [|[|h']]; auto; [discriminate Z|]. exfalso. cbn [Nat.pow] in Z.
      assert (2 ^ h' <> 0) by (apply Nat.pow_nonzero; discriminate). lia. }
  destruct X as (t' & Ht' & z & Bz & Fz & Lz). exists t, t'. split; auto. split; auto.
  rewrite B, Bz. intros E. injection E as Ed Ez. rewrite Ed in *.
  destruct h' as [|h']; [lia|].
  destruct (first_code h' _ W) as (rest & P & PF). rewrite P in Ez. 
  destruct (bin_tree (S h') enc s) as [a| |l|r|l r] eqn:ET.
  - cbn in W. discriminate.
  - rewrite (PF eq_refl) in Ez. cbn [code2 app] in Ez. rewrite <- Ez in Lz.
    assert (h' = 0) by (specialize (Lz eq_refl); lia). subst h'.
    unfold bin_tree in ET. destruct Hx as (_ & Hne & _). cbn [tree_of] in ET.
    destruct (lefts (0 + 0) s); destruct (rights (0 + 0) s); destruct enc; discriminate ET.
  - cbn [code2 app] in Ez. rewrite <- Ez in Fz. inversion Fz; discriminate.
  - cbn [code2 app] in Ez. rewrite <- Ez in Fz. inversion Fz as [|? ? _ Fz']; inversion Fz'; discriminate.
  - cbn [code2 app] in Ez. rewrite <- Ez in Fz. inversion Fz; discriminate.
Qed.

(** * All sets *)

Lemma plain_stored : forall u v s, plain_ok u v s -> s <> [] -> stored_ok u v false s.
Proof. intros u v s H Hn. split; auto. split; auto. destruct v; [discriminate|exact I]. Qed.

Lemma plain_empty : forall u v, plain_ok u v [] -> exists il, v = VLevel il.
Proof. intros u [il|il] (_ & _ & H); [exfalso; apply (proj1 (proj2 H)); reflexivity|eauto]. Qed.

Lemma empty_bits : forall u il enc, (2 <= u <= 2 ^ 48)%N ->
  exists t, bin_make u (VLevel il) enc [] = Ok t /\ fits t /\
    stored_bits t = (digits u, if enc then if digits u =? 1 then [false; false] else []
                               else concat (map (fun l => repeat false (2 * 2 ^ l)) (seq 0 (digits u)))).
Proof.
  intros u il enc Hu. destruct (empty_stored il u Hu) as (t0 & t1 & E0 & E1 & B0 & B1).
  destruct (height_of_spec u ltac:(lia)) as (h & Hh & Hr & _ & H2 & _).
  assert (Eh := height_digits u h ltac:(lia) Hh). rewrite <- Eh in *.
  unfold bin_make. cbn [bin_build]. rewrite E0. cbn [bind]. destruct enc.
  - cbn [bin_encodeRuns]. rewrite E1. cbn [bind]. eexists. split; [reflexivity|]. cbn [stored_bits fits]. rewrite B1.
    destruct (N.eqb_spec u 2) as [->|Hn].
    + change (height_of 2) with (@Ok nat 1) in Hh. injection Hh as <-.
      split; [constructor; [reflexivity|constructor]|reflexivity].
    + assert (2 <= h) by (apply H2; lia). replace (h =? 1) with false by (symmetry; apply Nat.eqb_neq; lia).
      rewrite concat_repeat_nil, repeat_length. split; [|reflexivity].
      apply Forall_forall. intros l Hl. apply repeat_spec in Hl. subst l. reflexivity.
  - eexists. split; [reflexivity|]. cbn [stored_bits fits]. rewrite B0, map_length, seq_length.
    split; [|reflexivity]. apply Forall_forall. intros l Hl. apply in_map_iff in Hl. destruct Hl as (k & <- & Hk).
    apply in_seq in Hk. unfold bv_fits. rewrite repeat_length.
    replace (N.of_nat (2 * 2 ^ k)) with (2 ^ N.of_nat (S k))%N.
    2:{ rewrite Nat2N.inj_succ, N.pow_succ_r', Nat2N.inj_mul, Nat2N.inj_pow. reflexivity. }
    apply N.le_lt_trans with (2 ^ 48)%N; [|reflexivity]. apply N.pow_le_mono_r; lia.
Qed.

Theorem all_bits_decide : forall u v enc s u' v' enc' s',
  (2 <= u <= 2 ^ 48)%N -> plain_ok u v s -> (2 <= u' <= 2 ^ 48)%N -> plain_ok u' v' s' ->
  exists t t', bin_make u v enc s = Ok t /\ bin_make u' v' enc' s' = Ok t' /\ fits t /\ fits t' /\
    (stored_bits t = stored_bits t' -> s = s') /\
    (s = s' -> digits u = digits u' -> enc = enc' -> stored_bits t = stored_bits t').
Proof.
  intros u v enc s u' v' enc' s' Hu Hx Hu' Hx'.
  destruct s as [|a s]; destruct s' as [|a' s'].
  - destruct (plain_empty _ _ Hx) as (il & ->), (plain_empty _ _ Hx') as (il' & ->).
    destruct (empty_bits u il enc Hu) as (t & Ht & Ft & Bt), (empty_bits u' il' enc' Hu') as (t' & Ht' & Ft' & Bt').
    exists t, t'. repeat split; auto. intros _ E ->. rewrite Bt, Bt', E. reflexivity.
  - destruct (plain_empty _ _ Hx) as (il & ->). assert (K := plain_stored _ _ _ Hx' ltac:(discriminate)).
    destruct (empty_bits u il enc Hu) as (t & Ht & Ft & Bt).
    destruct (empty_apart u' v' enc' _ u il enc Hu' K Hu) as (t' & t1 & Ht' & Ht1 & Hne).
    rewrite Ht in Ht1. injection Ht1 as <-.
    exists t, t'. repeat split; auto; try discriminate.
    + eapply (made_bits u'); eauto.
    + intros E. congruence.
  - destruct (plain_empty _ _ Hx') as (il & ->). assert (K := plain_stored _ _ _ Hx ltac:(discriminate)).
    destruct (empty_bits u' il enc' Hu') as (t' & Ht' & Ft & Bt).
    destruct (empty_apart u v enc _ u' il enc' Hu K Hu') as (t & t1 & Ht & Ht1 & Hne).
    rewrite Ht' in Ht1. injection Ht1 as <-.
    exists t, t'. repeat split; auto; try discriminate.
    + eapply (made_bits u); eauto.
    + intros E. congruence.
  - assert (K := plain_stored _ _ _ Hx ltac:(discriminate)). assert (K' := plain_stored _ _ _ Hx' ltac:(discriminate)).
    destruct (bits_decide u v enc _ u' v' enc' _ Hu K Hu' K') as (t & t' & Ht & Ht' & D1 & D2).
    exists t, t'. split; [exact Ht|]. split; [exact Ht'|].
    split; [eapply (made_bits u); eauto|]. split; [eapply (made_bits u'); eauto|]. split; [exact D1|exact D2].
Qed.

Theorem all_bits : forall u v enc s u' v' enc' s',
  (2 <= u <= 2 ^ 48)%N -> plain_ok u v s -> (2 <= u' <= 2 ^ 48)%N -> plain_ok u' v' s' ->
  exists t t', bin_make u v enc s = Ok t /\ bin_make u' v' enc' s' = Ok t' /\
    (stored_bits t = stored_bits t' -> s = s') /\
    (s = s' -> digits u = digits u' -> enc = enc' -> stored_bits t = stored_bits t').
Proof.
  intros u v enc s u' v' enc' s' Hu Hx Hu' Hx'.
  destruct (all_bits_decide u v enc s u' v' enc' s' Hu Hx Hu' Hx') as (t & t' & H1 & H2 & _ & _ & H3 & H4).
  exists t, t'. auto.
Qed.

Theorem all_files : forall c v u enc s u' enc' s', codecs_ok c -> v <> VLevel true ->
  (2 <= u <= 2 ^ 48)%N -> plain_ok u v s -> (2 <= u' <= 2 ^ 48)%N -> plain_ok u' v s' ->
  exists t t' f f' n n', bin_make u v enc s = Ok t /\ bin_make u' v enc' s' = Ok t' /\
    bin_serialize c t = Ok (f, n) /\ bin_serialize c t' = Ok (f', n') /\
    (s <> s' -> ~ exists e, f' = f ++ e).
Proof.
  intros c v u enc s u' enc' s' Hc Hv Hu Hx Hu' Hx'.
  destruct (all_bits_decide u v enc s u' v enc' s' Hu Hx Hu' Hx') as (t & t' & Ht & Ht' & Ft & Ft' & D & _).
  assert (C := proj2 (bin_make_sound _ _ _ _ _ Ht)). assert (C' := proj2 (bin_make_sound _ _ _ _ _ Ht')).
  assert (K : forall a b, has_class v a -> has_class v b -> same_class a b).
  { intros a b Ha Hb. destruct v, a, b; cbn in *; try tauto. congruence. }
  assert (L := fun e => serialization_round_trip c u v enc s t t e Hc Hv Ht Ft (K _ _ C C)).
  destruct (serialization_round_trip c u' v enc' s' t' t [] Hc Hv Ht' Ft' (K _ _ C' C)) as (f' & E' & L').
  destruct (L []) as (f & E & _).
  do 6 eexists. split; [exact Ht|]. split; [exact Ht'|]. split; [exact E|]. split; [exact E'|].
  intros Hne (e & ->). apply Hne, D. destruct (L e) as (b1 & X1 & X2). rewrite E in X1. injection X1 as <-.
  rewrite app_nil_r in L'. rewrite X2 in L'. injection L' as <- _. reflexivity.
Qed.

Theorem empty_file : forall c u old rest, codecs_ok c -> (2 <= u <= 2 ^ 48)%N -> has_class (VLevel false) old ->
  exists t bytes, bin_make u (VLevel false) false [] = Ok t /\
    bin_serialize c t = Ok (bytes, N.of_nat (length bytes)) /\
    bin_load c old (bytes ++ rest) = Ok (t, rest) /\ bin_decode t [] = Ok [].
Proof.
  intros c u old rest Hc Hu Ho. destruct (empty_bits u false false Hu) as (t & Ht & Ff & _).
  assert (C := proj2 (bin_make_sound _ _ _ _ _ Ht)).
  assert (S : same_class t old) by (destruct t, old; cbn in *; try tauto; congruence).
  destruct (serialization_round_trip c u (VLevel false) false [] t old rest Hc ltac:(discriminate) Ht Ff S) as (b & E1 & E2).
  exists t, b. repeat split; auto.
  destruct (level_round_trip_empty false u Hu) as (t1 & F1 & F2).
  unfold bin_make in Ht. cbn [bin_build] in Ht. rewrite F1 in Ht. cbn [bind] in Ht. injection Ht as <-. cbn [bin_decode]. apply F2.
Qed.
