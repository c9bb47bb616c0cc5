(** Storing and loading tries: the statements used by the property files. *)

From Verif Require Import Base Split FlatTrie LevelTrie FastTrie Tries Serialize Facts Tree Groups
  Reps Layout BuildFlat BuildLevel BuildFast WordBits DecodeFast Spec RoundTrip RoundTripFacts
  Compress WriteOnes CompressFast RunsFacts RunsThms SpecTries SpecFiles SerializeFacts
  SerializeSound.

(** * Sizes *)

Lemma kids_length : forall A (f : list (tree A)), length (flat_map kids f) <= 2 * length f.
Proof.
  induction f as [|t f IH]; cbn [flat_map length]; auto. rewrite app_length.
  assert (length (kids t) <= 2) by (destruct t; cbn; lia). lia.
Qed.

Lemma bits_length_le : forall A (f : list (tree A)), length (bits f) <= 2 * length f.
Proof.
  unfold bits. induction f as [|t f IH]; cbn [flat_map length]; auto. rewrite app_length.
  assert (length (code2 t) <= 2) by (destruct t; cbn; lia). lia.
Qed.

Lemma F_length : forall A (T : tree A) j, length (F T j) <= 2 ^ j.
Proof.
  intros A T. unfold F. induction j; [cbn; lia|]. cbn [fiter]. rewrite Nat.pow_succ_r'.
  assert (K := kids_length A (fiter j [T])). lia.
Qed.

Lemma prebits_length_le : forall A (T : tree A) j, length (prebits T j) <= 2 * 2 ^ j.
Proof.
  intros A T. induction j; [cbn; lia|]. cbn [prebits]. rewrite app_length, Nat.pow_succ_r'.
  assert (K := bits_length_le A (F T j)). assert (L := F_length A T j). lia.
Qed.

Lemma small_fits : forall n j, n <= 2 * 2 ^ j -> j <= 48 -> (N.of_nat n < 2 ^ 64)%N.
Proof.
  intros n j H Hj. assert (N.of_nat n <= 2 * pow2 j)%N.
  { rewrite <- of_nat_pow2. lia. }
  assert (pow2 j <= 2 ^ 48)%N by (unfold pow2; apply N.pow_le_mono_r; lia).
  eapply N.le_lt_trans; [eassumption|]. eapply N.le_lt_trans; [apply N.mul_le_mono_l; eassumption|].
  reflexivity.
Qed.

Lemma prebits_fits : forall A (T : tree A) j, j <= 48 -> bv_fits (prebits T j).
Proof. intros. unfold bv_fits. eapply small_fits; [apply prebits_length_le|auto]. Qed.

Lemma bits_fits : forall A (T : tree A) j, j <= 48 -> bv_fits (bits (F T j)).
Proof.
  intros. unfold bv_fits. eapply small_fits; [|eassumption].
  assert (K := bits_length_le A (F T j)). assert (L := F_length A T j). lia.
Qed.

Lemma levels_fits : forall A (T : tree A) h, h <= 48 -> Forall bv_fits (levels h T).
Proof.
  intros A T h H. apply Forall_forall. intros v Hv. apply In_nth_error in Hv. destruct Hv as (i & Hi).
  assert (i < h).
  { assert (X : i < length (levels h T)) by (apply nth_error_Some; congruence).
    unfold levels in X. rewrite levelsF_length in X. auto. }
  unfold levels in Hi. rewrite levelsF_nth in Hi by auto. injection Hi as <-.
  apply (bits_fits A T i). lia.
Qed.

(** * What a set becomes: made, decodable, storable *)

Lemma bin_made : forall u v enc s, (2 <= u <= 2 ^ 48)%N -> stored_ok u v enc s ->
  exists t, bin_make u v enc s = Ok t /\ fits t /\ bin_sound t /\ has_class v t /\
    forall w, bin_decode t w = Ok (w ++ s).
Proof.
  intros u v enc s Hu ((Hs & Hb & Hv) & Hne & Hm).
  assert (X : exists t, bin_make u v enc s = Ok t /\ fits t /\ forall w, bin_decode t w = Ok (w ++ s)).
  { destruct v as [il|il].
    - destruct Hv as (Hu3 & _ & Hsh).
      destruct (flat_built u s ltac:(lia) Hne Hs Hb Hsh) as (h & t & Ht & Hh & Hp & L & Hpl & Hr & He & E).
      unfold bin_make, bin_build. rewrite Ht. cbn [bind]. destruct enc.
      + cbn [bin_encodeRuns]. assert (E' := flat_encodeRuns_spec t h _ L Hpl). cbv zeta in E'.
        destruct (ucompress_nodelev (tree_of unit_leaf 0 h s) h (proj1 (proj2 L)) ltac:(lia)).
        rewrite E'. cbn [bind]. eexists. split; [reflexivity|]. split.
        * cbn [fits f_bTrie f_lastLevel]. split; [apply prebits_fits|apply bits_fits]; lia.
        * intros w. destruct (flat_runs_round_trip u s w ltac:(lia) Hne Hs Hb Hsh (Hm eq_refl))
            as (t1 & t2 & H1 & H2 & H3).
          rewrite Ht in H1. injection H1 as <-. rewrite E' in H2. injection H2 as <-. exact H3.
      + eexists. split; [reflexivity|]. split.
        * destruct L as (_ & _ & _ & Eb & El & _). cbn [fits]. rewrite Eb, El.
          split; [apply prebits_fits|apply bits_fits]; lia.
        * intros w. destruct (flat_round_trip_app u s w ltac:(lia) Hne Hs Hb Hsh) as (t1 & H1 & H2).
          rewrite Ht in H1. injection H1 as <-. exact H2.
    - destruct (level_built il u s Hu Hne Hs Hb) as (h & t & Ht & Hh & Hp & L & Hpl & Hr & He & E).
      unfold bin_make, bin_build. rewrite Ht. cbn [bind]. destruct enc.
      + cbn [bin_encodeRuns]. destruct (level_encodeRuns_spec _ _ _ L Hpl) as (t' & Ht' & L' & _).
        rewrite Ht'. cbn [bind]. eexists. split; [reflexivity|]. split.
        * destruct L' as (_ & _ & Eb & _). cbn [fits]. rewrite Eb. apply levels_fits. lia.
        * intros w. destruct (level_runs_round_trip il u s w Hu Hne Hs Hb)
            as (t1 & t2 & H1 & H2 & H3).
          rewrite Ht in H1. injection H1 as <-. rewrite Ht' in H2. injection H2 as <-. exact H3.
      + eexists. split; [reflexivity|]. split.
        * destruct L as (_ & _ & Eb & _). cbn [fits]. rewrite Eb. apply levels_fits. lia.
        * intros w. destruct (level_round_trip_app il u s w Hu Hs Hb) as (t1 & H1 & H2).
          rewrite Ht in H1. injection H1 as <-. exact H2. }
  destruct X as (t & H1 & H2 & H3). destruct (bin_make_sound _ _ _ _ _ H1) as (H4 & H5). exists t. auto.
Qed.

Lemma fast_made : forall u lw jh je enc s, fast_universe u lw -> fast_ok u s -> u16_member jh ->
  exists t, fast_make u lw jh je enc s = Ok t /\ fast_fits t /\ fast_sound t /\ x_lw t = lw /\
    ((enc = true -> je = Some false) -> forall w, fast_decode t w = Ok (w ++ s)).
Proof.
  intros u lw jh je enc s (Hlw & Hu) (Hne & Hs & Hb & Hsh) Hj.
  destruct (fast_built lw jh je u s Hlw Hu Hne Hs Hb Hsh)
    as (d & t & Ht & Hd & Hp & L & Hpl & Hr & He & E1 & E2 & Hal & E).
  assert (FF : forall t T, fast_layout t (S d) T -> fast_fits t).
  { intros t1 T1 (_ & _ & _ & Eb & El & _). split.
    - rewrite Eb. apply prebits_fits. lia.
    - apply (f_equal (@length _)) in El. rewrite map_length in El. rewrite <- El.
      eapply small_fits; [|instantiate (1 := d); lia]. replace (S d - 1) with d by lia.
      assert (K := F_length _ T1 d). lia. }
  assert (X : exists t, fast_make u lw jh je enc s = Ok t /\ fast_fits t /\
            ((enc = true -> je = Some false) -> forall w, fast_decode t w = Ok (w ++ s))).
  { unfold fast_make. rewrite Ht. cbn [bind]. destruct enc.
    - assert (Hx : x_height t = S d) by apply L.
      destruct (fast_encodeRuns_spec t _ ltac:(rewrite Hx; exact L) Hpl) as (t' & Ht' & L' & _).
      rewrite Hx in L'. exists t'. split; auto. split; [eauto|].
      intros Hje w. rewrite (Hje eq_refl) in *.
      destruct (fast_runs_round_trip lw jh u s w Hlw Hu Hne Hs Hb Hsh) as (t1 & t2 & H1 & H2 & H3).
      rewrite Ht in H1. injection H1 as <-. rewrite Ht' in H2. injection H2 as <-. auto.
    - exists t. split; auto. split; [eauto|]. intros _ w.
      destruct (fast_round_trip_app lw jh je u s w Hlw Hu Hne Hs Hb Hsh) as (t1 & H1 & H2).
      rewrite Ht in H1. injection H1 as <-. auto. }
  destruct X as (t1 & H1 & H2 & H3).
  destruct (fast_make_sound _ _ _ _ _ _ _ H1) as (H4 & H5); auto.
  { cbn in Hlw. lia. }
  exists t1. auto.
Qed.

(** * C19 *)

Theorem serialization_round_trip : forall c u v enc s t old rest, codecs_ok c -> v <> VLevel true ->
  bin_make u v enc s = Ok t -> fits t -> same_class t old ->
  exists bytes, bin_serialize c t = Ok (bytes, N.of_nat (length bytes)) /\
    bin_load c old (bytes ++ rest) = Ok (t, rest).
Proof.
  intros c u v enc s t old rest C Hv Hm F K. destruct (bin_make_sound _ _ _ _ _ Hm) as (S & Hc).
  apply bin_load_serialize; auto. intros X. destruct v as [il|il], t as [t|t]; cbn in *; try easy.
  apply Hv. congruence.
Qed.

Theorem stored_set : forall c u v enc s old rest, codecs_ok c -> v <> VLevel true ->
  (2 <= u <= 2 ^ 48)%N -> stored_ok u v enc s -> has_class v old ->
  exists t bytes, bin_make u v enc s = Ok t /\
    bin_serialize c t = Ok (bytes, N.of_nat (length bytes)) /\
    bin_load c old (bytes ++ rest) = Ok (t, rest) /\ bin_decode t [] = Ok s.
Proof.
  intros c u v enc s old rest C Hv Hu Hs Ho.
  destruct (bin_made u v enc s Hu Hs) as (t & H1 & H2 & H3 & H4 & H5).
  destruct (serialization_round_trip c u v enc s t old rest C Hv H1 H2) as (b & E1 & E2).
  { destruct v, t, old; cbn in *; try easy. congruence. }
  exists t, b. repeat split; auto. apply (H5 []).
Qed.

(** * C20, C21, C22 *)

Theorem fast_serialization_round_trip : forall c u lw jh je enc s t old j1 j2 rest, codecs_ok c ->
  In lw [3; 4; 5; 6] -> u16_member jh -> fast_make u lw jh je enc s = Ok t -> fast_fits t ->
  x_lw old = lw -> x_lastLevel old = [] -> (j1 < 2 ^ 16)%N -> (j2 < 256)%N ->
  exists t', fast_load c old (fst (fast_serialize c j1 j2 t) ++ rest) = Ok (t', rest) /\
    refines t t' /\ (forall v r, fast_decode t v = Ok r -> fast_decode t' v = Ok r).
Proof.
  intros c u lw jh je enc s t old j1 j2 rest C Hlw Hj Hm F El Eo H1 H2.
  destruct (fast_make_sound _ _ _ _ _ _ _ Hm) as (S & E); auto.
  { cbn in Hlw. lia. }
  exists (fast_restored j1 j2 old t). split.
  - apply fast_load_serialize; auto. congruence.
  - assert (R := fast_restored_refines j1 j2 old t Eo). split; auto. intros. eapply fast_decode_refines; eauto.
Qed.

Theorem fast_stored_set : forall c u lw jh je enc s old j1 j2 rest, codecs_ok c ->
  fast_universe u lw -> fast_ok u s -> u16_member jh -> (enc = true -> je = Some false) ->
  x_lw old = lw -> x_lastLevel old = [] -> (j1 < 2 ^ 16)%N -> (j2 < 256)%N ->
  exists t t', fast_make u lw jh je enc s = Ok t /\
    fast_load c old (fst (fast_serialize c j1 j2 t) ++ rest) = Ok (t', rest) /\
    fast_decode t' [] = Ok s.
Proof.
  intros c u lw jh je enc s old j1 j2 rest C Hu Hs Hj He El Eo H1 H2.
  destruct (fast_made u lw jh je enc s Hu Hs Hj) as (t & M1 & M2 & M3 & M4 & M5).
  destruct (fast_serialization_round_trip c u lw jh je enc s t old j1 j2 rest) as (t' & E1 & _ & E2); auto.
  { apply Hu. }
  exists t, t'. repeat split; auto. apply E2. apply (M5 He []).
Qed.

Theorem serialize_count : forall c t bytes n, bin_serialize c t = Ok (bytes, n) ->
  n = N.of_nat (length bytes).
Proof.
  intros c [t|t] bytes n H; cbn [bin_serialize] in H.
  - assert (E := flat_serialize_count c t). destruct (flat_serialize c t). injection H as <- <-. auto.
  - unfold level_serialize in H. destruct (l_il t); [discriminate|].
    apply (f_equal (fun r => match r with Ok bn => bn | _ => ([], 0%N) end)) in H.
    assert (H1 := f_equal fst H). assert (H2 := f_equal snd H). cbn [fst snd] in H1, H2. subst.
    rewrite !app_length, scalars_length, !total_length_concat. lia.
Qed.

Theorem fast_serialize_count_iff : forall c j1 j2 t,
  snd (fast_serialize c j1 j2 t) = N.of_nat (length (fst (fast_serialize c j1 j2 t))) <->
  length (x_lastLevel t) * wbytes (x_lw t) = 16.
Proof. intros. assert (E := fast_serialize_count c j1 j2 t). lia. Qed.

Theorem fast_load_over : forall c u lw jh je enc s t old j1 j2 rest, codecs_ok c ->
  In lw [3; 4; 5; 6] -> u16_member jh -> fast_make u lw jh je enc s = Ok t -> fast_fits t ->
  x_lw old = lw -> (j1 < 2 ^ 16)%N -> (j2 < 256)%N ->
  exists t', fast_load c old (fst (fast_serialize c j1 j2 t) ++ rest) = Ok (t', rest) /\
    x_lastLevel t' = x_lastLevel old ++ x_lastLevel t /\ x_bTrie t' = x_bTrie t /\
    x_height t' = x_height t /\ (refines t t' <-> x_lastLevel old = []).
Proof.
  intros c u lw jh je enc s t old j1 j2 rest C Hlw Hj Hm F El H1 H2.
  destruct (fast_make_sound _ _ _ _ _ _ _ Hm) as (S & E); auto.
  { cbn in Hlw. lia. }
  exists (fast_restored j1 j2 old t). split; [|split; [|split; [|split; [|split]]]]; try reflexivity.
  - apply fast_load_serialize; auto. congruence.
  - intros (_ & _ & _ & _ & _ & E6 & _). cbn in E6. apply (f_equal (@length _)) in E6.
    rewrite app_length in E6. destruct (x_lastLevel old); auto. cbn in E6. lia.
  - intros. apply fast_restored_refines; auto.
Qed.

(** * C44 *)

Theorem level_il_not_storable : forall c u enc s t, bin_make u (VLevel true) enc s = Ok t ->
  bin_serialize c t = UB NullDeref.
Proof.
  intros c u enc s t H. apply bin_make_sound in H. destruct H as (_ & H). destruct t as [t|t]; [easy|].
  cbn in *. unfold level_serialize. rewrite H. auto.
Qed.

Theorem level_il_not_loadable : forall c u s t old rest w, codecs_ok c ->
  (3 <= u <= 2 ^ 48)%N -> s <> [] -> increasing s -> below u s ->
  level_build true s u = Ok t -> l_il old = true ->
  exists t', level_load c old (level_il_intended c t ++ rest) = Ok (t', rest) /\
    l_bTrie t' = l_bTrie t /\ level_decode t' w = UB OutOfBounds.
Proof.
  intros c u s t old rest w C Hu Hne Hs Hb Ht Ho.
  destruct (level_built true u s ltac:(lia) Hne Hs Hb) as (h & t1 & Ht1 & Hh & Hp & L & Hpl & Hr & He & E).
  rewrite Ht in Ht1. injection Ht1 as <-.
  destruct (level_build_sound _ _ _ _ Ht) as (S & Hl & Ei).
  assert (Hd : level_decode t [] = Ok s).
  { destruct (level_round_trip_set true u s ltac:(lia) Hs Hb) as (t1 & H1 & H2). congruence. }
  assert (EH := level_height _ _ _ L). destruct L as (H1 & Hwf & Eb & _).
  exists (mkLevel true (l_height_with_runs t) (l_empty_trie t) (l_runs_encoded t) (l_bTrie t) []).
  split; [|split; [reflexivity|]].
  { apply level_il_load; auto. rewrite Eb. apply levels_fits. lia. }
  assert (H2 : 2 <= h).
  { destruct h as [|[|h]]; try lia. change (pow2 1) with 2%N in Hp. lia. }
  revert Hd. unfold level_decode. cbn [l_runs_encoded]. rewrite Hr.
  change (level_getHeight (mkLevel true (l_height_with_runs t) (l_empty_trie t) false (l_bTrie t) []))
    with (level_getHeight t). rewrite EH.
  change (level_getNode (mkLevel true (l_height_with_runs t) (l_empty_trie t) false (l_bTrie t) []))
    with (level_getNode t).
  cbn [recursiveDecode]. destruct (0 =? h) eqn:H0; [apply Nat.eqb_eq in H0; lia|].
  destruct (level_getNode t 0 0) as [node| |]; cbn [bind]; try discriminate.
  set (t' := mkLevel true _ _ _ _ _).
  assert (EH' : (level_getHeight t' <=? 1) = false).
  { change (level_getHeight t') with (level_getHeight t). rewrite EH. apply Nat.leb_gt. lia. }
  assert (UL : level_getLeftChild t' 0 0 = UB OutOfBounds).
  { unfold level_getLeftChild. rewrite EH'. reflexivity. }
  assert (UR : level_getRightChild t' 0 0 = UB OutOfBounds).
  { unfold level_getRightChild. rewrite EH'. reflexivity. }
  destruct ((node =? 2)%N || (node =? 3)%N)%bool; cbn [bind].
  - intros _. rewrite UL. reflexivity.
  - destruct (_ || _)%bool.
    + intros _. rewrite shl1_pow2 by lia. cbn [bind]. rewrite UR. reflexivity.
    + intros [= X]. congruence.
Qed.

(** * C47 *)

Theorem size_short : forall c t bytes n, bin_serialize c t = Ok (bytes, n) ->
  (bin_size_in_bytes c t + 2 = N.of_nat (length bytes))%N.
Proof.
  intros c [t|t] bytes n H; cbn [bin_serialize bin_size_in_bytes] in *.
  - assert (E := flat_size_short c t). destruct (flat_serialize c t). injection H as <- <-. auto.
  - eapply level_size_short; eauto.
Qed.

(** * The formats of the examples *)

Lemma value_bits_value : forall v, value_bits (length v) (bits_value v) = v.
Proof.
  induction v as [|b v IH]; auto. cbn [length bits_value value_bits]. f_equal.
  - rewrite N.odd_add_mul_2. destruct b; reflexivity.
  - rewrite N.mul_comm, N.div_add by discriminate. replace (b2N b / 2)%N with 0%N by (destruct b; reflexivity).
    rewrite N.add_0_l. auto.
Qed.

Lemma bits_value_bound : forall v, (bits_value v < 2 ^ N.of_nat (length v))%N.
Proof.
  induction v as [|b v IH]; [reflexivity|]. cbn [length bits_value].
  rewrite Nat2N.inj_succ, N.pow_succ_r'. assert (b2N b <= 1)%N by (destruct b; cbn; lia). lia.
Qed.

Lemma load_bits_app : forall k v rest fuel, length v <= k ->
  length (bits_bytes k v) <= fuel ->
  load_bits fuel (N.of_nat (length v)) (bits_bytes k v ++ rest) = Ok (v, rest).
Proof.
  induction k; intros v rest fuel Hk Hf.
  - destruct v; [|cbn in Hk; lia]. destruct fuel; reflexivity.
  - destruct v as [|b v0]; [destruct fuel; reflexivity|]. set (v := b :: v0) in *.
    assert (Eb : bits_bytes (S k) v = le_bytes 8 (bits_value (firstn 64 v)) ++ bits_bytes k (skipn 64 v))
      by reflexivity.
    rewrite Eb in *. rewrite app_length, le_bytes_length in Hf. destruct fuel as [|fuel]; [lia|].
    cbn [load_bits]. destruct (N.eqb_spec (N.of_nat (length v)) 0) as [X|_]; [cbn in X; lia|].
    rewrite <- app_assoc, read_le_app.
    2:{ eapply N.lt_le_trans; [apply bits_value_bound|]. change (256 ^ N.of_nat 8)%N with (2 ^ 64)%N.
        apply N.pow_le_mono_r; [discriminate|]. rewrite firstn_length. lia. }
    cbn [bind]. replace (N.of_nat (length v) - N.min 64 (N.of_nat (length v)))%N
      with (N.of_nat (length (skipn 64 v))) by (rewrite skipn_length; lia).
    rewrite IHk; [| |lia].
    + cbn [bind]. f_equal. f_equal.
      replace (N.to_nat (N.min 64 (N.of_nat (length v)))) with (length (firstn 64 v))
        by (rewrite firstn_length; lia).
      rewrite value_bits_value. apply firstn_skipn.
    + rewrite skipn_length. cbn in Hk |- *. lia.
Qed.

Lemma sdsl_bv_ok : bv_codec_ok sdsl_bv.
Proof.
  intros v rest H. unfold sdsl_bv. cbn [bv_load bv_ser]. rewrite <- app_assoc, read_le_app by auto.
  cbn [bind]. apply load_bits_app; auto. rewrite app_length. lia.
Qed.

Lemma strip_app : forall p rest, strip p (p ++ rest) = Ok rest.
Proof. induction p; intros; cbn; auto. rewrite N.eqb_refl. auto. Qed.

Lemma dir_rank_ok : rank_codec_ok dir_rank.
Proof.
  intros v rest H. unfold dir_rank. cbn [rk_load rk_ser]. rewrite strip_app. reflexivity.
Qed.

Lemma plain_codecs_ok : codecs_ok plain_codecs.
Proof. repeat split; auto using sdsl_bv_ok, dir_rank_ok. Qed.
