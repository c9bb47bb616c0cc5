(** measures and cbv_coding end for every command line and every content of the file. *)

From Verif Require Import Base Split FlatTrie LevelTrie FastTrie Tries Serialize Tools Text Cli Measures Stats
  StatsCli Facts SpecEnds StatsThms CutInputThms EndsFacts EndsLevel EndsCalls EndsTools.

Lemma ends_floor : forall g, ends (floor_log2 g).
Proof. intros. unfold floor_log2. destruct (g =? 0)%N; [discriminate|]. destruct (2 ^ 48 <? g)%N; discriminate. Qed.

Lemma ends_gap : forall v, ends (Gap v).
Proof.
  assert (L : forall v x g, ends (gap_loop x v g)).
  { induction v as [|y v IH]; intros x g; cbn [gap_loop]; [discriminate|].
    apply ends_bind; [apply ends_floor|]. intros. apply IH. }
  intros [|x v]; [discriminate|]. unfold Gap. apply ends_bind; [apply ends_floor|]. intros. apply L.
Qed.

Lemma ends_rle : forall v, ends (Rle v).
Proof.
  assert (L : forall v x r g, ends (rle_loop v x r g)).
  { induction v as [|y v IH]; intros x r g; cbn [rle_loop]; [discriminate|].
    destruct (sub64 y x =? 1)%N; [apply IH|].
    apply ends_bind; [apply ends_floor|]. intros. apply ends_bind; [apply ends_floor|]. intros. apply IH. }
  intros [|x v]; [discriminate|]. unfold Rle. destruct (x =? 0)%N; apply L.
Qed.

Lemma ends_trie : forall v u runs, ends (Trie v u runs).
Proof.
  intros. unfold Trie. apply ends_bind; [apply ends_flat_build|]. intros t _.
  apply ends_bind; [destruct runs; [apply ends_flat_encode|discriminate]|]. intros t' _.
  unfold flat_trieMeasure. apply ends_bind; [apply ends_rank1|]. intros a _.
  apply ends_bind; [|discriminate]. unfold count_loop. apply ends_for. intros i n.
  apply ends_bind; [apply ends_vget|]. discriminate.
Qed.

(** A stream in which nothing has failed, or one that is at its end. *)
Definition sound (i : instream) : Prop := in_eof i = false -> in_fail i = false.

Lemma read4_sound : forall v i v' i', sound i -> in_read4 v i = (v', i') ->
  sound i' /\ (in_eof i' = false -> in_eof i = false /\ length (in_bytes i') + 4 = length (in_bytes i)).
Proof.
  intros v [l e f] v' i' S E. unfold in_read4 in E. unfold sound in *. cbn [in_eof in_fail in_bytes] in *.
  destruct (e || f)%bool eqn:B.
  - injection E as <- <-. cbn [in_eof in_fail in_bytes]. destruct e; [split; discriminate|].
    rewrite (S eq_refl) in B. discriminate.
  - apply orb_false_iff in B. destruct B as (-> & ->). destruct (Nat.leb_spec 4 (length l)); injection E as <- <-; cbn [in_eof in_fail in_bytes].
    + split; auto. intros _. split; auto. change (length (skipn 4 l) + 4 = length l). rewrite skipn_length. lia.
    + split; discriminate.
Qed.

Lemma ends_values : forall n x i s, ends (in_values n x i s).
Proof.
  induction n as [|n IH]; intros x i s; cbn [in_values]; [discriminate|].
  destruct (in_read4 x i) as (y & j). apply ends_bind; [apply ends_oget|]. intros. apply IH.
Qed.

Lemma values_sound : forall n x i s s' x' i', sound i -> in_values n x i s = Ok (s', x', i') ->
  sound i' /\ (in_eof i' = false -> in_eof i = false /\ length (in_bytes i') <= length (in_bytes i)).
Proof.
  induction n as [|n IH]; intros x i s s' x' i' S E; cbn [in_values] in E.
  - assert (i = i') by congruence. subst i'. split; auto.
  - destruct (in_read4 x i) as (y & j) eqn:R. apply bind_inv in E. destruct E as (xv & _ & E).
    destruct (read4_sound _ _ _ _ S R) as (Sj & Lj). destruct (IH _ _ _ _ _ _ Sj E) as (Si & Li).
    split; auto. intros F. destruct (Li F) as (Ej & L1). destruct (Lj Ej). split; auto. lia.
Qed.

Lemma ends_coding_stop : forall m cf, (forall l, ends (cf l)) -> forall f n x i t, sound i ->
  (in_eof i = false -> S (length (in_bytes i)) < f) -> 0 < f -> ends (coding_loop f true m cf n x i t).
Proof.
  intros m cf Hc. induction f as [|f IH]; intros n x i t S L P; [lia|]. cbn [coding_loop].
  destruct (in_eof i) eqn:Ei; [discriminate|].
  destruct (in_read4 n i) as (n' & j) eqn:R. destruct (read4_sound _ _ _ _ S R) as (Sj & Lj).
  apply ends_bind; [apply ends_oget|]. intros nv _. destruct (m <? nv)%N; [|discriminate].
  apply ends_bind; [apply ends_values|]. intros ((s & x') & i') E.
  destruct (values_sound _ _ _ _ _ _ _ Sj E) as (Si' & Li').
  apply ends_bind; [apply Hc|]. intros cols _. specialize (L eq_refl).
  apply IH; auto; [|lia]. intros F. destruct (Li' F) as (Q & Z). destruct (Lj Q). lia.
Qed.

Lemma ends_characteristic : forall l, ends (characteristic l).
Proof.
  intros. unfold characteristic. apply ends_bind; [apply ends_vget|]. intros v _.
  generalize (bv_make (N.to_nat (v + 1))). induction l as [|x l IH]; intros bv; cbn [mark]; [discriminate|].
  apply ends_bind; [destruct (x <? _)%N; [apply ends_vset|discriminate]|]. intros. apply IH.
Qed.

Theorem ends_cbv : forall f hyb m file, (forall l, file = Some l -> S (length l) < f) -> ends (cbv_coding f hyb m file).
Proof.
  intros f hyb m file L. unfold cbv_coding, coding_main. destruct file as [l|]; [|discriminate].
  specialize (L l eq_refl). unfold in_open. destruct (in_read4 None (mkIn l false false)) as (a & i1) eqn:R1.
  destruct (in_read4 None i1) as (b & i2) eqn:R2.
  assert (S0 : sound (mkIn l false false)) by (intros _; reflexivity).
  destruct (read4_sound _ _ _ _ S0 R1) as (S1 & L1).
  destruct (read4_sound _ _ _ _ S1 R2) as (S2 & L2).
  apply ends_bind. { apply ends_bind; [apply ends_oget|]. intros. apply ends_oget. }
  intros _ _. apply ends_coding_stop; auto; [| |lia].
  - intros s. apply ends_bind; [apply ends_characteristic|]. discriminate.
  - intros E. destruct (L2 E) as (E1 & X). destruct (L1 E1) as (_ & Y). cbn [in_bytes] in Y. lia.
Qed.

Lemma ends_fresh : forall n i s, ends (in_fresh_values n i s).
Proof.
  induction n as [|n IH]; intros i s; cbn [in_fresh_values]; [discriminate|].
  destruct (in_read4 None i) as (y & j). apply ends_bind; [apply ends_oget|]. intros. apply IH.
Qed.

Lemma fresh_sound : forall n l s s' i', in_fresh_values n (mkIn l false false) s = Ok (s', i') ->
  exists l', i' = mkIn l' false false /\ length l' <= length l.
Proof.
  induction n as [|n IH]; intros l s s' i' E; cbn [in_fresh_values] in E.
  - exists l. split; [congruence|auto].
  - destruct (Nat.lt_ge_cases (length l) 4) as [K|K].
    + rewrite in_read4_short in E by auto. discriminate.
    + rewrite in_read4_good in E by auto. cbn [oget bind] in E. apply IH in E.
      destruct E as (l' & -> & L). exists l'. split; auto. rewrite skipn_length in L. lia.
Qed.

Lemma ends_measures_loop : forall m u f last l acc, length l < f ->
  ends (measures_loop f m u last (mkIn l false false) acc).
Proof.
  intros m u. induction f as [|f IH]; intros last l acc L; [lia|]. cbn [measures_loop].
  destruct (Nat.lt_ge_cases (length l) 4) as [K|K].
  - rewrite in_read4_short by auto. discriminate.
  - rewrite in_read4_good by auto. cbn [in_eof oget bind].
    assert (Ls : length (skipn 4 l) < f) by (rewrite skipn_length; lia).
    destruct (m <? le_value (firstn 4 l))%N.
    + apply ends_bind; [apply ends_fresh|]. intros (s & i') E. apply fresh_sound in E. destruct E as (l' & -> & L').
      apply ends_bind; [apply ends_vget|]. intros first _. apply ends_bind; [apply ends_oget|]. intros uv _.
      apply ends_bind; [apply ends_gap|]. intros g _. apply ends_bind; [apply ends_floor|]. intros d _.
      apply ends_bind; [apply ends_rle|]. intros r _. apply ends_bind; [apply ends_trie|]. intros t _.
      apply ends_bind; [apply ends_trie|]. intros tr _. apply ends_bind; [apply ends_vget|]. intros last' _.
      apply IH. lia.
    + unfold in_skip. cbn [in_fail in_bytes]. apply IH. assert (Q := seek_length (le_value (firstn 4 l)) (skipn 4 l)). lia.
Qed.

Theorem ends_measures : forall f m file, (forall l, file = Some l -> length l < f) -> ends (measures f m file).
Proof.
  intros f m [l|] L; [|discriminate]. specialize (L l eq_refl). unfold measures, in_open.
  destruct (Nat.lt_ge_cases (length l) 8) as [K|K].
  - destruct (Nat.lt_ge_cases (length l) 4) as [K4|K4].
    + rewrite in_read4_short by auto. unfold in_read4. cbn [in_eof in_fail orb oget bind]. discriminate.
    + rewrite in_read4_good by auto. rewrite in_read4_short by (rewrite skipn_length; lia). discriminate.
  - rewrite in_read4_good by lia. rewrite in_read4_good by (rewrite skipn_length; lia). cbn [oget bind].
    apply ends_measures_loop. rewrite !skipn_length. lia.
Qed.

Lemma ends_stats_options : forall argv, ends (stats_options argv).
Proof.
  intros. apply ends_arg_loop; [| |lia].
  - intros st. unfold stats_step. apply ends_when. intros. apply ends_number.
  - intros i o i' o' E. unfold stats_step in E. apply when_forward in E; [lia|apply number_forward].
Qed.

Lemma ends_stats_main : forall A (tool : N -> option (list N) -> result A) argv fs,
  (forall m name, ends (tool m (fs name))) -> ends (stats_main tool argv fs).
Proof.
  intros A tool argv fs H. unfold stats_main. destruct (length argv <? 2); [discriminate|].
  apply ends_bind; [apply ends_arg|]. intros c _. apply ends_bind; [apply ends_stats_options|].
  intros [m|] _; [|discriminate]. apply ends_bind; [apply H|]. discriminate.
Qed.

Theorem measures_main_ends : forall fuel argv fs, (forall name file, fs name = Some file -> length file < fuel) ->
  ends (measures_main fuel argv fs).
Proof. intros fuel argv fs H. apply ends_stats_main. intros m name. apply ends_measures. eauto. Qed.

Theorem cbv_main_ends : forall fuel hyb argv fs, (forall name file, fs name = Some file -> S (length file) < fuel) ->
  ends (cbv_coding_main fuel hyb argv fs).
Proof. intros fuel hyb argv fs H. apply ends_stats_main. intros m name. apply ends_cbv. eauto. Qed.

(** classic_coders and pom do not always end.  A run that has not ended after two rounds
    more than the file has bytes never does. *)
Lemma stuck : forall f m cf n x l t, (n <= m)%N ->
  coding_loop f false m cf (Some n) x (mkIn l false true) t = OutOfFuel.
Proof.
  induction f; intros m cf n x l t H; cbn [coding_loop in_eof]; auto.
  unfold in_read4. cbn [in_eof in_fail in_bytes orb oget bind]. assert (H' := H).
  apply N.ltb_ge in H'. rewrite H'. unfold in_skip. cbn [in_fail in_bytes]. apply IHf; auto.
Qed.

Lemma at_end : forall f m cf n x i t, in_eof i = true -> coding_loop (S f) false m cf n x i t = Ok t.
Proof. intros f m cf n x i t E. cbn [coding_loop]. rewrite E. reflexivity. Qed.

Lemma coding_rounds : forall m cf, (forall l, ends (cf l)) -> forall f n x i t,
  sound i -> (in_eof i = false -> S (length (in_bytes i)) < f) -> 0 < f ->
  coding_loop f false m cf n x i t = OutOfFuel ->
  forall f', coding_loop f' false m cf n x i t = OutOfFuel.
Proof.
  intros m cf Hc. induction f as [|f IH]; intros n x i t S L P E f'; [lia|].
  destruct f' as [|f']; [reflexivity|]. cbn [coding_loop] in E |- *.
  destruct (in_eof i) eqn:Ei; [discriminate|].
  destruct (in_read4 n i) as (n' & j) eqn:R. destruct (read4_sound _ _ _ _ S R) as (Sj & Lj).
  specialize (L eq_refl). destruct n' as [nv|]; [|discriminate E]. cbn [oget bind] in E |- *.
  destruct (N.ltb_spec m nv) as [K|K].
  - destruct (in_values (N.to_nat nv) x j []) as [((s & x') & i')| |] eqn:V; cbn [bind] in E |- *; try discriminate E.
    + destruct (values_sound _ _ _ _ _ _ _ Sj V) as (Si' & Li').
      destruct (cf s) as [cols| |] eqn:C; cbn [bind] in E |- *; try discriminate E; [|reflexivity].
      apply IH; auto; [|lia]. intros F. destruct (Li' F) as (Q & Z). destruct (Lj Q). lia.
    + reflexivity.
  - destruct (in_eof j) eqn:Ej.
    + assert (F : in_fail j = true).
      { destruct i as [l e g]. cbn [in_eof] in Ei. subst e. unfold in_read4 in R. cbn [in_eof in_fail in_bytes orb] in R.
        destruct g; [injection R as _ <-; reflexivity|]. destruct (4 <=? length l); injection R as _ <-; [discriminate Ej|reflexivity]. }
      unfold in_skip. rewrite F. apply stuck; auto.
    + destruct (Lj eq_refl) as (_ & Z). specialize (Sj Ej). unfold in_skip in E |- *. rewrite Sj in E |- *.
      apply IH; auto; [intros _; reflexivity| |lia]. cbn [in_eof in_bytes]. intros _.
      assert (Q := seek_length nv (in_bytes j)). lia.
Qed.

Lemma main_rounds : forall m cf ncols, (forall l, ends (cf l)) -> forall f file,
  0 < f -> (forall l, file = Some l -> S (length l) < f) ->
  coding_main f false m cf ncols file = OutOfFuel ->
  forall f', coding_main f' false m cf ncols file = OutOfFuel.
Proof.
  intros m cf ncols Hc f [l|] P L E f'; unfold coding_main in *.
  - specialize (L l eq_refl). unfold in_open in *. destruct (in_read4 None (mkIn l false false)) as (a & i1) eqn:R1.
    destruct (in_read4 None i1) as (b & i2) eqn:R2.
    assert (S0 : sound (mkIn l false false)) by (intros _; reflexivity).
    destruct (read4_sound _ _ _ _ S0 R1) as (S1 & L1). destruct (read4_sound _ _ _ _ S1 R2) as (S2 & L2).
    cbn [bind] in E |- *. revert f'. apply (coding_rounds m cf Hc f); auto.
    intros Q. destruct (L2 Q) as (E1 & X). destruct (L1 E1) as (_ & Y). cbn [in_bytes] in Y. lia.
  - destruct f as [|f]; [lia|]. discriminate E.
Qed.

Lemma ends_pom_list : forall s, ends (pom_list s).
Proof.
  assert (P : forall n x y k, ends (prefixOf_loop n x y k)).
  { induction n as [|n IH]; intros x y k; cbn [prefixOf_loop]; repeat (destruct (_ : bool)); try discriminate; apply IH. }
  assert (L : forall v p sp b, ends (pom_loop p v sp b)).
  { induction v as [|x v IH]; intros p sp b; cbn [pom_loop]; [discriminate|].
    apply ends_bind; [destruct p; [unfold prefixOf; destruct (64 <? 64); [discriminate|apply P]|discriminate]|].
    intros xp _. apply ends_bind; [apply ends_floor|]. intros. apply IH. }
  intros. apply L.
Qed.

Lemma stats_rounds : forall A (t t' : N -> option (list N) -> result A) argv fs,
  (forall m name, t m (fs name) = OutOfFuel -> t' m (fs name) = OutOfFuel) ->
  stats_main t argv fs = OutOfFuel -> stats_main t' argv fs = OutOfFuel.
Proof.
  intros A t t' argv fs H E. unfold stats_main in *. destruct (length argv <? 2); [discriminate|].
  destruct (arg argv 1) as [c| |]; cbn [bind] in *; try discriminate; auto.
  destruct (stats_options argv) as [[m|]| |]; cbn [bind] in *; try discriminate; auto.
  destruct (t m (fs c)) eqn:T; cbn [bind] in E; try discriminate. rewrite (H _ _ T). reflexivity.
Qed.

Theorem classic_rounds : forall fuel delta gamma fib argv fs,
  0 < fuel -> (forall name file, fs name = Some file -> S (length file) < fuel) ->
  classic_coders_main fuel delta gamma fib argv fs = OutOfFuel ->
  forall more, classic_coders_main more delta gamma fib argv fs = OutOfFuel.
Proof.
  intros fuel delta gamma fib argv fs P L E more. revert E. apply stats_rounds. intros m name E.
  eapply main_rounds; eauto. discriminate.
Qed.

Theorem pom_rounds : forall fuel delta gamma fib argv fs,
  0 < fuel -> (forall name file, fs name = Some file -> S (length file) < fuel) ->
  pom_main fuel delta gamma fib argv fs = OutOfFuel ->
  forall more, pom_main more delta gamma fib argv fs = OutOfFuel.
Proof.
  intros fuel delta gamma fib argv fs P L E more. revert E. apply stats_rounds. intros m name E.
  eapply main_rounds; eauto. intros l. apply ends_bind; [apply ends_pom_list|]. intros (sp & bits) _. discriminate.
Qed.
