(** The construction of fast tries produces the layout of the tree of the input
    list whose leaves are words. *)

From Verif Require Import Base Split FlatTrie FastTrie Facts Tree Groups Reps Layout BuildFlat.

(** The word of a group of elements, as computed by the inner loop. *)
Definition word_step (lw : nat) (w x : N) : N :=
  N.land (N.lor w (N.shiftl 1 (N.land x (N.ones (N.of_nat lw))))) (wmax lw).
Definition word_of (lw : nat) (s : list N) : N := fold_left (word_step lw) s 0%N.

(** Membership of [x] in a word. *)
Definition wmem (lw : nat) (w x : N) : bool := N.testbit w (N.land x (N.ones (N.of_nat lw))).

Lemma wbits_pow2 : forall lw, wbits lw = pow2 lw.
Proof. reflexivity. Qed.

Lemma low_lt : forall lw x, (N.land x (N.ones (N.of_nat lw)) < pow2 lw)%N.
Proof. intros. rewrite N.land_ones. apply N.mod_lt, pow2_nz. Qed.

Lemma testbit_shiftl1 : forall e i, N.testbit (N.shiftl 1 e) i = N.eqb i e.
Proof.
  intros. rewrite N.shiftl_1_l, N.pow2_bits_eqb. apply N.eqb_sym.
Qed.

Lemma testbit_word_step : forall lw w x i, (i < pow2 lw)%N ->
  N.testbit (word_step lw w x) i =
  (N.testbit w i || N.eqb i (N.land x (N.ones (N.of_nat lw))))%bool.
Proof.
  intros. unfold word_step, wmax. rewrite N.land_spec, N.lor_spec, testbit_shiftl1.
  rewrite N.ones_spec_low by (rewrite wbits_pow2; auto). rewrite andb_true_r. reflexivity.
Qed.

Lemma testbit_word_fold : forall lw s w i, (i < pow2 lw)%N ->
  N.testbit (fold_left (word_step lw) s w) i =
  (N.testbit w i || existsb (fun x => N.eqb i (N.land x (N.ones (N.of_nat lw)))) s)%bool.
Proof.
  induction s; intros; cbn [fold_left existsb].
  - rewrite orb_false_r. auto.
  - rewrite IHs by auto. rewrite testbit_word_step by auto. rewrite orb_assoc. auto.
Qed.

Lemma testbit_word_of : forall lw s i, (i < pow2 lw)%N ->
  N.testbit (word_of lw s) i = existsb (fun x => N.eqb i (N.land x (N.ones (N.of_nat lw)))) s.
Proof. intros. unfold word_of. rewrite testbit_word_fold by auto. rewrite N.bits_0. auto. Qed.

Lemma word_of_bound : forall lw s, (word_of lw s < 2 ^ pow2 lw)%N.
Proof.
  intros. unfold word_of.
  assert (H : forall s w, (w < 2 ^ pow2 lw)%N -> (fold_left (word_step lw) s w < 2 ^ pow2 lw)%N).
  { induction s0; cbn; intros; auto. apply IHs0. unfold word_step, wmax.
    rewrite N.land_ones. apply N.mod_lt. apply N.pow_nonzero. discriminate. }
  apply H. apply N.neq_0_lt_0. apply N.pow_nonzero. discriminate.
Qed.

Lemma low_bits : forall lw p x, aligned lw p -> (p <= x < p + pow2 lw)%N ->
  N.land x (N.ones (N.of_nat lw)) = (x - p)%N.
Proof.
  intros lw p x Ha Hx. apply aligned_ex in Ha. destruct Ha as (q & ->).
  rewrite N.land_ones. fold (pow2 lw).
  replace x with (x - q * pow2 lw + q * pow2 lw)%N at 1 by lia.
  rewrite N.mod_add by apply pow2_nz. apply N.mod_small. lia.
Qed.

(** The leaf specification used by [tree_of_mem]. *)
Lemma word_leaf_spec : forall lw s p x, s <> [] -> aligned lw p -> within p lw s ->
  (p <= x < p + pow2 lw)%N -> (wmem lw (word_of lw s) x = true <-> In x s).
Proof.
  intros lw s p x _ Ha Hw Hx. unfold wmem. rewrite testbit_word_of by apply low_lt.
  rewrite existsb_exists. unfold within in Hw. rewrite Forall_forall in Hw.
  rewrite (low_bits lw p x) by auto. split.
  - intros (y & Hy & E). apply N.eqb_eq in E. rewrite (low_bits lw p y) in E by auto.
    specialize (Hw y Hy). replace x with y by lia. auto.
  - intros H. exists x. split; auto. apply N.eqb_eq. rewrite (low_bits lw p x); auto.
Qed.

(** The inner loop over the segment of [g] in [pre ++ g ++ post]. *)
Lemma word_loop_spec : forall g pre post lw r fuel w,
  let set := pre ++ g ++ post in
  (N.of_nat (length set) < 2 ^ 64)%N ->
  0 < length pre + length g ->
  r = N.of_nat (length pre + length g - 1) ->
  length g < fuel ->
  word_loop fuel lw set r (N.of_nat (length pre)) w = Ok (fold_left (word_step lw) g w).
Proof.
  induction g as [|x g IH]; intros pre post lw r fuel w set Hsz Hpos Hr Hf.
  - assert (W : wrap64 (r + 1) = N.of_nat (length pre)).
    { unfold wrap64. subst set r. rewrite !app_length in Hsz. cbn [length] in *.
      rewrite N.mod_small; lia. }
    destruct fuel; cbn [word_loop]; rewrite W, N.ltb_irrefl; auto.
  - destruct fuel as [|fuel]; [cbn in Hf; lia|].
    assert (Hset : length set = length pre + S (length g) + length post).
    { subst set. rewrite !app_length. cbn [length]. lia. }
    rewrite Hset in Hsz. cbn [length] in *.
    assert (W : wrap64 (r + 1) = N.of_nat (length pre + S (length g))).
    { unfold wrap64. subst r. rewrite N.mod_small; lia. }
    cbn [word_loop]. rewrite W.
    replace (N.ltb _ _) with true by (symmetry; apply N.ltb_lt; lia).
    assert (Hget : vgetN set (N.of_nat (length pre)) = Ok x).
    { unfold vgetN. rewrite Hset.
      replace (N.ltb _ _) with true by (symmetry; apply N.ltb_lt; lia).
      rewrite Nat2N.id. subst set. apply vget_app_mid. reflexivity. }
    rewrite Hget. cbn [bind fold_left].
    replace (N.of_nat (length pre) + 1)%N with (N.of_nat (length (pre ++ [x])))
      by (rewrite app_length; cbn; lia).
    replace set with ((pre ++ [x]) ++ g ++ post) by (subst set; rewrite <- app_assoc; reflexivity).
    apply IH; rewrite ?app_length; cbn [length]; try lia.
Qed.

Lemma xb_child_spec : forall present mk sg q lv nc ct nn ix X n L,
  (present = true -> mk = Ok sg) -> ix = length X -> 0 < n ->
  xb_child present mk (mkXB q lv nc ct nn ix (X ++ repeat false n) L) =
  Ok (mkXB (q ++ if present then [sg] else []) lv nc ct (b2n present + nn) (S ix)
           (X ++ present :: repeat false (n - 1)) L).
Proof.
  intros present mk sg q lv nc ct nn ix X n L Hmk -> Hpos.
  unfold xb_child. cbn [xb_index xb_bTrie].
  destruct n as [|n]; [lia|]. cbn [repeat]. replace (S n - 1) with n by lia.
  destruct present.
  - rewrite vset_app_mid by auto. cbn [bind]. rewrite Hmk by auto. reflexivity.
  - rewrite app_nil_r. reflexivity.
Qed.

Section Build.
  Variable set : list N.
  Variable lw D hu : nat.
  Hypothesis Hset : set <> [].
  Hypothesis Hlen : (N.of_nat (length set) < 2 ^ 64)%N.
  Hypothesis Hhu : hu = D + lw.
  Hypothesis Hh : hu <= 64.

  Let b (i : nat) : nat := D - S i + lw.
  Let G (i : nat) : list (list N) := groups lw D i set.
  Let T : tree N := tree_of (word_of lw) lw D set.

  Lemma xT_wf : wf D T.
  Proof. apply tree_of_wf. Qed.

  Lemma xF_len : forall i, i <= D -> length (F T i) = length (G i).
  Proof. intros. unfold F, T, G. rewrite groups_forest by auto. apply map_length. Qed.

  Lemma xoff_pow : forall i, i <= D -> off T i <= 2 ^ i - 1.
  Proof.
    induction i; intros; cbn [off Nat.pow]; auto. rewrite xF_len by lia.
    specialize (IHi ltac:(lia)). generalize (groups_pow lw D i set). fold (G i).
    assert (2 ^ i <> 0) by (apply Nat.pow_nonzero; lia). lia.
  Qed.

  Lemma xgroup : forall i P g R, P ++ g :: R = G i ->
    concat P ++ g ++ concat R = set /\ g <> [].
  Proof.
    intros i P g R E. split.
    - rewrite <- (groups_concat lw D i set). fold (G i). rewrite <- E, concat_app. reflexivity.
    - assert (Hne := groups_ne lw D i set Hset). fold (G i) in Hne. rewrite <- E in Hne.
      apply Forall_app in Hne. destruct Hne as (_ & Hne). inversion Hne; auto.
  Qed.

  Definition xcap : nat := 2 * (2 ^ hu - 1).

  Definition xst (i : nat) (P R : list (list N)) : xb_state :=
    mkXB (tups (length (concat P)) R ++ tups 0 (flat_map (subs (b i)) P)) i
         (length (P ++ R)) (length P) (length (flat_map (subs (b i)) P))
         (2 * off T i + 2 * length P)
         ((prebits T i ++ flat_map (grp_bits (b i)) P)
            ++ repeat false (xcap - 2 * off T i - 2 * length P)) [].

  Definition xlast (P R : list (list N)) : xb_state :=
    mkXB (tups (length (concat P)) R) D (length (P ++ R)) (length P) 0 (2 * off T D)
         (prebits T D ++ repeat false (xcap - 2 * off T D)) (map (word_of lw) P).

  Lemma xstep : forall i P g R, i < D -> P ++ g :: R = G i ->
    xb_step lw set (S D) hu (tup (length (concat P)) g)
            (tups (length (concat P) + length g) R ++ tups 0 (flat_map (subs (b i)) P))
            (xst i P (g :: R))
    = Ok (xb_end_level (xst i (P ++ [g]) R), false).
  Proof.
    intros i P g R Hi E. unfold xb_step, tup.
    destruct (xgroup i P g R E) as (Es & Hg).
    assert (Hsp := split_spec (concat P) g (concat R) (b i)). cbn zeta in Hsp. rewrite Es in Hsp.
    destruct (Hsp Hlen Hg ltac:(unfold b; lia)) as (o & Ho & HL & HR & SL & SR).
    unfold xst at 1. cbn [xb_level].
    replace (S i =? S D) with false by (symmetry; apply Nat.eqb_neq; lia).
    unfold xst at 1. cbn [xb_level].
    replace (hu - i) with (S (b i)) by (unfold b; lia). rewrite Ho. cbn [bind].
    cbn [xst xb_level xb_nodes_curr xb_count xb_nodes_next xb_index xb_bTrie xb_last].
    rewrite HL, HR.
    assert (Hc : 2 * off T i + 2 * length P + 2 <= xcap).
    { assert (length P < length (G i)) by (rewrite <- E, app_length; cbn; lia).
      generalize (groups_pow lw D i set) (xoff_pow i ltac:(lia)). fold (G i).
      assert (2 ^ S (S i) <= 2 ^ S hu) by (apply Nat.pow_le_mono_r; lia).
      assert (2 ^ i <> 0) by (apply Nat.pow_nonzero; lia).
      unfold xcap. cbn [Nat.pow] in *. lia. }
    assert (HX : length (prebits T i ++ flat_map (grp_bits (b i)) P) = 2 * off T i + 2 * length P).
    { rewrite app_length, (prebits_length T D xT_wf) by lia. rewrite grp_bits_len. lia. }
    rewrite xb_child_spec with (sg := tup (length (concat P)) (lefts (b i) g)); auto; [|lia].
    cbn [bind].
    replace (xcap - 2 * off T i - 2 * length P - 1) with (S (xcap - 2 * off T i - 2 * length P - 2)) by lia.
    change (?X ++ ?x :: repeat false ?n) with (X ++ [x] ++ repeat false n).
    rewrite (app_assoc _ [_] _).
    rewrite xb_child_spec
      with (sg := tup (length (concat P) + length (lefts (b i) g)) (rights (b i) g)); auto;
      [| rewrite app_length, HX; cbn [length] |]; try lia.
    cbn [bind]. do 3 f_equal. unfold xst. rewrite step_queue.
    f_equal.
    - rewrite !app_length. cbn [length]. lia.
    - rewrite app_length. cbn [length]. lia.
    - rewrite flat_map_app', app_length. cbn [flat_map]. rewrite app_nil_r, len_subs. lia.
    - rewrite app_length. cbn [length]. lia.
    - rewrite flat_map_app'. cbn [flat_map grp_bits app]. rewrite <- !app_assoc. cbn [app].
      rewrite app_length. cbn [length]. repeat (f_equal; try lia).
  Qed.

  Lemma xend_more : forall i P g R, xb_end_level (xst i P (g :: R)) = xst i P (g :: R).
  Proof.
    intros. unfold xb_end_level. cbn [xb_count xb_nodes_curr xst].
    rewrite app_length. cbn [length].
    replace (_ =? _) with false by (symmetry; apply Nat.eqb_neq; lia). reflexivity.
  Qed.

  Definition xbegin (i : nat) : xb_state := if i =? D then xlast [] (G i) else xst i [] (G i).

  Lemma xend_done : forall i, i < D -> xb_end_level (xst i (G i) []) = xbegin (S i).
  Proof.
    intros i Hi. unfold xb_end_level. cbn [xb_count xb_nodes_curr xst]. rewrite app_nil_r.
    rewrite Nat.eqb_refl.
    cbn [xst xb_level xb_q xb_nodes_next xb_index xb_bTrie xb_last].
    assert (EG : flat_map (subs (b i)) (G i) = G (S i)) by reflexivity.
    rewrite EG.
    assert (EO : 2 * off T i + 2 * length (G i) = 2 * off T (S i)).
    { cbn [off]. rewrite xF_len by lia. lia. }
    assert (EP : prebits T i ++ flat_map (grp_bits (b i)) (G i) = prebits T (S i)).
    { cbn [prebits]. unfold F, T, G, b. rewrite groups_bits by auto. auto. }
    rewrite EO, EP. replace (xcap - 2 * off T i - 2 * length (G i)) with (xcap - 2 * off T (S i)) by lia.
    cbn [tups]. unfold xbegin. destruct (Nat.eqb_spec (S i) D) as [E|E].
    - unfold xlast. rewrite E. reflexivity.
    - unfold xst. cbn [concat length flat_map tups app].
      rewrite !app_nil_r, Nat.add_0_r, Nat.sub_0_r. reflexivity.
  Qed.

  Definition xend : xb_state :=
    mkXB [] D (length (G D)) (length (G D)) 0 (2 * off T D)
         (prebits T D ++ repeat false (xcap - 2 * off T D)) (map (word_of lw) (G D)).

  Lemma xloop_in : forall R P i fuel, i < D -> P ++ R = G i -> R <> [] -> length R <= fuel ->
    xb_loop fuel lw set (S D) hu (xst i P R) =
    xb_loop (fuel - length R) lw set (S D) hu (xbegin (S i)).
  Proof.
    induction R as [|g R IH]; intros P i fuel Hi E Hne Hf; [congruence|].
    destruct fuel as [|fuel]; [cbn in Hf; lia|]. cbn [length] in *.
    cbn [xb_loop]. unfold xst at 1. cbn [xb_q tups app].
    rewrite xstep by auto. cbn [bind].
    assert (E' : (P ++ [g]) ++ R = G i) by (rewrite <- app_assoc; auto).
    destruct R as [|g' R].
    - rewrite app_nil_r in E'. rewrite E', xend_done by auto.
      replace (xb_level _ =? S D) with false.
      + cbn [length]. replace (S fuel - 1) with fuel by lia. reflexivity.
      + unfold xbegin. destruct (Nat.eqb_spec (S i) D); symmetry; apply Nat.eqb_neq; cbn; lia.
    - rewrite xend_more. replace (xb_level _ =? S D) with false by
        (symmetry; apply Nat.eqb_neq; cbn; lia).
      rewrite IH; auto; try discriminate; try lia.
  Qed.

  Lemma xloop_last : forall R P fuel, P ++ R = G D -> R <> [] -> length R <= fuel ->
    xb_loop fuel lw set (S D) hu (xlast P R) = Ok xend.
  Proof.
    induction R as [|g R IH]; intros P fuel E Hne Hf; [congruence|].
    destruct fuel as [|fuel]; [cbn in Hf; lia|]. cbn [length] in *.
    cbn [xb_loop]. unfold xlast at 1. cbn [xb_q tups]. unfold xb_step at 1, tup at 1.
    unfold xlast at 1. cbn [xb_level]. rewrite Nat.eqb_refl.
    destruct (xgroup D P g R E) as (Es & Hg).
    assert (Hw := word_loop_spec g (concat P) (concat R) lw
                    (N.of_nat (length (concat P) + length g - 1)) (S (length set)) 0%N).
    cbn zeta in Hw. rewrite Es in Hw. rewrite Hw; auto.
    2:{ destruct g; [congruence|cbn; lia]. }
    2:{ rewrite <- Es, !app_length. lia. }
    fold (word_of lw g). cbn [bind].
    cbn [xlast xb_level xb_nodes_curr xb_count xb_nodes_next xb_index xb_bTrie xb_last].
    assert (E' : (P ++ [g]) ++ R = G D) by (rewrite <- app_assoc; auto).
    assert (EL : S (length P) = length (P ++ [g])) by (rewrite app_length; cbn; lia).
    assert (EM : map (word_of lw) P ++ [word_of lw g] = map (word_of lw) (P ++ [g]))
      by (rewrite map_app; auto).
    assert (EN : length (P ++ g :: R) = length (G D)) by (rewrite E; auto).
    rewrite EL, EM, EN.
    destruct R as [|g' R].
    - rewrite app_nil_r in E'. rewrite E'. rewrite Nat.eqb_refl. reflexivity.
    - replace (length (P ++ [g]) =? length (G D)) with false.
      2:{ symmetry. apply Nat.eqb_neq. rewrite <- E', !app_length. cbn. lia. }
      replace (D =? S D) with false by (symmetry; apply Nat.eqb_neq; lia).
      specialize (IH (P ++ [g]) fuel E'). rewrite <- IH; try discriminate; try lia.
      f_equal. unfold xlast. rewrite E'. f_equal.
      rewrite concat_app, app_length. cbn [concat]. rewrite app_nil_r. reflexivity.
  Qed.

  Lemma xG_ne : forall i, G i <> [].
  Proof.
    intros i E. assert (H := groups_concat lw D i set). fold (G i) in H. rewrite E in H.
    cbn in H. congruence.
  Qed.

  Lemma xloop_all : forall n i fuel, i + n = D -> S n * length set <= fuel ->
    xb_loop fuel lw set (S D) hu (xbegin i) = Ok xend.
  Proof.
    assert (Hl : forall i, length (G i) <= length set) by (intros; apply groups_len; auto).
    induction n; intros i fuel E Hf; unfold xbegin.
    - replace i with D by lia. rewrite Nat.eqb_refl. apply xloop_last; auto using xG_ne.
      specialize (Hl D). lia.
    - replace (i =? D) with false by (symmetry; apply Nat.eqb_neq; lia).
      specialize (Hl i).
      rewrite xloop_in by (auto using xG_ne; lia). apply IHn; lia.
  Qed.
End Build.

Lemma xb_loop_count : forall fuel lw set height hu l r n n' q level nc c nn i bt ll,
  xb_loop fuel lw set height hu (mkXB ((l, r, n) :: q) level nc c nn i bt ll)
  = xb_loop fuel lw set height hu (mkXB ((l, r, n') :: q) level nc c nn i bt ll).
Proof. intros. destruct fuel; reflexivity. Qed.

(** Construction of a fast trie. *)
Theorem fast_build_layout_le : forall lw jh je set u hu,
  height_of u = Ok hu -> lw <= hu -> hu <= 64 ->
  set <> [] -> (N.of_nat (length set) <= 2 ^ 32)%N ->
  let T := tree_of (word_of lw) lw (hu - lw) set in
  exists t, fast_build lw jh je set u = Ok t /\ fast_layout t (S (hu - lw)) T /\
            x_lw t = lw /\ x_height_u t = hu /\
            x_runs_encoded t = false /\ x_empty_trie t = je.
Proof.
  intros lw jh je set u hu Hu Hlw Hh64 Hne Hlen T. unfold fast_build. rewrite Hu. cbn [bind].
  replace (hu + 1 <? lw) with false by (symmetry; apply Nat.ltb_ge; lia).
  replace (hu + 1 - lw) with (S (hu - lw)) by lia.
  assert (Hlen' : (N.of_nat (length set) < 2 ^ 64)%N) by lia.
  match goal with |- context [xb_loop ?f ?w ?s ?a ?b (xb_init set hu)] =>
    replace (xb_loop f w s a b (xb_init set hu)) with (xb_loop f w s a b (xbegin set lw (hu - lw) hu 0)) end.
  2:{ unfold xbegin, xst, xlast, xb_init. destruct (first_seg32_at set Hne Hlen) as (n & ->).
      cbn [groups tups concat length flat_map app off prebits Nat.mul Nat.add map].
      unfold bv_make, xcap, tup. rewrite !Nat.sub_0_r. cbn [Nat.add].
      replace (N.of_nat (length set - 1)) with (N.of_nat (length set) - 1)%N by lia.
      destruct (Nat.eqb_spec 0 (hu - lw)) as [E|E]; [|apply xb_loop_count].
      rewrite <- E. cbn [off prebits Nat.mul Nat.add app]. rewrite Nat.sub_0_r. apply xb_loop_count. }
  rewrite (xloop_all set lw (hu - lw) hu Hne Hlen' ltac:(lia) Hh64 (hu - lw) 0); auto.
  2:{ nia. }
  cbn [bind xend xb_bTrie xb_index xb_last].
  assert (HT : wf (hu - lw) T) by apply tree_of_wf.
  eexists. split; [reflexivity|].
  unfold fast_layout. cbn [x_lw x_height x_height_u x_bTrie x_lastLevel x_rank x_runs_encoded x_empty_trie].
  rewrite Nat.sub_succ, Nat.sub_0_r.
  repeat split; auto; try lia.
  - apply bv_resize_app. rewrite (prebits_length _ (hu - lw)) by (auto; lia). auto.
  - unfold F, T. rewrite groups_forest by auto. rewrite Nat.sub_diag, map_map. reflexivity.
Qed.

Theorem fast_build_layout : forall lw jh je set u hu,
  height_of u = Ok hu -> lw <= hu -> hu <= 64 ->
  set <> [] -> (N.of_nat (length set) < 2 ^ 32)%N ->
  let T := tree_of (word_of lw) lw (hu - lw) set in
  exists t, fast_build lw jh je set u = Ok t /\ fast_layout t (S (hu - lw)) T /\
            x_lw t = lw /\ x_height_u t = hu /\
            x_runs_encoded t = false /\ x_empty_trie t = je.
Proof. intros. apply fast_build_layout_le; auto. lia. Qed.
