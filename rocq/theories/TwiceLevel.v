(** Decoding a level-wise trie whose runs were encoded twice. *)

From Verif Require Import Base FlatTrie LevelTrie Facts Tree Groups Reps Layout BuildFlat BuildLevel Compress WriteOnes
  InterLimits InterTight TwiceRuns TwiceWrite TwiceDecode.

Section Level.
  Variable T : tree unit.
  Variable h : nat.
  Variable t : level_trie.
  Hypothesis Hwf : wf h T.
  Hypothesis Hh : 1 <= h < 64.
  Let B := fun j => nbits (F T j).
  Hypothesis Eb : l_bTrie t = map B (seq 0 h).
  Hypothesis Er : l_rank t = firstn (h - 1) (map B (seq 0 h)).
  Let stop := S (nlev T - 1).
  Hypothesis Es : l_height_with_runs t = stop.

  Lemma stop_h : stop <= h.
  Proof. assert (H := nlev_le _ T h Hwf). unfold stop. lia. Qed.

  Lemma lev_height : level_getHeight t = h.
  Proof. unfold level_getHeight. rewrite Eb, map_length, seq_length. auto. Qed.

  Lemma lev_bits : forall i, i < h -> vget (l_bTrie t) i = Ok (B i).
  Proof. intros i Hi. rewrite Eb. rewrite vget_map by auto. reflexivity. Qed.

  Lemma lev_rank : forall i, S i < h -> vget (l_rank t) i = Ok (B i).
  Proof.
    intros i Hi. rewrite Er. unfold vget. rewrite nth_error_firstn_lt by lia.
    assert (E := vget_map _ B h i ltac:(lia)). unfold vget in E. exact E.
  Qed.

  Lemma level_left_io : forall i l n, level_getNode t i l = Ok n -> (n = 2 \/ n = 3)%N ->
    in_or_out (level_getLeftChild t i l).
  Proof.
    intros i l n E Hn. unfold level_getLeftChild. rewrite lev_height.
    destruct (Nat.leb_spec h (S l)); [io|]. rewrite lev_rank by lia. cbn [bind].
    destruct (l_il t); [|apply rank1_io].
    unfold level_getNode in E. rewrite lev_bits in E by lia. cbn [bind] in E.
    destruct (vget (B l) (2 * i)) as [a| |] eqn:Ea; try discriminate.
    cbn [bind] in E. destruct (vget (B l) (2 * i + 1)) as [b| |] eqn:E1; try discriminate.
    cbn [bind] in E. injection E as <-.
    assert (a = true) as -> by (destruct a, b; auto; cbv in Hn; destruct Hn; discriminate).
    unfold rank1_pred. unfold vget in Ea. destruct (nth_error (B l) (2 * i)) as [a|] eqn:Eq; [|discriminate].
    injection Ea as ->. destruct (split_at _ _ _ _ Eq) as (F1 & F2 & EB & Hk).
    rewrite EB. change (F1 ++ true :: F2) with (F1 ++ [true] ++ F2).
    rewrite app_assoc, rank1_app by (rewrite app_length; cbn; lia). cbn [bind].
    rewrite count_true_app. change (count_true [true]) with 1.
    replace (_ =? 0) with false by (symmetry; apply Nat.eqb_neq; lia). io.
  Qed.

  Lemma level_right_io : forall i l n, level_getNode t i l = Ok n -> (n = 1 \/ n = 3)%N ->
    in_or_out (level_getRightChild t i l).
  Proof.
    intros i l n E Hn. unfold level_getRightChild. rewrite lev_height.
    destruct (Nat.leb_spec h (S l)); [io|]. rewrite lev_rank by lia. cbn [bind].
    destruct (l_il t); [|apply rank1_io].
    unfold level_getNode in E. rewrite lev_bits in E by lia. cbn [bind] in E.
    destruct (vget (B l) (2 * i)) as [a| |] eqn:Ea; try discriminate.
    cbn [bind] in E. destruct (vget (B l) (2 * i + 1)) as [b| |] eqn:E1; try discriminate.
    cbn [bind] in E. injection E as <-.
    assert (b = true) as -> by (destruct a, b; auto; cbv in Hn; destruct Hn; discriminate).
    unfold rank1_pred. unfold vget in E1. destruct (nth_error (B l) (2 * i + 1)) as [b|] eqn:Eq; [|discriminate].
    injection E1 as ->. destruct (split_at _ _ _ _ Eq) as (F1 & F2 & EB & Hk).
    rewrite EB. change (F1 ++ true :: F2) with (F1 ++ [true] ++ F2).
    rewrite app_assoc, rank1_app by (rewrite app_length; cbn; lia). cbn [bind].
    rewrite count_true_app. change (count_true [true]) with 1.
    replace (_ =? 0) with false by (symmetry; apply Nat.eqb_neq; lia). io.
  Qed.

  (** ** The nodes above the first run *)

  Variable L : nat.
  Hypothesis HLh : L < h.
  Hypothesis Above : forall i, i < L -> ~ In Full (F T i).
  Hypothesis HL : In Full (F T L).

  Lemma nf_all : forall (G : list (tree unit)), ~ In Full G -> nf G = G.
  Proof.
    induction G as [|x G IH]; intros H; auto. unfold nf in *. cbn [flat_map]. rewrite IH by (intros N; apply H; right; auto).
    destruct x; auto. destruct H. left; auto.
  Qed.

  Lemma above_node : forall i k s, i < L -> nth_error (F T i) k = Some s ->
    level_getNode t k i = Ok (node_code (has_left s) (has_right s)) /\
    (has_left s = true -> level_getLeftChild t k i = Ok (idx T i k)) /\
    (has_right s = true -> level_getRightChild t k i = Ok (idx T i k + b2n (has_left s))).
  Proof.
    intros i k s Hi Hs. destruct (F_firstn T h Hwf i k s Hs ltac:(lia)) as (Hl & E1 & E2 & E3).
    destruct (node_read s _ (bits (skipn (S k) (F T i))) _ Hl E1) as (V1 & V2 & R1 & R2 & R3).
    rewrite <- E3 in *. rewrite E2 in *.
    assert (EB : B i = bits (F T i)).
    { unfold B. rewrite nbits_nf, nf_all by auto. auto. }
    unfold level_getNode, level_getLeftChild, level_getRightChild.
    rewrite lev_bits, lev_height by lia. cbn [bind].
    replace (h <=? S i) with false by (symmetry; apply Nat.leb_gt; lia).
    rewrite lev_rank by lia. cbn [bind]. rewrite EB, V1. cbn [bind]. rewrite V2. split; [reflexivity|].
    split; intros Hc; rewrite Hc in *; cbn [b2n] in *.
    - destruct (l_il t); auto. unfold rank1_pred. rewrite R2. cbn [bind].
      replace (_ =? 0) with false by (symmetry; apply Nat.eqb_neq; lia). f_equal. lia.
    - destruct (l_il t); auto. unfold rank1_pred. rewrite R3. cbn [bind].
      replace (_ =? 0) with false by (symmetry; apply Nat.eqb_neq; lia). f_equal. lia.
  Qed.

  Let vis (id lvl : nat) : Prop := exists fuel dec p res,
    runsRecursiveDecode h stop (level_getNode t) (level_getLeftChild t) (level_getRightChild t)
      fuel dec p id lvl = Ok res.

  Lemma F_child : forall i j c, nth_error (F T (S i)) j = Some c ->
    exists k s n, nth_error (F T i) k = Some s /\ nth_error (kids s) n = Some c /\ j = idx T i k + n.
  Proof.
    intros i j c E. change (F T (S i)) with (flat_map kids (F T i)) in E.
    assert (Hj : j < length (flat_map kids (F T i))) by (apply nth_error_Some; congruence).
    destruct (parent _ _ _ Hj) as (k & s & n & Ek & Hn & Ej). exists k, s, n. split; auto. split; auto.
    destruct (nth_error (kids s) n) as [c'|] eqn:Ec; [|apply nth_error_None in Ec; lia].
    assert (E' := idx_child T i k s n c' Ek Ec). unfold idx in E'. rewrite <- Ej in E'.
    change (F T (S i)) with (flat_map kids (F T i)) in E'. congruence.
  Qed.

  Lemma level_vis : vis 0 0 -> forall i, i <= L -> i <= stop -> forall k, k < length (F T i) -> vis k i.
  Proof.
    intros H0. induction i; intros Hi Hs k Hk.
    - cbn in Hk. replace k with 0 by lia. auto.
    - destruct (nth_error (F T (S i)) k) as [c|] eqn:Ec; [|apply nth_error_None in Ec; lia].
      destruct (F_child i k c Ec) as (q & s & n & Eq & En & ->).
      assert (Hq : q < length (F T i)) by (apply nth_error_Some; congruence).
      destruct (IHi ltac:(lia) ltac:(lia) q Hq) as (fuel & dec & p & res & E).
      destruct (above_node i q s ltac:(lia) Eq) as (EN & EL & ER).
      destruct fuel as [|fuel]; cbn [runsRecursiveDecode] in E;
        (replace (i =? stop) with false in E by (symmetry; apply Nat.eqb_neq; lia)); [discriminate|].
      rewrite EN in E. cbn [bind] in E.
      destruct (shl1_io (h - i - 1) ltac:(lia)) as (b & Eb').
      destruct s as [a| |l|r|l r]; cbn [kids has_left has_right b2n] in *.
      + destruct n; discriminate.
      + destruct n; discriminate.
      + change (node_code true false) with 2%N in E. cbn [N.eqb Pos.eqb orb bind] in E.
        rewrite EL in E by auto. cbn [bind] in E. destruct n as [|n]; [|destruct n; discriminate].
        rewrite Nat.add_0_r.
        destruct (runsRecursiveDecode _ _ _ _ _ fuel dec p _ (S i)) as [d1| |] eqn:E1; try discriminate. red; eauto.
      + change (node_code false true) with 1%N in E. cbn [N.eqb Pos.eqb orb bind] in E.
        rewrite ER in E by auto. rewrite Eb' in E. cbn [bind] in E. destruct n as [|n]; [|destruct n; discriminate].
        red; eauto.
      + change (node_code true true) with 3%N in E. cbn [N.eqb Pos.eqb orb bind] in E.
        rewrite EL, ER in E by auto. cbn [bind] in E.
        destruct (runsRecursiveDecode _ _ _ _ _ fuel dec p _ (S i)) as [d1| |] eqn:E1; try discriminate.
        cbn [bind] in E. rewrite Eb' in E. cbn [bind] in E.
        destruct n as [|[|n]]; [rewrite Nat.add_0_r| |destruct n; discriminate]; red; eauto.
  Qed.

  (** A run is read next to other nodes, or at the root: out of bounds. *)
  Theorem level_twice_out : L < stop -> l_runs_encoded t = true -> l_empty_trie t = false ->
    forall v, level_decode t v = UB OutOfBounds.
  Proof.
    intros HLs Hr He v. unfold level_decode. rewrite Hr, He, lev_height, Es.
    destruct (runs_decode_io h stop (level_getNode t) (level_getLeftChild t) (level_getRightChild t)
                ltac:(lia) (level_node_io t) level_left_io level_right_io) with
      (fuel := S h) (dec := v) (p := 0%N) (id := 0) (lvl := 0) as [(r & E)|E]; auto; try lia.
    { assert (X := stop_h). lia. }
    exfalso. assert (H0 : vis 0 0) by (red; eauto).
    destruct (nf_length _ (F T L)) as (_ & N). specialize (N HL).
    destruct (level_vis H0 L ltac:(lia) ltac:(lia) _ N) as (fuel & dec & p & res & E').
    destruct fuel as [|fuel]; cbn [runsRecursiveDecode] in E';
        (replace (L =? stop) with false in E' by (symmetry; apply Nat.eqb_neq; lia)); [discriminate|].
    unfold level_getNode in E' at 1. rewrite lev_bits in E' by auto. cbn [bind] in E'.
    unfold B in E' at 1. rewrite nbits_nf in E'. rewrite bits_out in E'; auto; [discriminate|].
    intros s Hs. apply nf_in in Hs. destruct Hs as (Hs & Nf). split; auto. apply (F_notleaf T h Hwf L); auto.
  Qed.

  (** ** All the nodes of one level are runs *)

  (** Above depth [c] no run, at depth [c] only runs. *)
  Fixpoint band (c : nat) (s : tree unit) : Prop :=
    match c with
    | O => s = Full
    | S c' => kids s <> [] /\ Forall (band c') (kids s)
    end.

  Variable b : nat.
  Hypothesis Hb : L + b = h.
  Hypothesis HLs : stop = L.

  Let starts := filter (fun x => x mod pow2 b =? 0)%N.

  Lemma starts_block : forall p, aligned b p -> starts (nrange p (2 ^ b)) = [p].
  Proof.
    intros p Ha. assert (Hp := pow2_pos b).
    assert (E : exists n, 2 ^ b = S n) by (exists (2 ^ b - 1); assert (X := Nat.pow_nonzero 2 b ltac:(lia)); lia).
    destruct E as (n & E).
    assert (En : (N.of_nat n < pow2 b)%N) by (rewrite <- of_nat_pow2; lia).
    rewrite E. unfold starts. cbn [nrange filter]. unfold aligned in Ha. rewrite Ha. cbn [N.eqb]. f_equal.
    assert (G : forall k q, (0 < q)%N -> (q + N.of_nat k <= pow2 b)%N ->
      filter (fun x => x mod pow2 b =? 0)%N (nrange (p + q) k) = []).
    { induction k; intros q Hq Hk; auto. cbn [nrange filter].
      assert (Em : ((p + q) mod pow2 b = q)%N).
      { rewrite N.add_mod, Ha, N.add_0_l, N.mod_mod by lia. apply N.mod_small. lia. }
      rewrite Em. replace (q =? 0)%N with false by (symmetry; apply N.eqb_neq; lia).
      match goal with |- filter _ (nrange ?a k) = _ => replace a with (p + (q + 1))%N by lia end.
      apply IHk; lia. }
    match goal with |- filter _ (nrange ?a n) = _ => replace a with (p + 1)%N by lia end.
    apply G; lia.
  Qed.

  Lemma level_band_decode : forall c i k s p dec fuel, i + c = L -> nth_error (F T i) k = Some s ->
    band c s -> wf (c + b) s -> aligned (c + b) p -> c <= fuel ->
    runsRecursiveDecode h stop (level_getNode t) (level_getLeftChild t) (level_getRightChild t)
      fuel dec p k i = Ok (dec ++ starts (sel umem (c + b) s p)).
  Proof.
    induction c; intros i k s p dec fuel Hi Hs Hbd W Ha Hf.
    - cbn [band] in Hbd. subst s. cbn [Nat.add] in *. rewrite sel_Full, starts_block by auto.
      destruct fuel; cbn [runsRecursiveDecode];
        (replace (i =? stop) with true by (symmetry; apply Nat.eqb_eq; lia)); reflexivity.
    - destruct Hbd as (Nk & Hk). cbn [Nat.add] in *. destruct fuel as [|fuel]; [lia|].
      cbn [runsRecursiveDecode].
      replace (i =? stop) with false by (symmetry; apply Nat.eqb_neq; lia).
      destruct (above_node i k s ltac:(lia) Hs) as (-> & EL & ER).
      destruct s as [a| |l|r|l r]; cbn [kids wf pred has_left has_right b2n] in *; try congruence.
      + apply Forall_cons_iff in Hk. destruct Hk as (Hk & _). rewrite sel_TL by auto.
        change (node_code true false) with 2%N. cbn [bind N.eqb Pos.eqb orb]. rewrite EL by auto. cbn [bind].
        assert (Hc := idx_child T _ _ _ 0 l Hs eq_refl). rewrite Nat.add_0_r in Hc.
        rewrite (IHc (S i) _ l); auto using aligned_S; try lia. apply W.
      + apply Forall_cons_iff in Hk. destruct Hk as (Hk & _). rewrite sel_TR by auto.
        change (node_code false true) with 1%N. cbn [bind N.eqb Pos.eqb orb]. rewrite ER by auto.
        replace (h - i - 1) with (c + b) by lia. rewrite shl1_pow2 by lia. cbn [bind]. rewrite lor_right by auto.
        assert (Hc := idx_child T _ _ _ 0 r Hs eq_refl).
        rewrite (IHc (S i) _ r); auto using aligned_right; try lia. apply W.
      + apply Forall_cons_iff in Hk. destruct Hk as (Hk1 & Hk). apply Forall_cons_iff in Hk. destruct Hk as (Hk2 & _).
        rewrite sel_TB by auto. unfold starts. rewrite filter_app. fold starts.
        change (node_code true true) with 3%N. cbn [bind N.eqb Pos.eqb orb]. rewrite EL, ER by auto. cbn [bind].
        assert (Hc1 := idx_child T _ _ _ 0 l Hs eq_refl). rewrite Nat.add_0_r in Hc1.
        assert (Hc2 := idx_child T _ _ _ 1 r Hs eq_refl).
        rewrite (IHc (S i) _ l); auto using aligned_S; try lia; [|apply W]. cbn [bind].
        replace (h - i - 1) with (c + b) by lia. rewrite shl1_pow2 by lia. cbn [bind]. rewrite lor_right by auto.
        rewrite (IHc (S i) _ r); auto using aligned_right; try lia; [|apply W].
        rewrite app_assoc. reflexivity.
  Qed.

  Theorem level_twice_starts : band L T -> l_runs_encoded t = true -> l_empty_trie t = false ->
    forall v, level_decode t v = Ok (v ++ filter (fun x => x mod pow2 b =? 0)%N (sel umem h T 0)).
  Proof.
    intros Hbd Hr He v. unfold level_decode. rewrite Hr, He, lev_height, Es.
    rewrite (level_band_decode L 0 0 T); auto using aligned_0; try lia.
    - rewrite Hb. reflexivity.
    - rewrite Hb. auto.
  Qed.
End Level.

(** Whether the second encoding of a tree with a run at level [L] and none above stops there. *)
Lemma band_F : forall c (s : tree unit) d, wf d s -> c <= d ->
  (forall i, i < c -> ~ In Full (F s i)) -> (forall x, In x (F s c) -> x = Full) -> band c s.
Proof.
  induction c; intros s d W Hc Ha Hl; cbn [band].
  - apply Hl. left. auto.
  - assert (Kd : forall x, In x (kids s) -> band c x).
    { intros x Hx.
      assert (Sub : forall i y, In y (F x i) -> In y (F s (S i))).
      { intros i y Hy. unfold F in *. rewrite fiter_S. apply in_split in Hx. destruct Hx as (k1 & k2 & ->).
        change (k1 ++ x :: k2) with (k1 ++ [x] ++ k2). rewrite !fiter_app. apply in_or_app. right. apply in_or_app. auto. }
      apply (IHc x (pred d)).
      - destruct s; cbn [wf kids In] in *; intuition subst; auto.
      - lia.
      - intros i Hi N. apply (Ha (S i) ltac:(lia)). auto.
      - intros y Hy. apply Hl. auto. }
    split; [|apply Forall_forall; auto].
    destruct s; cbn [kids wf] in *; try discriminate; [lia|]. exfalso. apply (Ha 0 ltac:(lia)). left; auto.
Qed.

Lemma nbits_full : forall (G : list (tree unit)), (forall x, In x G -> is_leaf x = false) ->
  (length (nbits G) = 0 <-> forall x, In x G -> x = Full).
Proof.
  induction G as [|x G IH]; intros H; cbn.
  - split; [intros _ y []|auto].
  - specialize (IH (fun y Hy => H y (or_intror Hy))). unfold nbits in *. rewrite app_length.
    assert (Hx := H x (or_introl eq_refl)). split.
    + intros E y [<-|Hy]; [destruct x; auto; cbn in *; try discriminate; lia|]. apply IH; auto. lia.
    + intros Ha. assert (x = Full) as -> by (apply Ha; auto). cbn. apply IH. auto.
Qed.

Lemma nlev_L : forall (T : tree unit) h L, wf h T -> L < h ->
  (forall i, i < L -> ~ In Full (F T i)) -> In Full (F T L) ->
  L <= nlev T /\ (nlev T = L <-> forall x, In x (F T L) -> x = Full).
Proof.
  intros T h L W HL Ha Hne.
  assert (NL : forall i, i < h -> (nlev T <= i <-> forall x, In x (F T i) -> x = Full)).
  { intros i Hi. rewrite <- (nbits_level unit T i). apply nbits_full.
    intros x Hx. apply (F_notleaf T h W i); auto. }
  assert (LB : L <= nlev T).
  { destruct L as [|L]; [lia|]. destruct (Nat.le_gt_cases (S L) (nlev T)); auto.
    assert (Hx : nlev T <= L) by lia. destruct (NL L ltac:(lia)) as (N1 & _). specialize (N1 Hx).
    change (F T (S L)) with (flat_map kids (F T L)) in Hne. apply in_flat_map in Hne.
    destruct Hne as (x & Hi & Hk). rewrite (N1 x Hi) in Hk. destruct Hk. }
  split; auto. destruct (NL L HL) as (N1 & N2). split; [intros E; apply N1; lia|]. intros E. apply N2 in E. lia.
Qed.
