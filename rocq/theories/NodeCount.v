(** The nodes of a tree against the prefixes of its members. *)

From Verif Require Import Base Facts Tree Groups Reps Layout BuildFlat FlatTrie Spec RoundTrip RoundTripFacts
  Compress WriteOnes RunsFacts RunsThms SpecMeasures.

Local Notation T := (tree unit).

(** Start of the block of every node at depth [j] below the node at [p]. *)
Fixpoint npos (d j : nat) (t : T) (p : N) : list N :=
  match j with
  | O => [p]
  | S j' =>
    match t with
    | TL l => npos (pred d) j' l p
    | TR r => npos (pred d) j' r (p + pow2 (pred d))
    | TB l r => npos (pred d) j' l p ++ npos (pred d) j' r (p + pow2 (pred d))
    | _ => []
    end
  end.

Lemma npos_length : forall j d t p, length (npos d j t p) = length (fiter j [t]).
Proof.
  induction j; intros d t p; auto.
  destruct t; cbn [npos]; rewrite fiter_S; cbn [kids].
  - clear. induction j; auto. cbn [fiter]. destruct (fiter j []); cbn in *; auto. discriminate.
  - clear. induction j; auto. cbn [fiter]. destruct (fiter j []); cbn in *; auto. discriminate.
  - apply IHj.
  - apply IHj.
  - rewrite app_length, !IHj. change [t1; t2] with ([t1] ++ [t2]). rewrite fiter_app, app_length. auto.
Qed.

Lemma blk : forall k p x, aligned k p -> (p <= x < p + pow2 k <-> x / pow2 k = p / pow2 k)%N.
Proof.
  intros k p x Ha. assert (Hz := pow2_nz k). apply aligned_ex in Ha. destruct Ha as (q & ->).
  rewrite N.div_mul by auto. split; intros H.
  - symmetry. apply (N.div_unique x (pow2 k) q (x - q * pow2 k)); lia.
  - assert (E := N.div_mod x (pow2 k) Hz). assert (L := N.mod_lt x (pow2 k) Hz). rewrite H in E. lia.
Qed.

Lemma div_coarse : forall a b x y, a <= b -> (x / pow2 a = y / pow2 a)%N -> (x / pow2 b = y / pow2 b)%N.
Proof.
  intros a b x y H E. replace b with (a + (b - a)) by lia. rewrite pow2_add.
  rewrite <- !N.div_div by apply pow2_nz. rewrite E. auto.
Qed.

Lemma npos_range : forall t d j p q, wf d t -> j <= d -> aligned d p -> In q (npos d j t p) ->
  aligned (d - j) q /\ (p <= q)%N /\ (q + pow2 (d - j) <= p + pow2 d)%N.
Proof.
  induction t; intros d j p q W Hj Ha Hq; destruct j as [|j]; cbn [npos In] in Hq; try tauto;
    try (destruct Hq as [<-|[]]; rewrite Nat.sub_0_r; repeat split; auto; lia).
  - destruct W as (Hd & W). destruct d as [|d]; [lia|]. cbn [pred] in *.
    assert (A := aligned_S _ _ Ha). apply IHt in Hq; auto; [|lia]. rewrite pow2_S.
    change (S d - S j) with (d - j). intuition lia.
  - destruct W as (Hd & W). destruct d as [|d]; [lia|]. cbn [pred] in *.
    assert (A := aligned_right _ _ Ha). apply IHt in Hq; auto; [|lia]. rewrite pow2_S.
    change (S d - S j) with (d - j). intuition lia.
  - destruct W as (Hd & W1 & W2). destruct d as [|d]; [lia|]. cbn [pred] in *.
    assert (A1 := aligned_S _ _ Ha). assert (A2 := aligned_right _ _ Ha).
    change (S d - S j) with (d - j). rewrite pow2_S.
    apply in_app_or in Hq. destruct Hq as [Hq|Hq];
      [apply IHt1 in Hq | apply IHt2 in Hq]; auto; try lia; intuition lia.
Qed.

Lemma npos_NoDup : forall t d j p, wf d t -> j <= d -> aligned d p -> NoDup (npos d j t p).
Proof.
  induction t; intros d j p W Hj Ha; destruct j as [|j]; cbn [npos];
    try (constructor; auto; constructor); try constructor.
  - destruct W as (Hd & W). destruct d as [|d]; [lia|]. cbn [pred] in *.
    apply IHt; auto using aligned_S. lia.
  - destruct W as (Hd & W). destruct d as [|d]; [lia|]. cbn [pred] in *.
    apply IHt; auto using aligned_right. lia.
  - destruct W as (Hd & W1 & W2). destruct d as [|d]; [lia|]. cbn [pred] in *.
    assert (A1 := aligned_S _ _ Ha). assert (A2 := aligned_right _ _ Ha).
    assert (N1 : NoDup (npos d j t1 p)) by (apply IHt1; auto; lia).
    assert (N2 : NoDup (npos d j t2 (p + pow2 d))) by (apply IHt2; auto; lia).
    assert (D : forall q, In q (npos d j t1 p) -> ~ In q (npos d j t2 (p + pow2 d)%N)).
    { intros q H1 H2. apply npos_range in H1; auto; [|lia]. apply npos_range in H2; auto; [|lia].
      assert (P := pow2_pos (d - j)). lia. }
    clear - N1 N2 D. induction (npos d j t1 p) as [|x l IH]; auto.
    inversion N1; subst. cbn. constructor.
    + rewrite in_app_iff. intros [H|H]; auto. apply (D x); [left|]; auto.
    + apply IH; auto. intros q Hq. apply D. right; auto.
Qed.

(** Some member lies below every node. *)
Lemma wf_member : forall (t : T) d p, wf d t -> aligned d p ->
  exists x, (p <= x < p + pow2 d)%N /\ mem umem d t x = true.
Proof.
  induction t; intros d p W Ha; cbn [wf] in W.
  - exists p. assert (P := pow2_pos d). split; [lia|reflexivity].
  - exists p. assert (P := pow2_pos d). split; [lia|reflexivity].
  - destruct W as (Hd & W). destruct d as [|d]; [lia|]. cbn [pred] in *.
    destruct (IHt d p W (aligned_S _ _ Ha)) as (x & Hx & Hm). exists x. rewrite pow2_S. split; [lia|].
    cbn [mem pred]. rewrite (testbit_left d p); auto.
  - destruct W as (Hd & W). destruct d as [|d]; [lia|]. cbn [pred] in *.
    destruct (IHt d (p + pow2 d)%N W (aligned_right _ _ Ha)) as (x & Hx & Hm). exists x.
    rewrite pow2_S. split; [lia|]. cbn [mem pred]. rewrite (testbit_right d p); auto. rewrite pow2_S. lia.
  - destruct W as (Hd & W1 & W2). destruct d as [|d]; [lia|]. cbn [pred] in *.
    destruct (IHt1 d p W1 (aligned_S _ _ Ha)) as (x & Hx & Hm). exists x. rewrite pow2_S. split; [lia|].
    cbn [mem pred]. rewrite (testbit_left d p); auto.
Qed.

Lemma aligned_mono : forall j k p, j <= k -> aligned k p -> aligned j p.
Proof. exact aligned_le. Qed.

(** A block of size 2^k inside [p, p + 2^S d) lies in one half. *)
Lemma half_block : forall k d p q, k <= d -> aligned k q -> aligned (S d) p ->
  (p <= q)%N -> (q < p + pow2 (S d))%N ->
  (q + pow2 k <= p + pow2 d)%N \/ (p + pow2 d <= q)%N.
Proof.
  intros k d p q Hk Hq Hp H1 H2. destruct (N.lt_ge_cases q (p + pow2 d)); [left|auto].
  assert (A : aligned k (p + pow2 d)) by (apply (aligned_le k d); auto; apply aligned_right; auto).
  apply aligned_ex in A. apply aligned_ex in Hq. destruct A as (a & Ea). destruct Hq as (b & Eb).
  rewrite Ea, Eb in *. assert (P := pow2_pos k). assert (b < a)%N by nia. nia.
Qed.

Lemma npos_plain : forall (t : T) d j p q, wf d t -> plain t -> j <= d -> aligned d p ->
  (In q (npos d j t p) <->
   aligned (d - j) q /\ (p <= q)%N /\ (q + pow2 (d - j) <= p + pow2 d)%N /\
   exists x, (q <= x < q + pow2 (d - j))%N /\ mem umem d t x = true).
Proof.
  intros t d j p q W P Hj Ha. revert t p W P Ha. revert d Hj. induction j as [|j IH]; intros d Hj t p W P Ha.
  - cbn [npos In]. rewrite Nat.sub_0_r. split.
    + intros [<-|[]]. repeat split; auto; try lia. apply wf_member; auto.
    + intros (A & H1 & H2 & _). left. lia.
  - destruct d as [|d]; [lia|]. change (S d - S j) with (d - j).
    assert (AL := aligned_S _ _ Ha). assert (AR := aligned_right _ _ Ha).
    assert (PP := pow2_pos (d - j)).
    assert (HB : forall x, aligned (d - j) q -> (p <= q)%N -> (q + pow2 (d - j) <= p + pow2 (S d))%N ->
      (q <= x < q + pow2 (d - j))%N ->
      (q + pow2 (d - j) <= p + pow2 d)%N /\ N.testbit x (N.of_nat d) = false \/
      (p + pow2 d <= q)%N /\ N.testbit x (N.of_nat d) = true).
    { intros x A H1 H2 Hx. destruct (half_block (d - j) d p q) as [H|H]; auto; try lia.
      - left. split; auto. apply (testbit_left d p); auto. lia.
      - right. split; auto. apply (testbit_right d p); auto. lia. }
    rewrite pow2_S in *.
    destruct t as [a| |l|r|l r]; cbn [wf plain] in W, P; try lia; try tauto; cbn [npos pred mem].
    + destruct W as (_ & W). rewrite IH by (auto; lia). split.
      * intros (A & H1 & H2 & x & Hx & Hm). repeat split; auto; try lia. exists x. split; auto.
        destruct (HB x) as [(_ & ->)|(? & ->)]; auto; lia.
      * intros (A & H1 & H2 & x & Hx & Hm). destruct (HB x) as [(? & E)|(? & E)]; auto; rewrite E in Hm.
        -- repeat split; auto. exists x. auto.
        -- discriminate.
    + destruct W as (_ & W). rewrite IH by (auto; lia). split.
      * intros (A & H1 & H2 & x & Hx & Hm). repeat split; auto; try lia. exists x. split; auto.
        destruct (HB x) as [(? & ->)|(? & ->)]; auto; lia.
      * intros (A & H1 & H2 & x & Hx & Hm). destruct (HB x) as [(? & E)|(? & E)]; auto; rewrite E in Hm.
        -- discriminate.
        -- repeat split; auto; try lia. exists x. auto.
    + destruct W as (_ & W1 & W2). destruct P as (P1 & P2). rewrite in_app_iff, !IH by (auto; lia). split.
      * intros [(A & H1 & H2 & x & Hx & Hm)|(A & H1 & H2 & x & Hx & Hm)];
          (repeat split; auto; try lia; exists x; split; auto;
           destruct (HB x) as [(? & ->)|(? & ->)]; auto; lia).
      * intros (A & H1 & H2 & x & Hx & Hm). destruct (HB x) as [(? & E)|(? & E)]; auto; rewrite E in Hm.
        -- left. repeat split; auto. exists x. auto.
        -- right. repeat split; auto; try lia. exists x. auto.
Qed.

Lemma full_iff : forall (t : T) d p, wf d t -> plain t -> aligned d p ->
  (ufullt t = true <-> forall x, (p <= x < p + pow2 d)%N -> mem umem d t x = true).
Proof.
  induction t; intros d p W P Ha; cbn [wf plain] in W, P; try tauto.
  - destruct W as (Hd & W). destruct d as [|d]; [lia|]. cbn [pred] in *.
    split; [discriminate|]. intros H. exfalso. specialize (H (p + pow2 d)%N).
    assert (PP := pow2_pos d). rewrite pow2_S in H. specialize (H ltac:(lia)).
    cbn [mem pred] in H. rewrite (testbit_right d p) in H; auto; [discriminate|]. rewrite pow2_S. lia.
  - destruct W as (Hd & W). destruct d as [|d]; [lia|]. cbn [pred] in *.
    split; [discriminate|]. intros H. exfalso. specialize (H p).
    assert (PP := pow2_pos d). rewrite pow2_S in H. specialize (H ltac:(lia)).
    cbn [mem pred] in H. rewrite (testbit_left d p) in H; auto; [discriminate|]. lia.
  - destruct W as (Hd & W1 & W2). destruct P as (P1 & P2). destruct d as [|d]; [lia|]. cbn [pred] in *.
    unfold ufullt in *. cbn [full]. rewrite andb_true_iff.
    rewrite (IHt1 d p) by auto using aligned_S. rewrite (IHt2 d (p + pow2 d)%N) by auto using aligned_right.
    rewrite pow2_S. cbn [mem pred]. split.
    + intros (H1 & H2) x Hx. destruct (N.lt_ge_cases x (p + pow2 d)).
      * rewrite (testbit_left d p); auto; [|lia]. apply H1. lia.
      * rewrite (testbit_right d p); auto; [|rewrite pow2_S; lia]. apply H2. lia.
    + intros H. split; intros x Hx.
      * specialize (H x ltac:(lia)). rewrite (testbit_left d p) in H; auto.
      * specialize (H x ltac:(lia)). rewrite (testbit_right d p) in H; auto. rewrite pow2_S. lia.
Qed.

(** Some value of the block of 2^b values around [q] is missing. *)
Definition gap_in (m : N -> bool) (b : nat) (q : N) : Prop :=
  exists y, (y / pow2 b = q / pow2 b)%N /\ m y = false.

(** The condition under which a node at depth [j] survives run encoding. *)
Definition survives (d j : nat) (m : N -> bool) (q : N) : Prop :=
  j = 0 \/ d <= 1 \/ gap_in m (Nat.max 2 (S (d - j))) q.

Lemma gap_whole : forall (t : T) d p q, wf d t -> plain t -> aligned d p -> (p <= q < p + pow2 d)%N ->
  (gap_in (mem umem d t) d q <-> ufullt t = false).
Proof.
  intros t d p q W P Ha Hq. assert (F := full_iff t d p W P Ha).
  apply (blk d p q Ha) in Hq. split.
  - intros (y & Ey & Hy). destruct (ufullt t); auto. exfalso.
    destruct F as (F & _). rewrite F in Hy; [discriminate| auto|]. apply blk; auto. congruence.
  - intros E. destruct F as (_ & F). unfold gap_in.
    assert (H : exists y, In y (nrange p (2 ^ d)) /\ mem umem d t y = false).
    { destruct (forallb (mem umem d t) (nrange p (2 ^ d))) eqn:Eb.
      - rewrite forallb_forall in Eb. rewrite F in E; [discriminate|]. intros x Hx. apply Eb.
        apply In_half. auto.
      - clear - Eb. induction (nrange p (2 ^ d)) as [|x l IH]; [discriminate|]. cbn in Eb.
        destruct (mem umem d t x) eqn:E.
        + destruct (IH Eb) as (y & Hy & Ey). exists y. split; auto. right; auto.
        + exists x. split; auto. left; auto. }
    destruct H as (y & Hy & Ey). exists y. split; auto. apply In_half in Hy. apply (blk d p y Ha) in Hy.
    congruence.
Qed.

(** Restriction of a gap to one half of the tree. *)
Lemma gap_half : forall (m m' : N -> bool) b d p q, b <= d -> aligned d p -> (p <= q < p + pow2 d)%N ->
  (forall y, (p <= y < p + pow2 d)%N -> m y = m' y) -> (gap_in m b q <-> gap_in m' b q).
Proof.
  intros m m' b d p q Hb Ha Hq E. apply (blk d p q Ha) in Hq.
  split; intros (y & Ey & Hy); exists y; split; auto.
  - rewrite <- E; auto. apply blk; auto. rewrite (div_coarse b d y q); auto.
  - rewrite E; auto. apply blk; auto. rewrite (div_coarse b d y q); auto.
Qed.

Lemma survives_half : forall (m m' : N -> bool) d j p q, j <= d -> aligned d p -> (p <= q < p + pow2 d)%N ->
  (forall y, (p <= y < p + pow2 d)%N -> m y = m' y) -> gap_in m (S d) q ->
  (survives (S d) (S j) m q <-> survives d j m' q).
Proof.
  intros m m' d j p q Hj Ha Hq E G. unfold survives. change (S d - S j) with (d - j).
  destruct (Nat.le_gt_cases d 1) as [Hd|Hd].
  - split; [auto|]. intros _. destruct d as [|d]; [right; left; lia|]. right. right.
    replace (Nat.max 2 (S (S d - j))) with (S (S d)) by lia. auto.
  - destruct j as [|j].
    + rewrite Nat.sub_0_r. replace (Nat.max 2 (S d)) with (S d) by lia. tauto.
    + rewrite (gap_half m m' (Nat.max 2 (S (d - S j))) d p q) by (auto; lia).
      split; intros [H|[H|H]]; try lia; auto.
Qed.

Lemma npos_compress : forall (t : T) d j p q, wf d t -> plain t -> j <= d -> aligned d p ->
  (In q (npos d j (ucompress t) p) <-> In q (npos d j t p) /\ survives d j (mem umem d t) q).
Proof.
  intros t d j. revert t d. induction j as [|j IH]; intros t d p q W P Hj Ha.
  - cbn [npos]. unfold survives. tauto.
  - destruct d as [|d]; [lia|].
    assert (AL := aligned_S _ _ Ha). assert (AR := aligned_right _ _ Ha).
    assert (PP := pow2_pos (d - j)).
    destruct t as [a| |l|r|l r]; try (cbn [wf plain] in W, P; lia || tauto); unfold ucompress; cbn [compress npos].
    + assert (W' := W). destruct W as (_ & W). cbn [plain pred] in *. fold (ucompress l). rewrite IH by (auto; lia).
      assert (H : In q (npos d j l p) ->
        (survives (S d) (S j) (mem umem (S d) (TL l)) q <-> survives d j (mem umem d l) q)).
      { intros Hq. apply npos_range in Hq; auto; [|lia]. destruct Hq as (_ & H1 & H2).
        apply survives_half with (p := p); auto; try lia.
        - intros y Hy. cbn [mem pred]. rewrite (testbit_left d p); auto.
        - apply (gap_whole _ _ p); auto. rewrite pow2_S. lia. }
      tauto.
    + assert (W' := W). destruct W as (_ & W). cbn [plain pred] in *. fold (ucompress r). rewrite IH by (auto; lia).
      assert (H : In q (npos d j r (p + pow2 d)) ->
        (survives (S d) (S j) (mem umem (S d) (TR r)) q <-> survives d j (mem umem d r) q)).
      { intros Hq. apply npos_range in Hq; auto; [|lia]. destruct Hq as (_ & H1 & H2).
        apply survives_half with (p := (p + pow2 d)%N); auto; try lia.
        - intros y Hy. cbn [mem pred]. rewrite (testbit_right d p); auto. rewrite pow2_S; lia.
        - apply (gap_whole _ _ p); auto. rewrite pow2_S. lia. }
      tauto.
    + assert (W' := W). assert (P' := P). destruct W as (_ & W1 & W2). destruct P as (P1 & P2). cbn [pred] in *.
      destruct (is_leaf l && is_leaf r)%bool eqn:El.
      * (* two leaves are never merged *)
        apply andb_true_iff in El. destruct El as (E1 & E2).
        destruct l; try discriminate. destruct r; try discriminate.
        cbn [wf] in W1. subst d. replace j with 0 by lia. cbn. unfold survives. intuition lia.
      * assert (Ek : (true && is_leaf l && is_leaf r)%bool = false) by (rewrite <- andb_assoc; auto).
        rewrite Ek, andb_true_r.
        assert (Hd : 1 <= d). { destruct d; [|lia]. destruct l, r; cbn in W1, W2, El; try lia; discriminate. }
        destruct (full ufull l && full ufull r)%bool eqn:Ef.
        -- split; [intros []|]. intros (Hq & S0). exfalso.
           assert (R : (p <= q < p + pow2 (S d))%N).
           { assert (Hq' : In q (npos (S d) (S j) (TB l r) p)) by exact Hq.
             apply npos_range in Hq'; auto. rewrite Nat.sub_succ in Hq'. lia. }
           unfold survives in S0. destruct S0 as [S0|[S0|(y & Ey & Hy)]]; try lia.
           assert (Ff : ufullt (TB l r) = true) by exact Ef.
           rewrite (full_iff _ (S d) p) in Ff by auto. rewrite Ff in Hy; [discriminate|].
           apply blk; auto. apply (blk (S d) p q Ha) in R. rewrite <- R.
           apply (div_coarse (Nat.max 2 (S (S d - S j)))); auto. lia.
        -- cbn [npos]. fold (ucompress l) (ucompress r). cbn [pred]. rewrite !in_app_iff, !IH by (auto; lia).
           assert (G : forall q, (p <= q < p + pow2 (S d))%N -> gap_in (mem umem (S d) (TB l r)) (S d) q).
           { intros q0 Hq0. apply (gap_whole _ _ p); auto. }
           assert (H1 : In q (npos d j l p) ->
             (survives (S d) (S j) (mem umem (S d) (TB l r)) q <-> survives d j (mem umem d l) q)).
           { intros Hq. apply npos_range in Hq; auto; [|lia]. destruct Hq as (_ & H1 & H2).
             apply survives_half with (p := p); auto; try lia.
             - intros y Hy. cbn [mem pred]. rewrite (testbit_left d p); auto.
             - apply G. rewrite pow2_S. lia. }
           assert (H2 : In q (npos d j r (p + pow2 d)) ->
             (survives (S d) (S j) (mem umem (S d) (TB l r)) q <-> survives d j (mem umem d r) q)).
           { intros Hq. apply npos_range in Hq; auto; [|lia]. destruct Hq as (_ & H2 & H3).
             apply survives_half with (p := (p + pow2 d)%N); auto; try lia.
             - intros y Hy. cbn [mem pred]. rewrite (testbit_right d p); auto. rewrite pow2_S; lia.
             - apply G. rewrite pow2_S. lia. }
           tauto.
Qed.

(** * The measures *)

Lemma height_digits : forall u h, (2 <= u)%N -> height_of u = Ok h -> h = digits u.
Proof.
  intros u h Hu H. unfold height_of in H.
  destruct (N.eqb_spec u 1); [lia|]. destruct (N.eqb_spec u 0); [lia|].
  destruct (N.ltb _ _); [discriminate|]. injection H as <-. unfold digits.
  unfold N.log2_up. replace (1 ?= u)%N with Lt by (symmetry; apply N.compare_lt_iff; lia).
  do 2 f_equal. f_equal. lia.
Qed.

Lemma measure_levels : forall (t : T) h,
  count_true (prebits t h) = list_sum (map (fun k => length (F t (h - k))) (seq 0 h)).
Proof.
  induction h; auto. cbn [prebits seq map]. rewrite count_true_app, count_bits, IHh.
  change (flat_map kids (F t h)) with (F t (S h)). cbn [list_sum fold_right]. rewrite Nat.sub_0_r.
  rewrite <- seq_shift, map_map. change (list_sum (map (fun k => length (F t (h - k))) (seq 0 h)) +
    length (F t (S h)) = length (F t (S h)) + list_sum (map (fun k => length (F t (S h - S k))) (seq 0 h))).
  cbn [Nat.sub]. lia.
Qed.

Lemma counts_map : forall (t : T) h k (P : N -> Prop), wf h t -> k <= h ->
  (forall q, In q (npos h (h - k) t 0) -> P (q / pow2 k)%N) ->
  (forall q, P q -> In (q * pow2 k)%N (npos h (h - k) t 0)) ->
  counts P (length (F t (h - k))).
Proof.
  intros t h k P W Hk H1 H2. exists (map (fun q => (q / pow2 k)%N) (npos h (h - k) t 0)).
  assert (R : forall q, In q (npos h (h - k) t 0) -> (q = q / pow2 k * pow2 k)%N).
  { intros q Hq. apply npos_range in Hq; auto; try lia; [|apply aligned_0].
    replace (h - (h - k)) with k in Hq by lia. destruct Hq as (A & _). apply aligned_ex in A.
    destruct A as (a & ->). rewrite N.div_mul by apply pow2_nz. auto. }
  split; [|split].
  - assert (N := npos_NoDup t h (h - k) 0%N W ltac:(lia) (aligned_0 h)). clear - R N.
    induction (npos h (h - k) t 0) as [|x l IH]; cbn; constructor; inversion N; subst.
    + rewrite in_map_iff. intros (y & E & Hy). rewrite (R x), (R y) in * by (cbn; auto).
      rewrite !N.div_mul in E by apply pow2_nz. rewrite E in Hy. auto.
    + apply IH; auto. intros q Hq. apply R. right; auto.
  - rewrite map_length. apply npos_length.
  - intros q. rewrite in_map_iff. split.
    + intros (y & <- & Hy). auto.
    + intros Hq. exists (q * pow2 k)%N. split; auto. apply N.div_mul, pow2_nz.
Qed.

Lemma mem_iff : forall h t s, sel umem h t 0 = s -> forall x, (x < pow2 h)%N -> (mem umem h t x = true <-> In x s).
Proof. intros. apply mem_In; auto. Qed.

Section Measure.
  Variables (h : nat) (s : list N) (t : T).
  Hypothesis Hwf : wf h t.
  Hypothesis Hpl : plain t.
  Hypothesis Hsel : sel umem h t 0 = s.
  Hypothesis Hb : forall x, In x s -> (x < pow2 h)%N.

  Lemma prefix_pos : forall k q, k <= h ->
    (prefix_of_member s k q <-> In (q * pow2 k)%N (npos h (h - k) t 0)).
  Proof.
    intros k q Hk. rewrite npos_plain by (auto using aligned_0; lia).
    replace (h - (h - k)) with k by lia. unfold prefix_of_member.
    change (2 ^ N.of_nat k)%N with (pow2 k). rewrite N.add_0_l. split.
    - intros (x & Hx & ->). assert (Ex := Hb x Hx).
      assert (D := N.div_mod x (pow2 k) (pow2_nz k)). assert (L := N.mod_lt x (pow2 k) (pow2_nz k)).
      split; [apply aligned_ex; eauto|]. split; [apply N.le_0_l|]. split.
      + assert (EP : pow2 h = (pow2 k * pow2 (h - k))%N) by (rewrite <- pow2_add; f_equal; lia).
        rewrite EP in *.
        assert (x / pow2 k < pow2 (h - k))%N by (apply N.div_lt_upper_bound; auto; apply pow2_nz). nia.
      + exists x. split; [lia|]. apply (mem_iff h t s); auto.
    - intros (_ & _ & H & x & Hx & Hm). exists x. split; [apply (mem_iff h t s); auto; lia|].
      apply (N.div_unique x (pow2 k) q (x - q * pow2 k)); lia.
  Qed.

  Lemma level_counts : forall k, k < h -> counts (prefix_of_member s k) (length (F t (h - k))).
  Proof.
    intros k Hk. apply counts_map; auto; try lia.
    - intros q Hq. apply prefix_pos; [lia|].
      assert (A := Hq). apply npos_range in A; auto; try lia; [|apply aligned_0].
      replace (h - (h - k)) with k in A by lia. destruct A as (A & _). apply aligned_ex in A.
      destruct A as (a & ->). rewrite N.div_mul by apply pow2_nz. auto.
    - intros q. apply prefix_pos. lia.
  Qed.

  Lemma survives_iff : forall k q, 2 <= h -> k < h -> (q * pow2 k < pow2 h)%N ->
    (survives h (h - k) (mem umem h t) (q * pow2 k) <->
     exists y, (y / pow2 (Nat.max 2 (S k)) = q * pow2 k / pow2 (Nat.max 2 (S k)))%N /\ ~ In y s).
  Proof.
    intros k q H2 Hk Hq. unfold survives, gap_in. replace (h - (h - k)) with k by lia.
    set (b := Nat.max 2 (S k)).
    assert (HY : forall y, (y / pow2 b = q * pow2 k / pow2 b)%N -> (y < pow2 h)%N).
    { intros y E. assert (E' := div_coarse b h _ _ ltac:(lia) E).
      rewrite (N.div_small (q * pow2 k)) in E' by auto. apply N.div_small_iff in E'; auto. apply pow2_nz. }
    split.
    - intros [H|[H|(y & Ey & Hy)]]; try lia. exists y. split; auto. rewrite <- (mem_iff h t s); auto. congruence.
    - intros (y & Ey & Hy). right. right. exists y. split; auto.
      rewrite <- (mem_iff h t s) in Hy; auto. destruct (mem umem h t y); congruence.
  Qed.

  Lemma level_counts_runs : forall k, 2 <= h -> k < h ->
    counts (prefix_outside_runs s k) (length (F (ucompress t) (h - k))).
  Proof.
    intros k H2 Hk.
    assert (Hin : forall a b, ~ (forall y, (y / pow2 a = b)%N -> In y s) <-> exists y, (y / pow2 a = b)%N /\ ~ In y s).
    { intros a b. split.
      - intros H. assert (Hd : forall y, {In y s} + {~ In y s}) by (intros; apply in_dec, N.eq_dec).
        (* search the finitely many candidates *)
        destruct (forallb (fun y => if Hd y then true else false) (nrange (b * pow2 a) (2 ^ a))) eqn:E.
        + exfalso. apply H. intros y Hy. rewrite forallb_forall in E.
          specialize (E y). destruct (Hd y) as [Hy'|Hy']; auto. exfalso.
          assert (false = true); [|discriminate]. apply E. apply In_half.
          assert (D := N.div_mod y (pow2 a) (pow2_nz a)). assert (L := N.mod_lt y (pow2 a) (pow2_nz a)). subst b. lia.
        + assert (X : exists y, In y (nrange (b * pow2 a) (2 ^ a)) /\ ~ In y s).
          { clear - E. induction (nrange (b * pow2 a) (2 ^ a)) as [|x l IH]; [discriminate|]. cbn in E.
            destruct (Hd x).
            - destruct (IH E) as (y & ? & ?). exists y. split; auto. right; auto.
            - exists x. split; auto. left; auto. }
          destruct X as (y & Hy & Hn). exists y. split; auto. apply In_half in Hy.
          symmetry. apply (N.div_unique y (pow2 a) b (y - b * pow2 a)); lia.
      - intros (y & Ey & Hy) H. apply Hy, H; auto. }
    assert (P : forall q, prefix_outside_runs s k q <-> In (q * pow2 k)%N (npos h (h - k) (ucompress t) 0)).
    { intros q. rewrite npos_compress by (auto using aligned_0; lia). rewrite <- prefix_pos by lia.
      assert (B : forall x, In x s -> q = (x / pow2 k)%N ->
        (q * pow2 k < pow2 h)%N /\ forall a, k <= a -> (q * pow2 k / pow2 a = x / pow2 a)%N).
      { intros x Hx ->. assert (D := N.div_mod x (pow2 k) (pow2_nz k)). split.
        - specialize (Hb x Hx). lia.
        - intros a Ha. apply (div_coarse k); auto. rewrite N.div_mul by apply pow2_nz. auto. }
      unfold prefix_outside_runs, block_full. split.
      - intros (x & Hx & Eq & Hn). destruct (B x Hx Eq) as (B1 & B2). split; [exists x; auto|].
        apply survives_iff; auto. apply Hin in Hn. destruct Hn as (y & Ey & Hy). exists y.
        split; [|auto]. rewrite B2 by lia. exact Ey.
      - intros ((x & Hx & Eq) & S0). destruct (B x Hx Eq) as (B1 & B2).
        apply survives_iff in S0; auto. destruct S0 as (y & Ey & Hy). rewrite B2 in Ey by lia.
        exists x. split; [auto|]. split; [auto|]. apply Hin. exists y. auto. }
    assert (Hwf' : wf h (ucompress t)) by (apply compress_wf; auto).
    apply counts_map; auto; try lia.
    - intros q Hq. apply P.
      assert (A := Hq). apply npos_range in A; auto; try lia; [|apply aligned_0].
      replace (h - (h - k)) with k in A by lia. destruct A as (A & _). apply aligned_ex in A.
      destruct A as (a & ->). rewrite N.div_mul by apply pow2_nz. auto.
    - intros q. apply P.
  Qed.
End Measure.

Lemma Forall2_map_seq : forall (P : nat -> nat -> Prop) (f : nat -> nat) n a,
  (forall k, a <= k < a + n -> P k (f k)) -> Forall2 P (seq a n) (map f (seq a n)).
Proof.
  induction n; intros a H; cbn; constructor.
  - apply H. lia.
  - apply IHn. intros k Hk. apply H. lia.
Qed.

Lemma flat_built_digits : forall u s, (3 <= u <= 2 ^ 48)%N -> s <> [] -> increasing s -> below u s -> shorter 32 s ->
  exists t, flat_build s u = Ok t /\ 2 <= digits u /\ (u <= pow2 (digits u))%N /\
    let T := tree_of unit_leaf 0 (digits u) s in
    flat_layout t (digits u) T /\ plain T /\ sel umem (digits u) T 0 = s.
Proof.
  intros u s Hu Hne Hs Hb Hl.
  destruct (height_of_spec u ltac:(lia)) as (h & Hh & Hr & Hp & H2 & _).
  assert (Eh := height_digits u h ltac:(lia) Hh). subst h.
  destruct (flat_build_layout s u _ Hh) as (t & Ht & L & Hre & He); auto; try lia.
  exists t. split; [auto|]. split; [apply H2; lia|]. split; [auto|].
  split; [apply L|]. split; [apply tree_of_plain|]. eapply sel_is_set; eauto.
Qed.

Theorem flat_measure : forall u s,
  (3 <= u <= 2 ^ 48)%N -> s <> [] -> increasing s -> below u s -> shorter 32 s ->
  exists t ns, flat_build s u = Ok t /\ flat_trieMeasure t = Ok (list_sum ns) /\
    Forall2 (fun k n => counts (prefix_of_member s k) n) (seq 0 (digits u)) ns.
Proof.
  intros u s Hu Hne Hs Hb Hl.
  destruct (flat_built_digits u s Hu Hne Hs Hb Hl) as (t & Ht & H2 & Hp & L & Hpl & E).
  set (h := digits u) in *. set (T0 := tree_of unit_leaf 0 h s) in *.
  destruct L as (_ & Hwf & _ & Eb & El & Er).
  exists t, (map (fun k => length (F T0 (h - k))) (seq 0 h)). split; [auto|]. split.
  - rewrite flat_trieMeasure_spec by auto. rewrite Eb, El, <- count_true_app.
    change (prebits T0 (h - 1) ++ bits (F T0 (h - 1))) with (prebits T0 (S (h - 1))).
    replace (S (h - 1)) with h by lia. rewrite measure_levels. auto.
  - apply Forall2_map_seq. intros k Hk. apply level_counts; auto; [|lia].
    intros x Hx. unfold below in Hb. rewrite Forall_forall in Hb. specialize (Hb x Hx). lia.
Qed.

Theorem flat_measure_runs : forall u s,
  (3 <= u <= 2 ^ 48)%N -> s <> [] -> increasing s -> below u s -> shorter 32 s ->
  exists t t' ns, flat_build s u = Ok t /\ flat_encodeRuns t = Ok t' /\
    flat_trieMeasure t' = Ok (list_sum ns) /\
    Forall2 (fun k n => counts (prefix_outside_runs s k) n) (seq 0 (digits u)) ns.
Proof.
  intros u s Hu Hne Hs Hb Hl.
  destruct (flat_built_digits u s Hu Hne Hs Hb Hl) as (t & Ht & H2 & Hp & L & Hpl & E).
  set (h := digits u) in *. set (T0 := tree_of unit_leaf 0 h s) in *.
  assert (E' := flat_encodeRuns_spec t h _ L Hpl). cbv zeta in E'.
  destruct L as (_ & Hwf & _ & Eb & El & Er). set (T' := ucompress T0) in *. set (m := nodelev T') in *.
  destruct (ucompress_nodelev T0 h Hwf ltac:(lia)) as (M1 & M2). fold T' m in M1, M2.
  eexists t, _, (map (fun k => length (F T' (h - k))) (seq 0 h)). split; [auto|]. split; [eauto|]. split.
  - rewrite flat_trieMeasure_spec by auto. cbn [f_bTrie f_lastLevel]. rewrite <- count_true_app.
    change (prebits T' (m - 1) ++ bits (F T' (m - 1))) with (prebits T' (S (m - 1))).
    replace (S (m - 1)) with m by lia. unfold m. rewrite <- (prebits_rest _ T' h) by auto.
    rewrite measure_levels. auto.
  - apply Forall2_map_seq. intros k Hk. apply level_counts_runs; auto; [|lia].
    intros x Hx. unfold below in Hb. rewrite Forall_forall in Hb. specialize (Hb x Hx). lia.
Qed.

Theorem flat_elements : forall u s,
  (3 <= u <= 2 ^ 48)%N -> s <> [] -> increasing s -> below u s -> shorter 32 s ->
  exists t, flat_build s u = Ok t /\ flat_elements_coded t = Ok (length s).
Proof.
  intros u s Hu Hne Hs Hb Hl.
  destruct (flat_built_digits u s Hu Hne Hs Hb Hl) as (t & Ht & H2 & Hp & L & Hpl & E).
  set (h := digits u) in *. set (T0 := tree_of unit_leaf 0 h s) in *.
  destruct L as (_ & Hwf & _ & Eb & El & Er).
  exists t. split; [auto|]. unfold flat_elements_coded. rewrite count_loop_spec, El, count_bits. f_equal.
  change (flat_map kids (F T0 (h - 1))) with (F T0 (S (h - 1))). replace (S (h - 1)) with (h - 0) by lia.
  assert (Hb' : forall x, In x s -> (x < pow2 h)%N).
  { intros x Hx. unfold below in Hb. rewrite Forall_forall in Hb. specialize (Hb x Hx). lia. }
  destruct (level_counts h s T0 Hwf Hpl E Hb' 0 ltac:(lia)) as (l & N & <- & Hl').
  assert (Ns : NoDup s).
  { clear - Hs. induction Hs as [|x s Hs IH Hx]; constructor; auto. intros Hin.
    rewrite Forall_forall in Hx. specialize (Hx x Hin). lia. }
  apply Nat.le_antisymm; apply NoDup_incl_length; auto; intros x Hx.
  - apply Hl' in Hx. destruct Hx as (y & Hy & ->). change (2 ^ N.of_nat 0)%N with 1%N. rewrite N.div_1_r. auto.
  - apply Hl'. exists x. change (2 ^ N.of_nat 0)%N with 1%N. rewrite N.div_1_r. auto.
Qed.
