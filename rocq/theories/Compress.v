(** The run-encoding traversal writes the levels of the compressed tree. *)

From Verif Require Import Base FlatTrie LevelTrie FastTrie Facts Tree Groups Reps Layout
  BuildFlat BuildFast DecodeFast.

(** Positions of the ones of [bs], counted from [p]. *)
Fixpoint tpos (p : nat) (bs : list bool) : list nat :=
  match bs with
  | [] => []
  | b :: bs' => (if b then [p] else []) ++ tpos (S p) bs'
  end.

Lemma tpos_app : forall a p b, tpos p (a ++ b) = tpos p a ++ tpos (p + length a) b.
Proof.
  induction a; intros; cbn [tpos app length].
  - rewrite Nat.add_0_r. auto.
  - rewrite IHa, <- app_assoc. do 3 f_equal. lia.
Qed.

(** * States as functions of the level *)

Definition mk (h : nat) (O : nat -> list nat) (P : nat -> nat) : wc_state :=
  (map O (seq 0 h), map P (seq 0 h)).

Definition upd {X} (f : nat -> X) (j : nat) (x : X) (i : nat) : X := if i =? j then x else f i.

Lemma upd_same : forall X (f : nat -> X) j x, upd f j x j = x.
Proof. intros. unfold upd. rewrite Nat.eqb_refl. auto. Qed.
Lemma upd_other : forall X (f : nat -> X) j x i, i <> j -> upd f j x i = f i.
Proof. intros. unfold upd. apply Nat.eqb_neq in H. rewrite H. auto. Qed.

Lemma seq_split : forall h j, j < h -> seq 0 h = seq 0 j ++ j :: seq (S j) (h - S j).
Proof.
  intros h j H. replace h with (j + S (h - S j)) at 1 by lia. rewrite seq_app. reflexivity.
Qed.

Lemma vget_map : forall X (f : nat -> X) h j, j < h -> vget (map f (seq 0 h)) j = Ok (f j).
Proof.
  intros. rewrite (seq_split h j) by auto. rewrite map_app. cbn [map].
  apply vget_app_mid. rewrite map_length, seq_length. auto.
Qed.

Lemma vset_map : forall X (f : nat -> X) h j x, j < h ->
  vset (map f (seq 0 h)) j x = Ok (map (upd f j x) (seq 0 h)).
Proof.
  intros. rewrite (seq_split h j) by auto. rewrite !map_app. cbn [map].
  rewrite vset_app_mid by (rewrite map_length, seq_length; auto).
  rewrite upd_same. do 2 f_equal; [|f_equal]; apply map_ext_in; intros i Hi;
    apply in_seq in Hi; rewrite upd_other; auto; lia.
Qed.

Lemma mk_ext : forall h O P O' P', (forall j, j < h -> O j = O' j) -> (forall j, j < h -> P j = P' j) ->
  mk h O P = mk h O' P'.
Proof.
  intros. unfold mk. f_equal; apply map_ext_in; intros j Hj; apply in_seq in Hj; auto with arith;
    [apply H | apply H0]; lia.
Qed.

Lemma push_one_mk : forall h O P j x, j < h ->
  push_one (mk h O P) j x = Ok (mk h (upd O j (O j ++ [x])) P).
Proof.
  intros. unfold push_one, mk. cbn [fst snd]. rewrite vget_map by auto. cbn [bind].
  rewrite vset_map by auto. reflexivity.
Qed.

Lemma add_pos_mk : forall h O P j d, j < h ->
  add_pos (mk h O P) j d = Ok (mk h O (upd P j (P j + d))).
Proof.
  intros. unfold add_pos, mk. cbn [fst snd]. rewrite vget_map by auto. cbn [bind].
  rewrite vset_map by auto. reflexivity.
Qed.

Lemma sub4_pos_mk : forall h O P j, j < h -> 4 <= P j ->
  sub4_pos (mk h O P) j = Ok (mk h O (upd P j (P j - 4))).
Proof.
  intros. unfold sub4_pos, mk. cbn [fst snd]. rewrite vget_map by auto. cbn [bind].
  replace (P j <? 4) with false by (symmetry; apply Nat.ltb_ge; auto).
  rewrite vset_map by auto. reflexivity.
Qed.

Lemma vget_pos : forall h O P j, j < h -> vget (snd (mk h O P)) j = Ok (P j).
Proof. intros. apply vget_map; auto. Qed.

Lemma pop_ones_mk : forall l h O P j o, j < h -> O j = o ++ l ->
  pop_ones (length l) (mk h O P) j = Ok (mk h (upd O j o) P).
Proof.
  unfold pop_ones. intros l. generalize 0. induction l as [|x l IH] using rev_ind; intros s h O P j o Hj E.
  - cbn. rewrite app_nil_r in E. f_equal. apply mk_ext; auto. intros i Hi.
    unfold upd. destruct (Nat.eqb_spec i j); subst; auto.
  - rewrite app_length. cbn [length]. rewrite Nat.add_1_r. cbn [for_loop].
    unfold mk at 1. cbn [fst]. rewrite vget_map by auto. cbn [bind].
    rewrite E, app_assoc.
    assert (EP : vpop ((o ++ l) ++ [x]) = Ok (o ++ l)).
    { unfold vpop. rewrite removelast_last. destruct ((o ++ l) ++ [x]) eqn:E0; auto.
      apply app_eq_nil in E0. destruct E0; discriminate. }
    rewrite EP. cbn [bind]. unfold mk at 1. cbn [fst]. rewrite vset_map by auto. cbn [bind].
    change (snd (mk h O P)) with (map P (seq 0 h)). fold (mk h (upd O j (o ++ l)) P).
    rewrite (IH _ h _ P j o) by (auto; rewrite upd_same; auto).
    f_equal. apply mk_ext; auto. intros i Hi. unfold upd. destruct (i =? j); auto.
Qed.

Lemma map_const_seq : forall X (x : X) n s, map (fun _ => x) (seq s n) = repeat x n.
Proof. induction n; intros; cbn; auto. rewrite IHn. auto. Qed.

(** Bits of level [j] contributed by a subtree rooted at level [lvl]. *)
Definition lb {A} (t : tree A) (lvl j : nat) : list bool :=
  if lvl <=? j then bits (fiter (j - lvl) [t]) else [].

Section LB.
  Context {A : Type}.

  Lemma fiter_kids : forall i (F : list (tree A)), fiter i (flat_map kids F) = flat_map kids (fiter i F).
  Proof. induction i; intros; cbn; auto. rewrite IHi; auto. Qed.

  Lemma fiter_S : forall i (t : tree A), fiter (S i) [t] = fiter i (kids t).
  Proof. intros. cbn [fiter]. rewrite <- fiter_kids. cbn. rewrite app_nil_r. auto. Qed.

  Lemma fiter_nil : forall i, @fiter A i [] = [].
  Proof. induction i; cbn; auto. rewrite IHi. auto. Qed.

  Lemma lb_here : forall (t : tree A) lvl, lb t lvl lvl = code2 t.
  Proof. intros. unfold lb. rewrite Nat.leb_refl, Nat.sub_diag. cbn. apply app_nil_r. Qed.

  Lemma lb_below : forall (t : tree A) lvl j, j < lvl -> lb t lvl j = [].
  Proof. intros. unfold lb. apply Nat.leb_gt in H. rewrite H. auto. Qed.

  Lemma lb_above : forall (t : tree A) lvl j, lvl < j ->
    lb t lvl j = flat_map (fun c => lb c (S lvl) j) (kids t).
  Proof.
    intros. unfold lb. replace (lvl <=? j) with true by (symmetry; apply Nat.leb_le; lia).
    replace (S lvl <=? j) with true by (symmetry; apply Nat.leb_le; lia).
    replace (j - lvl) with (S (j - S lvl)) by lia. rewrite fiter_S.
    destruct t; cbn [kids flat_map].
    - rewrite fiter_nil; auto.
    - rewrite fiter_nil; auto.
    - rewrite app_nil_r; auto.
    - rewrite app_nil_r; auto.
    - rewrite app_nil_r. change [t1; t2] with ([t1] ++ [t2]). rewrite fiter_app, bits_app. auto.
  Qed.
End LB.

(** State after appending the levels of [t]. *)
Definition after {A} (h : nat) (O : nat -> list nat) (P : nat -> nat) (t : tree A) (lvl : nat) : wc_state :=
  mk h (fun j => O j ++ tpos (P j) (lb t lvl j)) (fun j => P j + length (lb t lvl j)).

(** * Flat and level-wise tries *)

Definition ufull (a : unit) : bool := true.
Definition ucompress : tree unit -> tree unit := compress ufull true.
Definition ufullt : tree unit -> bool := full ufull.

Lemma full_compress : forall d t, wf (S d) t -> plain t -> ufullt t = true ->
  (d = 0 -> t = TB (Leaf tt) (Leaf tt)) /\ (0 < d -> ucompress t = Full).
Proof.
  intros d t Hwf Hp Hf. unfold ufullt, ucompress in *.
  destruct t; cbn [full compress wf plain pred] in *; try discriminate; try tauto.
  apply andb_true_iff in Hf. destruct Hf as (F1 & F2). destruct Hwf as (_ & W1 & W2).
  split.
  - intros ->. apply wf_leaf in W1. apply wf_leaf in W2. destruct W1 as ([] & ->), W2 as ([] & ->). auto.
  - intros Hd. rewrite F1, F2. rewrite (wf_not_leaf d t1) by auto. reflexivity.
Qed.

Lemma after_intro : forall A h O P (t : tree A) lvl O' P',
  (forall j, j < h -> j < lvl -> O' j = O j /\ P' j = P j) ->
  (lvl < h -> O' lvl = O lvl ++ tpos (P lvl) (code2 t) /\ P' lvl = P lvl + length (code2 t)) ->
  (forall j b, j < h -> lvl < j -> b = flat_map (fun c => lb c (S lvl) j) (kids t) ->
     O' j = O j ++ tpos (P j) b /\ P' j = P j + length b) ->
  mk h O' P' = after h O P t lvl.
Proof.
  intros A h O P t lvl O' P' H1 H2 H3. unfold after. apply mk_ext; intros j Hj;
  (destruct (lt_eq_lt_dec j lvl) as [[Hlt|Heq]|Hgt];
   [rewrite lb_below by auto; destruct (H1 j Hj Hlt) as (E1 & E2)
   |subst; rewrite lb_here; destruct (H2 Hj) as (E1 & E2)
   |rewrite lb_above by auto; destruct (H3 j _ Hj Hgt eq_refl) as (E1 & E2)]);
  rewrite ?E1, ?E2; cbn [tpos length]; rewrite ?app_nil_r, ?Nat.add_0_r; auto.
Qed.

Lemma lb_leaf : forall A (a : A) lvl j, lb (Leaf a) lvl j = [].
Proof.
  intros. destruct (lt_eq_lt_dec j lvl) as [[H|H]|H].
  - apply lb_below; auto.
  - subst. apply lb_here.
  - rewrite lb_above by auto. auto.
Qed.

Lemma lb_Full : forall A lvl j, lvl < j -> lb (@Full A) lvl j = [].
Proof. intros. rewrite lb_above by auto. auto. Qed.

Ltac lvls := intros; unfold upd; repeat match goal with
  |- context [?a =? ?b] => destruct (Nat.eqb_spec a b); try lia; subst end; auto.

Section WriteCompress.
  Variable height : nat.
  Variable getNode : nat -> nat -> result N.
  Variable getLeft getRight : nat -> nat -> result nat.
  Let R := reps getNode getLeft getRight uok.

  Lemma wc_leaf_spec : forall (t : tree unit) O P lvl n, wf 1 t -> plain t -> lvl < height ->
    n = node_code (has_left t) (has_right t) -> height = S lvl ->
    wc_leaf (mk height O P) lvl n false =
    Ok (after height O P (ucompress t) lvl, ufullt t).
  Proof.
    intros t O P lvl n Hwf Hp Hl -> HS. unfold wc_leaf.
    destruct t as [a| |l|r|l r]; cbn in Hwf, Hp; try lia; try tauto;
      cbn [has_left has_right]; unfold node_code, b2N;
      cbn [N.shiftl N.lor N.eqb Pos.eqb Pos.lor Pos.shiftl Pos.iter orb];
      repeat (rewrite ?vget_pos, ?push_one_mk, ?add_pos_mk by auto; cbn [bind]).
    - do 2 f_equal. apply after_intro.
      + lvls.
      + lvls. split; auto. cbn. lia.
      + lia.
    - do 2 f_equal. apply after_intro.
      + lvls.
      + lvls. split; auto; cbn; [repeat f_equal|]; lia.
      + lia.
    - destruct Hwf as (_ & W1 & W2). apply wf_leaf in W1. apply wf_leaf in W2.
      destruct W1 as ([] & ->), W2 as ([] & ->). do 2 f_equal. apply after_intro.
      + lvls.
      + lvls. split; cbn; try lia. rewrite <- app_assoc. cbn. repeat f_equal; lia.
      + lia.
  Qed.

  Lemma wc_spec : forall t d lvl id O P fuel,
    wf d t -> plain t -> 0 < d -> lvl + d = height -> d <= fuel -> R t lvl id ->
    writeCompressTrie height getNode getLeft getRight fuel (mk height O P) lvl id false =
    Ok (after height O P (ucompress t) lvl, ufullt t).
  Proof.
    assert (Hcode : forall t lvl id, R t lvl id -> is_leaf t = false ->
              getNode id lvl = Ok (node_code (has_left t) (has_right t))).
    { intros t lvl id Hr Hl. destruct t; try discriminate; cbn in Hr; try apply Hr; auto. }
    induction t as [a| |t IH|t IH|l IHl r IHr]; intros d lvl id O P fuel Hwf Hp Hd Hlv Hf Hr;
      try (cbn in Hwf, Hp; lia || tauto).
    - (* TL *)
      destruct fuel as [|fuel]; [lia|]. cbn [writeCompressTrie].
      rewrite (Hcode _ _ _ Hr eq_refl). cbn [bind].
      destruct (Nat.eqb_spec (S lvl) height) as [E|E].
      + replace d with 1 in * by lia. apply wc_leaf_spec; auto. lia.
      + destruct Hr as (Hn & c & Hc & Hr). cbn in Hwf, Hp. destruct Hwf as (_ & Hwf).
        cbn [has_left has_right]. unfold node_code, b2N.
        cbn [N.shiftl N.lor N.eqb Pos.eqb Pos.lor Pos.shiftl Pos.iter orb].
        rewrite vget_pos by lia. cbn [bind]. rewrite Hc. cbn [bind].
        rewrite vget_pos by lia. cbn [bind]. rewrite push_one_mk by lia. cbn [bind].
        rewrite (IH (pred d)) by (auto; lia). cbn [bind]. unfold after at 1.
        rewrite add_pos_mk by lia. cbn [bind]. rewrite add_pos_mk by lia. cbn [bind].
        do 2 f_equal. apply after_intro.
        * lvls. rewrite lb_below by lia. cbn. rewrite app_nil_r. auto.
        * lvls. rewrite lb_below by lia. cbn. rewrite ?app_nil_r. split; auto; try lia.
        * lvls; subst; cbn [compress ucompress kids flat_map]; rewrite app_nil_r; auto.
    - (* TR *)
      destruct fuel as [|fuel]; [lia|]. cbn [writeCompressTrie].
      rewrite (Hcode _ _ _ Hr eq_refl). cbn [bind].
      destruct (Nat.eqb_spec (S lvl) height) as [E|E].
      + replace d with 1 in * by lia. apply wc_leaf_spec; auto. lia.
      + destruct Hr as (Hn & c & Hc & Hr). cbn in Hwf, Hp. destruct Hwf as (_ & Hwf).
        cbn [has_left has_right]. unfold node_code, b2N.
        cbn [N.shiftl N.lor N.eqb Pos.eqb Pos.lor Pos.shiftl Pos.iter orb].
        rewrite vget_pos by lia. cbn [bind]. rewrite add_pos_mk by lia. cbn [bind]. rewrite Hc.
        cbn [bind]. rewrite vget_pos by lia. cbn [bind]. rewrite push_one_mk by lia. cbn [bind].
        rewrite (IH (pred d)) by (auto; lia). cbn [bind]. unfold after at 1.
        rewrite add_pos_mk by lia. cbn [bind].
        do 2 f_equal. apply after_intro.
        * lvls. rewrite lb_below by lia. cbn. rewrite app_nil_r. auto.
        * lvls. rewrite lb_below by lia. cbn. rewrite app_nil_r.
          split; [repeat f_equal|]; lia.
        * lvls; subst; cbn [compress ucompress kids flat_map]; rewrite app_nil_r; auto.
    - (* TB *)
      destruct fuel as [|fuel]; [lia|]. cbn [writeCompressTrie].
      rewrite (Hcode _ _ _ Hr eq_refl). cbn [bind].
      destruct (Nat.eqb_spec (S lvl) height) as [E|E].
      + replace d with 1 in * by lia. apply wc_leaf_spec; auto. lia.
      + destruct Hr as (Hn & (c & Hc & Hr1 & Hr2) & _). cbn in Hwf, Hp.
        destruct Hwf as (_ & W1 & W2), Hp as (P1 & P2).
        cbn [has_left has_right]. unfold node_code, b2N.
        cbn [N.shiftl N.lor N.eqb Pos.eqb Pos.lor Pos.shiftl Pos.iter orb].
        rewrite vget_pos by lia. cbn [bind]. rewrite Hc. cbn [bind].
        rewrite (IHl (pred d)) by (auto; lia). cbn [bind]. unfold after at 1.
        rewrite (IHr (pred d)) by (auto; lia). cbn [bind]. unfold after at 1 2 3.
        unfold ucompress. cbn [compress]. fold ucompress.
        rewrite (wf_not_leaf (pred d) l), andb_false_r by (auto; lia).
        cbn [andb negb]. rewrite andb_true_r. change (full ufull) with ufullt. change (ufullt (TB l r)) with (ufullt l && ufullt r)%bool.
        destruct (ufullt l && ufullt r)%bool eqn:EF.
        * apply andb_true_iff in EF. destruct EF as (F1 & F2).
          destruct d as [|[|d]]; try lia. cbn [pred] in *.
          destruct (full_compress d l W1 P1 F1) as (L0 & LS).
          destruct (full_compress d r W2 P2 F2) as (R0 & RS).
          assert (B : forall j, S lvl < j -> lb (ucompress l) (S lvl) j = [] /\ lb (ucompress r) (S lvl) j = []).
          { intros j Hj. destruct (Nat.eq_dec d 0).
            - rewrite L0, R0 by auto. cbn. rewrite !lb_above by auto. cbn. rewrite !lb_leaf. auto.
            - rewrite LS, RS by lia. rewrite !lb_Full; auto. }
          assert (C : forall j, j < S lvl -> lb (ucompress l) (S lvl) j = [] /\ lb (ucompress r) (S lvl) j = []).
          { intros j Hj. rewrite !lb_below by auto. auto. }
          assert (L4 : length (lb (ucompress l) (S lvl) (S lvl)) +
                       length (lb (ucompress r) (S lvl) (S lvl)) = 4).
          { rewrite !lb_here. destruct (Nat.eq_dec d 0).
            - rewrite L0, R0 by auto. reflexivity.
            - rewrite LS, RS by lia. reflexivity. }
          rewrite sub4_pos_mk by lia. cbn [bind].
          destruct (Nat.eqb_spec (S (S lvl)) height) as [E2|E2].
          -- assert (d = 0) by lia. subst d. rewrite L0, R0 in * by auto.
             change 4 with (length [P (S lvl); S (P (S lvl)); S (S (P (S lvl))); S (S (S (P (S lvl))))]).
             rewrite (pop_ones_mk _ height _ _ (S lvl) (O (S lvl))).
             2: lia.
             2:{ rewrite !lb_here. cbn. rewrite <- app_assoc. cbn. repeat f_equal; lia. }
             cbn [bind]. rewrite add_pos_mk by lia. cbn [bind]. do 2 f_equal. apply after_intro.
             ++ lvls. destruct (C j ltac:(lia)) as (Z1 & Z2). rewrite ?Z1, ?Z2. cbn. rewrite !app_nil_r. split; auto; lia.
             ++ lvls. destruct (C lvl ltac:(lia)) as (Z1 & Z2). rewrite ?Z1, ?Z2. cbn. rewrite !app_nil_r. split; auto; lia.
             ++ intros j b Hj Hj' ->. cbn [kids flat_map tpos length]. rewrite app_nil_r.
                assert (j = S lvl) by lia. subst j. unfold upd. rewrite Nat.eqb_refl.
                replace (S lvl =? lvl) with false by (symmetry; apply Nat.eqb_neq; lia).
                rewrite !lb_here. cbn. split; auto. lia.
          -- rewrite LS, RS in * by lia.
             cbn [bind]. rewrite add_pos_mk by lia. cbn [bind]. do 2 f_equal. apply after_intro.
             ++ lvls. destruct (C j ltac:(lia)) as (Z1 & Z2). rewrite ?Z1, ?Z2. cbn. rewrite !app_nil_r. split; auto; lia.
             ++ lvls. destruct (C lvl ltac:(lia)) as (Z1 & Z2). rewrite ?Z1, ?Z2. cbn. rewrite !app_nil_r. split; auto; lia.
             ++ intros j b Hj Hj' ->. cbn [kids flat_map tpos length]. rewrite app_nil_r.
                unfold upd. replace (j =? lvl) with false by (symmetry; apply Nat.eqb_neq; lia).
                destruct (Nat.eqb_spec j (S lvl)).
                ** subst j. rewrite !lb_here. cbn. rewrite !app_nil_r. split; auto. lia.
                ** destruct (B j ltac:(lia)) as (Z1 & Z2). rewrite ?Z1, ?Z2. cbn. rewrite !app_nil_r. split; auto; lia.
        * rewrite vget_pos by lia. cbn [bind]. rewrite push_one_mk by lia. cbn [bind].
          rewrite push_one_mk by lia. cbn [bind]. rewrite add_pos_mk by lia. cbn [bind].
          do 2 f_equal. apply after_intro.
          -- lvls. rewrite !lb_below by lia. cbn. rewrite !app_nil_r. split; auto; lia.
          -- lvls. rewrite !lb_below by lia. cbn. rewrite !app_nil_r, <- app_assoc. cbn.
             split; [repeat f_equal|]; lia.
          -- lvls; subst; cbn [kids flat_map]; rewrite app_nil_r, tpos_app, app_length, app_assoc.
             split; auto. lia.
  Qed.

  Theorem compress_run_spec : forall t, wf height t -> plain t -> 0 < height -> R t 0 0 ->
    compress_run height getNode getLeft getRight =
    Ok (mk height (fun j => tpos 0 (bits (F (ucompress t) j)))
                  (fun j => length (bits (F (ucompress t) j)))).
  Proof.
    intros t Hwf Hp Hh Hr. unfold compress_run.
    replace (repeat [] height, repeat 0 height) with (mk height (fun _ => []) (fun _ => 0)).
    2:{ unfold mk. rewrite !map_const_seq. reflexivity. }
    rewrite (wc_spec t height 0 0) by (auto; lia). cbn [bind]. f_equal. unfold after.
    apply mk_ext; intros j Hj; cbn [app]; unfold lb; cbn [Nat.leb]; rewrite Nat.sub_0_r; reflexivity.
  Qed.
End WriteCompress.
