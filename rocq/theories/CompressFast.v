(** encodeRuns of the fast tries. *)

From Verif Require Import Base FlatTrie FastTrie Facts Tree Groups Reps Layout
  BuildFast DecodeFast Compress WriteOnes.

(** State after appending the levels of [t], on the levels before [n]. *)
Definition aft {A} (n : nat) (O : nat -> list nat) (P : nat -> nat) (t : tree A) (lvl : nat)
           (O' : nat -> list nat) (P' : nat -> nat) : Prop :=
  forall j, j < n -> O' j = O j ++ tpos (P j) (lb t lvl j) /\ P' j = P j + length (lb t lvl j).

Lemma aft_intro : forall A n O P (t : tree A) lvl O' P',
  (forall j, j < n -> j < lvl -> O' j = O j /\ P' j = P j) ->
  (lvl < n -> O' lvl = O lvl ++ tpos (P lvl) (code2 t) /\ P' lvl = P lvl + length (code2 t)) ->
  (forall j b, j < n -> lvl < j -> b = flat_map (fun c => lb c (S lvl) j) (kids t) ->
     O' j = O j ++ tpos (P j) b /\ P' j = P j + length b) ->
  aft n O P t lvl O' P'.
Proof.
  intros A n O P t lvl O' P' H1 H2 H3 j Hj.
  destruct (lt_eq_lt_dec j lvl) as [[Hlt|Heq]|Hgt];
   [rewrite lb_below by auto; destruct (H1 j Hj Hlt) as (E1 & E2)
   |subst; rewrite lb_here; destruct (H2 Hj) as (E1 & E2)
   |rewrite lb_above by auto; destruct (H3 j _ Hj Hgt eq_refl) as (E1 & E2)];
  rewrite ?E1, ?E2; cbn [tpos length]; rewrite ?app_nil_r, ?Nat.add_0_r; auto.
Qed.

Fixpoint leaves {A} (t : tree A) : list A :=
  match t with
  | Leaf a => [a]
  | Full => []
  | TL l => leaves l
  | TR r => leaves r
  | TB l r => leaves l ++ leaves r
  end.

Lemma leaves_level : forall A (t : tree A) d, wf d t -> fiter d [t] = map Leaf (leaves t).
Proof.
  induction t; intros d Hwf; cbn [wf] in Hwf.
  - subst. reflexivity.
  - destruct d; [lia|]. rewrite fiter_S. cbn [kids leaves map]. apply fiter_nil.
  - destruct d; [lia|]. rewrite fiter_S. cbn [kids leaves map]. apply IHt. tauto.
  - destruct d; [lia|]. rewrite fiter_S. cbn [kids leaves map]. apply IHt. tauto.
  - destruct d; [lia|]. rewrite fiter_S. cbn [kids leaves].
    change [t1; t2] with ([t1] ++ [t2]). rewrite fiter_app, map_app. cbn [pred] in Hwf.
    rewrite IHt1, IHt2; tauto.
Qed.

Definition xfull (lw : nat) (w : N) : bool := N.eqb w (wmax lw).
Definition xcompress (lw : nat) : tree N -> tree N := compress (xfull lw) false.
Definition xfullt (lw : nat) : tree N -> bool := full (xfull lw).

Lemma xfull_compress : forall lw d t, wf d t -> plain t -> xfullt lw t = true ->
  (d = 0 -> xcompress lw t = Leaf (wmax lw)) /\ (0 < d -> xcompress lw t = Full).
Proof.
  intros lw d t Hwf Hp Hf. unfold xfullt, xcompress in *.
  destruct t; cbn [full compress wf plain pred] in *; try discriminate; try tauto.
  - split; [|lia]. intros _. unfold xfull in Hf. apply N.eqb_eq in Hf. subst. auto.
  - apply andb_true_iff in Hf. destruct Hf as (F1 & F2). rewrite F1, F2. split; [lia|]. auto.
Qed.

Lemma xc_sub4_mk : forall h O P j, j < h -> xc_sub4 (mk h O P) j = Ok (mk h O (upd P j (P j - 4))).
Proof.
  intros. unfold xc_sub4, mk. cbn [fst snd]. rewrite vget_map by auto. cbn [bind].
  rewrite vset_map by auto. reflexivity.
Qed.

Section Fast.
  Variable t : fast.
  Let lw := x_lw t.
  Let h := x_height t.
  Let R := reps (fast_getNode t) (fast_getLeftChild t) (fast_getRightChild t)
                (fun id w => fast_getWord t id = Ok w).

  Lemma fast_wc_spec : forall T d lvl id O P ws fuel,
    wf d T -> plain T -> lvl + d + 1 = h -> d < fuel -> R T lvl id ->
    exists O' P',
      fast_writeCompress fuel t (mk h O P) ws lvl id false =
        Ok (mk h O' P', ws ++ leaves (xcompress lw T), xfullt lw T) /\
      aft (h - 1) O P (xcompress lw T) lvl O' P'.
  Proof.
    induction T as [w| |T IH|T IH|l IHl r IHr]; intros d lvl id O P ws fuel Hwf Hp Hlv Hf Hr;
      (destruct fuel as [|fuel]; [lia|]); cbn [fast_writeCompress]; fold h; fold lw.
    - cbn in Hwf. subst d. replace (S lvl =? h) with true by (symmetry; apply Nat.eqb_eq; lia).
      cbn in Hr. rewrite Hr. cbn [bind]. rewrite vget_pos by lia. cbn [bind].
      rewrite push_one_mk by lia. cbn [bind]. do 2 eexists. split.
      + unfold xfullt, xfull. cbn [full xcompress compress leaves]. unfold lw. destruct (N.eqb _ _); reflexivity.
      + apply aft_intro; [lvls|lia|lia].
    - cbn in Hp. tauto.
    - cbn in Hwf, Hp. destruct Hwf as (Hd & Hwf).
      replace (S lvl =? h) with false by (symmetry; apply Nat.eqb_neq; lia).
      destruct Hr as (Hn & c & Hc & Hr). rewrite Hn. cbn [bind]. rewrite vget_pos by lia. cbn [bind N.eqb Pos.eqb].
      rewrite Hc. cbn [bind]. rewrite vget_pos by lia. cbn [bind]. rewrite push_one_mk by lia. cbn [bind].
      destruct (IH (pred d) (S lvl) c (upd O lvl (O lvl ++ [P lvl])) P ws fuel) as (O' & P' & -> & HA);
        auto; try lia.
      cbn [bind]. rewrite add_pos_mk by lia. cbn [bind]. rewrite add_pos_mk by lia. cbn [bind].
      do 2 eexists. split; [reflexivity|]. unfold aft in HA. apply aft_intro.
      + lvls. destruct (HA j ltac:(lia)) as (-> & ->). rewrite lb_below by lia. lvls.
        cbn. rewrite app_nil_r. auto.
      + lvls. destruct (HA lvl ltac:(lia)) as (-> & ->). rewrite lb_below by lia. lvls.
        cbn. rewrite app_nil_r. split; auto; lia.
      + intros j b Hj Hl ->. destruct (HA j ltac:(lia)) as (E1 & E2). lvls. rewrite E1, E2.
        unfold xcompress. cbn [compress kids flat_map]. rewrite app_nil_r.
        lvls.
    - cbn in Hwf, Hp. destruct Hwf as (Hd & Hwf).
      replace (S lvl =? h) with false by (symmetry; apply Nat.eqb_neq; lia).
      destruct Hr as (Hn & c & Hc & Hr). rewrite Hn. cbn [bind]. rewrite vget_pos by lia. cbn [bind N.eqb Pos.eqb].
      rewrite add_pos_mk by lia. cbn [bind]. rewrite Hc. cbn [bind]. rewrite vget_pos by lia. cbn [bind].
      rewrite push_one_mk by lia. cbn [bind]. rewrite upd_same.
      destruct (IH (pred d) (S lvl) c (upd O lvl (O lvl ++ [P lvl + 1])) (upd P lvl (P lvl + 1)) ws fuel)
        as (O' & P' & -> & HA); auto; try lia.
      cbn [bind]. rewrite add_pos_mk by lia. cbn [bind].
      do 2 eexists. split; [reflexivity|]. unfold aft in HA. apply aft_intro.
      + lvls. destruct (HA j ltac:(lia)) as (-> & ->). rewrite lb_below by lia. lvls.
        cbn. rewrite app_nil_r. auto.
      + lvls. destruct (HA lvl ltac:(lia)) as (-> & ->). rewrite lb_below by lia. lvls.
        cbn. rewrite app_nil_r. split; [repeat f_equal|]; lia.
      + intros j b Hj Hl ->. destruct (HA j ltac:(lia)) as (E1 & E2). lvls. rewrite E1, E2.
        unfold xcompress. cbn [compress kids flat_map]. rewrite app_nil_r.
        lvls.
    - cbn in Hwf, Hp. destruct Hwf as (Hd & W1 & W2), Hp as (P1 & P2).
      replace (S lvl =? h) with false by (symmetry; apply Nat.eqb_neq; lia).
      destruct Hr as (Hn & (c & Hc & Hr1 & Hr2) & _). rewrite Hn. cbn [bind]. rewrite vget_pos by lia.
      cbn [bind N.eqb Pos.eqb]. rewrite Hc. cbn [bind].
      destruct (IHl (pred d) (S lvl) c O P ws fuel) as (O1 & Q1 & -> & H1); auto; try lia. cbn [bind].
      destruct (IHr (pred d) (S lvl) (c + 1) O1 Q1 (ws ++ leaves (xcompress lw l)) fuel)
        as (O2 & Q2 & -> & H2); auto; try lia. cbn [bind].
      assert (HA : forall j, j < h - 1 ->
        O2 j = O j ++ tpos (P j) (lb (xcompress lw l) (S lvl) j ++ lb (xcompress lw r) (S lvl) j) /\
        Q2 j = P j + length (lb (xcompress lw l) (S lvl) j ++ lb (xcompress lw r) (S lvl) j)).
      { intros j Hj. destruct (H1 j Hj) as (A1 & A2). destruct (H2 j Hj) as (B1 & B2).
        rewrite B1, B2, A1, A2, tpos_app, app_length, app_assoc. split; auto. lia. }
      assert (EX : xcompress lw (TB l r) = if (xfullt lw l && xfullt lw r)%bool then Full
                     else TB (xcompress lw l) (xcompress lw r)).
      { unfold xcompress, xfullt. cbn [compress andb negb]. rewrite andb_true_r. reflexivity. }
      change (xfullt lw (TB l r)) with (xfullt lw l && xfullt lw r)%bool. rewrite EX. clear EX.
      destruct (xfullt lw l && xfullt lw r)%bool eqn:EF.
      + apply andb_true_iff in EF. destruct EF as (F1 & F2).
        destruct (xfull_compress lw (pred d) l W1 P1 F1) as (L0 & LS).
        destruct (xfull_compress lw (pred d) r W2 P2 F2) as (R0 & RS).
        assert (EW : (if S (S lvl) =? h
                 then for_loop 2 0 (fun _ ws => vpop ws)
                        ((ws ++ leaves (xcompress lw l)) ++ leaves (xcompress lw r))
                 else Ok ((ws ++ leaves (xcompress lw l)) ++ leaves (xcompress lw r))) = Ok ws).
        { destruct (Nat.eqb_spec (S (S lvl)) h).
          - rewrite L0, R0 by lia. cbn [leaves for_loop].
            assert (EP : forall (x : N) v, vpop (v ++ [x]) = Ok v).
            { intros x v. unfold vpop. rewrite removelast_last. destruct v; auto. }
            rewrite EP. cbn [bind]. rewrite EP. reflexivity.
          - rewrite LS, RS by lia. cbn [leaves]. rewrite !app_nil_r. auto. }
        rewrite EW. cbn [bind]. rewrite xc_sub4_mk by lia. cbn [bind]. rewrite add_pos_mk by lia. cbn [bind].
        do 2 eexists. split.
        { cbn [leaves]. rewrite app_nil_r. reflexivity. }
        apply aft_intro.
        * lvls. destruct (HA j ltac:(lia)) as (-> & ->). rewrite !lb_below by lia. cbn.
          rewrite app_nil_r. split; auto; lia.
        * lvls. destruct (HA lvl ltac:(lia)) as (-> & ->). rewrite !lb_below by lia. cbn.
          rewrite app_nil_r. split; auto; lia.
        * intros j b Hj Hl ->. cbn [kids flat_map tpos length]. rewrite app_nil_r, Nat.add_0_r.
          destruct (HA j ltac:(lia)) as (E1 & E2). rewrite LS, RS in * by lia.
          destruct (Nat.eq_dec j (S lvl)) as [->|Ne].
          -- rewrite !lb_here in *. cbn in E1, E2. rewrite app_nil_r in E1.
             unfold upd. rewrite Nat.eqb_refl. replace (S lvl =? lvl) with false by (symmetry; apply Nat.eqb_neq; lia).
             rewrite E2. split; auto. lia.
          -- rewrite !lb_Full in * by lia. cbn in E1, E2. rewrite app_nil_r in E1.
             unfold upd. replace (j =? S lvl) with false by (symmetry; apply Nat.eqb_neq; lia).
             replace (j =? lvl) with false by (symmetry; apply Nat.eqb_neq; lia).
             rewrite E2. split; auto.
      + rewrite vget_pos by lia. cbn [bind]. rewrite push_one_mk by lia. cbn [bind].
        rewrite push_one_mk by lia. cbn [bind]. rewrite add_pos_mk by lia. cbn [bind].
        do 2 eexists. split.
        { cbn [leaves]. rewrite app_assoc. reflexivity. }
        apply aft_intro.
        * lvls. destruct (HA j ltac:(lia)) as (-> & ->). rewrite !lb_below by lia. cbn.
          rewrite app_nil_r. split; auto; lia.
        * lvls. destruct (HA lvl ltac:(lia)) as (E1 & E2). rewrite E1, E2. rewrite !lb_below by lia. cbn.
          rewrite app_nil_r, <- app_assoc. cbn. split; [repeat f_equal|]; lia.
        * intros j b Hj Hl ->. cbn [kids flat_map]. rewrite app_nil_r.
          destruct (HA j ltac:(lia)) as (E1 & E2). lvls.
  Qed.

  (** writeOnes on the levels before the words. *)
  Lemma fast_ones_spec : forall (T : tree N) O P n N0,
    aft (h - 1) (fun _ => []) (fun _ => 0) T 0 O P ->
    n <= h - 1 -> length (prebits T n) <= N0 ->
    for_loop n 0 (fun level '(bt, glp) =>
      let* os := vget (map O (seq 0 h)) level in
      let* bt := set_ones bt glp os in
      let* p := vget (map P (seq 0 h)) level in
      Ok (bt, glp + p)) (bv_make N0, 0)
    = Ok (prebits T n ++ repeat false (N0 - length (prebits T n)), length (prebits T n)).
  Proof.
    intros T O P n N0 HA. induction n; intros Hn HN.
    - cbn. rewrite Nat.sub_0_r. auto.
    - cbn [prebits] in HN. rewrite app_length in HN. rewrite for_loop_S, IHn by lia. cbn [bind].
      destruct (HA n ltac:(lia)) as (EO & EP). unfold lb in EO, EP. cbn [Nat.leb] in EO, EP.
      rewrite Nat.sub_0_r in EO, EP. fold (F T n) in EO, EP. cbn [app] in EO.
      rewrite !vget_map by lia. cbn [bind]. rewrite EO, EP.
      set (B := bits (F T n)) in *.
      replace (N0 - length (prebits T n)) with (length B + (N0 - length (prebits T n) - length B)) by lia.
      rewrite repeat_app, set_ones_spec by lia. cbn [bind prebits]. fold B.
      rewrite app_length, <- app_assoc. repeat (f_equal; try lia).
  Qed.

  Lemma fast_count_spec : forall (T : tree N) O P n,
    aft (h - 1) (fun _ => []) (fun _ => 0) T 0 O P -> n <= h - 1 ->
    exists k, count_levels n (map P (seq 0 h)) = Ok (length (prebits T n), k).
  Proof.
    intros T O P n HA. induction n; intros Hn.
    - exists 0. reflexivity.
    - destruct (IHn ltac:(lia)) as (k & E). unfold count_levels in *. rewrite for_loop_S, E. cbn [bind].
      rewrite vget_map by lia. cbn [bind prebits].
      destruct (HA n ltac:(lia)) as (_ & EP). unfold lb in EP. cbn [Nat.leb] in EP.
      rewrite Nat.sub_0_r in EP. fold (F T n) in EP. rewrite EP, app_length. eexists. reflexivity.
  Qed.

  Theorem fast_encodeRuns_spec : forall T, fast_layout t h T -> plain T ->
    exists t', fast_encodeRuns t = Ok t' /\ fast_layout t' h (xcompress lw T) /\
      x_lw t' = lw /\ x_height_u t' = x_height_u t /\ x_runs_encoded t' = true /\
      x_empty_trie t' = x_empty_trie t.
  Proof.
    intros T L Hp. assert (Hr := fast_reps _ _ _ L). destruct L as (H1 & Hwf & _).
    unfold fast_encodeRuns. fold h.
    replace (repeat [] h, repeat 0 h) with (mk h (fun _ => []) (fun _ => 0)).
    2:{ unfold mk. rewrite !map_const_seq. reflexivity. }
    destruct (fast_wc_spec T (h - 1) 0 0 (fun _ => []) (fun _ => 0) [] (S h)) as (O' & P' & -> & HA);
      auto; try lia.
    cbn [bind]. unfold fast_writeOnes, mk. fold h.
    destruct (fast_count_spec _ _ _ (h - 1) HA ltac:(lia)) as (k & ->). cbn [bind].
    rewrite (fast_ones_spec _ _ _ (h - 1) _ HA) by lia. cbn [bind].
    rewrite Nat.sub_diag. cbn [repeat]. rewrite app_nil_r.
    eexists. split; [reflexivity|].
    assert (Hwf' : wf (h - 1) (xcompress lw T)) by (apply compress_wf; auto).
    unfold fast_layout. cbn. repeat split; auto.
    apply leaves_level. auto.
  Qed.
End Fast.

Lemma xfull_mem : forall lw w, xfull lw w = true -> forall x, wmem lw w x = true.
Proof.
  intros lw w H x. unfold xfull in H. apply N.eqb_eq in H. subst. unfold wmem, wmax, wbits.
  apply N.ones_spec_low. exact (low_lt lw x).
Qed.
