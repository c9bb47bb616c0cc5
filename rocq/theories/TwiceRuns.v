(** encodeRuns on a trie whose runs are already encoded: the nodes of the runs are dropped. *)

From Verif Require Import Base FlatTrie LevelTrie FastTrie Facts Tree Groups Reps Layout
  BuildFlat BuildLevel BuildFast DecodeFast Compress WriteOnes CompressFast InterTight.

(** Bits of a level without the nodes of the runs. *)
Definition ncode {A} (t : tree A) : list bool := match t with Full => [] | _ => code2 t end.
Definition nbits {A} (F : list (tree A)) : list bool := flat_map ncode F.
Definition nb {A} (t : tree A) (lvl j : nat) : list bool :=
  if lvl <=? j then nbits (fiter (j - lvl) [t]) else [].

Lemma nbits_app : forall A (F G : list (tree A)), nbits (F ++ G) = nbits F ++ nbits G.
Proof. intros; apply flat_map_app'. Qed.

Section NB.
  Context {A : Type}.

  Lemma nb_here : forall (t : tree A) lvl, nb t lvl lvl = ncode t.
  Proof. intros. unfold nb. rewrite Nat.leb_refl, Nat.sub_diag. cbn. apply app_nil_r. Qed.

  Lemma nb_below : forall (t : tree A) lvl j, j < lvl -> nb t lvl j = [].
  Proof. intros. unfold nb. apply Nat.leb_gt in H. rewrite H. auto. Qed.

  Lemma nb_above : forall (t : tree A) lvl j, lvl < j ->
    nb t lvl j = flat_map (fun c => nb c (S lvl) j) (kids t).
  Proof.
    intros. unfold nb. replace (lvl <=? j) with true by (symmetry; apply Nat.leb_le; lia).
    replace (S lvl <=? j) with true by (symmetry; apply Nat.leb_le; lia).
    replace (j - lvl) with (S (j - S lvl)) by lia. rewrite fiter_S.
    destruct t; cbn [kids flat_map].
    - rewrite fiter_nil; auto.
    - rewrite fiter_nil; auto.
    - rewrite app_nil_r; auto.
    - rewrite app_nil_r; auto.
    - rewrite app_nil_r. change [t1; t2] with ([t1] ++ [t2]). rewrite fiter_app, nbits_app. auto.
  Qed.
End NB.

(** The levels before [n] after appending those of [t]. *)
Definition naft {A} (n : nat) (O : nat -> list nat) (P : nat -> nat) (t : tree A) (lvl : nat)
           (O' : nat -> list nat) (P' : nat -> nat) : Prop :=
  forall j, j < n -> O' j = O j ++ tpos (P j) (nb t lvl j) /\ P' j = P j + length (nb t lvl j).

Lemma naft_intro : forall A n O P (t : tree A) lvl O' P',
  (forall j, j < n -> j < lvl -> O' j = O j /\ P' j = P j) ->
  (lvl < n -> O' lvl = O lvl ++ tpos (P lvl) (ncode t) /\ P' lvl = P lvl + length (ncode t)) ->
  (forall j b, j < n -> lvl < j -> b = flat_map (fun c => nb c (S lvl) j) (kids t) ->
     O' j = O j ++ tpos (P j) b /\ P' j = P j + length b) ->
  naft n O P t lvl O' P'.
Proof.
  intros A n O P t lvl O' P' H1 H2 H3 j Hj.
  destruct (lt_eq_lt_dec j lvl) as [[Hlt|Heq]|Hgt];
   [rewrite nb_below by auto; destruct (H1 j Hj Hlt) as (E1 & E2)
   |subst; rewrite nb_here; destruct (H2 Hj) as (E1 & E2)
   |rewrite nb_above by auto; destruct (H3 j _ Hj Hgt eq_refl) as (E1 & E2)];
  rewrite ?E1, ?E2; cbn [tpos length]; rewrite ?app_nil_r, ?Nat.add_0_r; auto.
Qed.

(** * Trees that a second encoding does not compress further *)

Section Settled.
  Context {A : Type}.
  Variable lfull : A -> bool.
  Variable keep : bool.

  (** Full without a run below. *)
  Fixpoint nfull (t : tree A) : bool :=
    match t with
    | Leaf a => lfull a
    | TB l r => nfull l && nfull r
    | _ => false
    end.

  Fixpoint settled (t : tree A) : Prop :=
    match t with
    | TL l => settled l
    | TR r => settled r
    | TB l r => ((nfull l && nfull r)%bool = true -> keep = true /\ is_leaf l = true /\ is_leaf r = true) /\
        settled l /\ settled r
    | _ => True
    end.

  (** Runs stand for at least four values when the last level is kept. *)
  Fixpoint deep (d : nat) (t : tree A) : Prop :=
    match t with
    | Full => keep = true -> 2 <= d
    | TL l => deep (pred d) l
    | TR r => deep (pred d) r
    | TB l r => deep (pred d) l /\ deep (pred d) r
    | _ => True
    end.

  Lemma nfull_full : forall t, nfull t = true -> full lfull t = true.
  Proof.
    induction t as [a| |t IH|t IH|l IHl r IHr]; cbn; auto; try discriminate.
    intros H. apply andb_prop in H. destruct H. rewrite IHl, IHr; auto.
  Qed.

  Lemma is_leaf_compress : forall t, is_leaf (compress lfull keep t) = is_leaf t.
  Proof. destruct t; auto. cbn [compress]. destruct (_ && _)%bool; auto. Qed.

  Lemma compress_settled : forall t, plain t -> settled (compress lfull keep t).
  Proof.
    induction t as [a| |t IH|t IH|l IHl r IHr]; cbn [plain compress settled]; auto.
    intros (P1 & P2).
    destruct (full lfull l && full lfull r && negb (keep && is_leaf l && is_leaf r))%bool eqn:E; cbn [settled]; auto.
    split; [|auto]. intros H. apply andb_prop in H. destruct H as (H1 & H2).
    apply nfull_full in H1, H2. rewrite full_of_compress in H1, H2. rewrite H1, H2 in E. cbn [andb] in E.
    rewrite !is_leaf_compress. destruct keep, (is_leaf l), (is_leaf r); try discriminate; auto.
  Qed.

  Lemma compress_deep : forall t d, wf d t -> plain t -> deep d (compress lfull keep t).
  Proof.
    induction t as [a| |t IH|t IH|l IHl r IHr]; intros d; cbn [wf plain compress deep]; auto.
    - intros _ [].
    - intros (_ & W) P. auto.
    - intros (_ & W) P. auto.
    - intros (H0 & W1 & W2) (P1 & P2).
      destruct (full lfull l && full lfull r && negb (keep && is_leaf l && is_leaf r))%bool eqn:E; cbn [deep]; auto.
      intros ->. destruct d as [|[|d]]; try lia. cbn [pred] in *.
      apply wf_leaf in W1, W2. destruct W1 as (a & ->), W2 as (b & ->). rewrite andb_false_r in E. discriminate.
  Qed.
End Settled.

(** * The traversal of the flat and level-wise tries *)

Section WriteCompress.
  Variable height : nat.
  Variable getNode : nat -> nat -> result N.
  Variable getLeft getRight : nat -> nat -> result nat.
  Let R := reps getNode getLeft getRight uok.

  Lemma plain_1 : forall t : tree unit, wf 1 t -> deep true 1 t -> plain t.
  Proof.
    destruct t as [a| |l|r|l r]; cbn; auto.
    - intros _ H. specialize (H eq_refl). lia.
    - intros (_ & W) _. apply wf_leaf in W. destruct W as (? & ->). exact I.
    - intros (_ & W) _. apply wf_leaf in W. destruct W as (? & ->). exact I.
    - intros (_ & W1 & W2) _. apply wf_leaf in W1, W2. destruct W1 as (? & ->), W2 as (? & ->). split; exact I.
  Qed.

  Lemma plain_1_same : forall t : tree unit, wf 1 t -> plain t ->
    ucompress t = t /\ ufullt t = nfull ufull t /\ forall lvl j, lb t lvl j = nb t lvl j.
  Proof.
    destruct t as [a| |l|r|l r]; cbn; intros W P; try tauto; try lia.
    - destruct W as (_ & W). apply wf_leaf in W. destruct W as (? & ->). split; auto. split; auto.
      intros lvl j. destruct (lt_eq_lt_dec j lvl) as [[H|H]|H].
      + rewrite lb_below, nb_below by auto. auto.
      + subst. rewrite lb_here, nb_here. auto.
      + rewrite lb_above, nb_above by auto. cbn. rewrite lb_leaf.
        destruct (lt_eq_lt_dec j (S lvl)) as [[?|?]|?]; [lia|subst; rewrite nb_here; auto|rewrite nb_above by auto; auto].
    - destruct W as (_ & W). apply wf_leaf in W. destruct W as (? & ->). split; auto. split; auto.
      intros lvl j. destruct (lt_eq_lt_dec j lvl) as [[H|H]|H].
      + rewrite lb_below, nb_below by auto. auto.
      + subst. rewrite lb_here, nb_here. auto.
      + rewrite lb_above, nb_above by auto. cbn. rewrite lb_leaf.
        destruct (lt_eq_lt_dec j (S lvl)) as [[?|?]|?]; [lia|subst; rewrite nb_here; auto|rewrite nb_above by auto; auto].
    - destruct W as (_ & W1 & W2). apply wf_leaf in W1, W2. destruct W1 as (? & ->), W2 as (? & ->).
      split; auto. split; auto.
      intros lvl j. destruct (lt_eq_lt_dec j lvl) as [[H|H]|H].
      + rewrite lb_below, nb_below by auto. auto.
      + subst. rewrite lb_here, nb_here. auto.
      + rewrite lb_above, nb_above by auto. cbn. rewrite !lb_leaf.
        destruct (lt_eq_lt_dec j (S lvl)) as [[?|?]|?];
          [lia|subst; rewrite !nb_here; auto|rewrite !nb_above by auto; auto].
  Qed.

  Lemma mk_eta : forall h O P O' P', mk h O P = mk h O' P' ->
    forall j, j < h -> O j = O' j /\ P j = P' j.
  Proof.
    intros h O P O' P' E j Hj. unfold mk in E. injection E as E1 E2.
    assert (G1 := vget_map _ O h j Hj). assert (G2 := vget_map _ P h j Hj).
    rewrite E1, vget_map in G1 by auto. rewrite E2, vget_map in G2 by auto.
    injection G1 as ->. injection G2 as ->. auto.
  Qed.

  Lemma wc_again : forall t d lvl id O P fuel,
    wf d t -> settled ufull true t -> deep true d t -> 0 < d -> lvl + d = height -> d <= fuel -> R t lvl id ->
    exists O' P',
      writeCompressTrie height getNode getLeft getRight fuel (mk height O P) lvl id false =
        Ok (mk height O' P', nfull ufull t) /\ naft height O P t lvl O' P'.
  Proof.
    assert (Hcode : forall t lvl id, R t lvl id -> is_leaf t = false ->
              getNode id lvl = Ok (node_code (has_left t) (has_right t))).
    { intros t lvl id Hr Hl. destruct t; try discriminate; cbn in Hr; try apply Hr; auto. }
    assert (Last : forall t lvl id O P fuel, wf 1 t -> deep true 1 t -> S lvl = height -> R t lvl id ->
      exists O' P',
        writeCompressTrie height getNode getLeft getRight (S fuel) (mk height O P) lvl id false =
          Ok (mk height O' P', nfull ufull t) /\ naft height O P t lvl O' P').
    { intros t lvl id O P fuel W D E Hr. cbn [writeCompressTrie].
      rewrite (Hcode _ _ _ Hr (wf_not_leaf 1 t ltac:(lia) W)). cbn [bind].
      replace (S lvl =? height) with true by (symmetry; apply Nat.eqb_eq; auto).
      assert (Pl := plain_1 t W D).
      destruct (plain_1_same t W Pl) as (E1 & E2 & E3).
      rewrite (wc_leaf_spec height getNode getLeft getRight t O P lvl _ W Pl) by (auto; lia). rewrite E1, E2. unfold after.
      do 2 eexists. split; [reflexivity|]. intros j Hj. rewrite E3. auto. }
    induction t as [a| |t IH|t IH|l IHl r IHr]; intros d lvl id O P fuel Hwf Hs Hdp Hd Hlv Hf Hr.
    - cbn in Hwf. lia.
    - destruct fuel as [|fuel]; [lia|]. cbn [writeCompressTrie].
      cbn in Hdp. specialize (Hdp eq_refl). cbn in Hr. rewrite Hr. cbn [bind].
      replace (S lvl =? height) with false by (symmetry; apply Nat.eqb_neq; lia).
      rewrite vget_pos by lia. cbn [bind N.eqb]. do 2 eexists. split; [reflexivity|].
      apply naft_intro; intros; subst; cbn; rewrite ?app_nil_r; auto.
    - destruct fuel as [|fuel]; [lia|]. destruct (Nat.eq_dec (S lvl) height) as [E|E].
      { replace d with 1 in * by lia. apply Last; auto. }
      cbn [writeCompressTrie]. rewrite (Hcode _ _ _ Hr eq_refl). cbn [bind].
      replace (S lvl =? height) with false by (symmetry; apply Nat.eqb_neq; auto).
      destruct Hr as (Hn & c & Hc & Hr). cbn in Hwf, Hs, Hdp. destruct Hwf as (_ & Hwf).
      cbn [has_left has_right]. unfold node_code, b2N.
      cbn [N.shiftl N.lor N.eqb Pos.eqb Pos.lor Pos.shiftl Pos.iter orb].
      rewrite vget_pos by lia. cbn [bind]. rewrite Hc. cbn [bind].
      rewrite vget_pos by lia. cbn [bind]. rewrite push_one_mk by lia. cbn [bind].
      destruct (IH (pred d) (S lvl) c (upd O lvl (O lvl ++ [P lvl])) P fuel) as (O' & P' & -> & HA); auto; try lia.
      cbn [bind]. rewrite add_pos_mk by lia. cbn [bind]. rewrite add_pos_mk by lia. cbn [bind].
      do 2 eexists. split; [reflexivity|]. unfold naft in HA. apply naft_intro.
      + lvls. destruct (HA j ltac:(lia)) as (-> & ->). rewrite nb_below by lia. lvls.
        cbn. rewrite app_nil_r. auto.
      + lvls. destruct (HA lvl ltac:(lia)) as (-> & ->). rewrite nb_below by lia. lvls.
        cbn. rewrite app_nil_r. split; auto; lia.
      + intros j b Hj Hl ->. destruct (HA j ltac:(lia)) as (E1 & E2). lvls. rewrite E1, E2.
        cbn [kids flat_map]. rewrite app_nil_r. lvls.
    - destruct fuel as [|fuel]; [lia|]. destruct (Nat.eq_dec (S lvl) height) as [E|E].
      { replace d with 1 in * by lia. apply Last; auto. }
      cbn [writeCompressTrie]. rewrite (Hcode _ _ _ Hr eq_refl). cbn [bind].
      replace (S lvl =? height) with false by (symmetry; apply Nat.eqb_neq; auto).
      destruct Hr as (Hn & c & Hc & Hr). cbn in Hwf, Hs, Hdp. destruct Hwf as (_ & Hwf).
      cbn [has_left has_right]. unfold node_code, b2N.
      cbn [N.shiftl N.lor N.eqb Pos.eqb Pos.lor Pos.shiftl Pos.iter orb].
      rewrite vget_pos by lia. cbn [bind]. rewrite add_pos_mk by lia. cbn [bind]. rewrite Hc.
      cbn [bind]. rewrite vget_pos by lia. cbn [bind]. rewrite push_one_mk by lia. cbn [bind]. rewrite upd_same.
      destruct (IH (pred d) (S lvl) c (upd O lvl (O lvl ++ [P lvl + 1])) (upd P lvl (P lvl + 1)) fuel)
        as (O' & P' & -> & HA); auto; try lia.
      cbn [bind]. rewrite add_pos_mk by lia. cbn [bind].
      do 2 eexists. split; [reflexivity|]. unfold naft in HA. apply naft_intro.
      + lvls. destruct (HA j ltac:(lia)) as (-> & ->). rewrite nb_below by lia. lvls.
        cbn. rewrite app_nil_r. auto.
      + lvls. destruct (HA lvl ltac:(lia)) as (-> & ->). rewrite nb_below by lia. lvls.
        cbn. rewrite app_nil_r. split; [repeat f_equal|]; lia.
      + intros j b Hj Hl ->. destruct (HA j ltac:(lia)) as (E1 & E2). lvls. rewrite E1, E2.
        cbn [kids flat_map]. rewrite app_nil_r. lvls.
    - destruct fuel as [|fuel]; [lia|]. destruct (Nat.eq_dec (S lvl) height) as [E|E].
      { replace d with 1 in * by lia. apply Last; auto. }
      cbn [writeCompressTrie]. rewrite (Hcode _ _ _ Hr eq_refl). cbn [bind].
      replace (S lvl =? height) with false by (symmetry; apply Nat.eqb_neq; auto).
      destruct Hr as (Hn & (c & Hc & Hr1 & Hr2) & _). cbn in Hwf, Hs, Hdp.
      destruct Hwf as (_ & W1 & W2), Hs as (NF & S1 & S2), Hdp as (D1 & D2).
      cbn [has_left has_right]. unfold node_code, b2N.
      cbn [N.shiftl N.lor N.eqb Pos.eqb Pos.lor Pos.shiftl Pos.iter orb].
      rewrite vget_pos by lia. cbn [bind]. rewrite Hc. cbn [bind].
      destruct (IHl (pred d) (S lvl) c O P fuel) as (O1 & Q1 & -> & H1); auto; try lia. cbn [bind].
      destruct (IHr (pred d) (S lvl) (c + 1) O1 Q1 fuel) as (O2 & Q2 & -> & H2); auto; try lia. cbn [bind].
      cbn [nfull]. destruct (nfull ufull l && nfull ufull r)%bool eqn:EF.
      { exfalso. destruct (NF eq_refl) as (_ & Hl & _). rewrite (wf_not_leaf (pred d) l) in Hl by (auto; lia). discriminate. }
      assert (HA : forall j, j < height ->
        O2 j = O j ++ tpos (P j) (nb l (S lvl) j ++ nb r (S lvl) j) /\
        Q2 j = P j + length (nb l (S lvl) j ++ nb r (S lvl) j)).
      { intros j Hj. destruct (H1 j Hj) as (A1 & A2). destruct (H2 j Hj) as (B1 & B2).
        rewrite B1, B2, A1, A2, tpos_app, app_length, app_assoc. split; auto. lia. }
      rewrite vget_pos by lia. cbn [bind]. rewrite push_one_mk by lia. cbn [bind].
      rewrite push_one_mk by lia. cbn [bind]. rewrite add_pos_mk by lia. cbn [bind].
      do 2 eexists. split; [reflexivity|]. apply naft_intro.
      + lvls. destruct (HA j ltac:(lia)) as (-> & ->). rewrite !nb_below by lia. cbn.
        rewrite app_nil_r. split; auto; lia.
      + lvls. destruct (HA lvl ltac:(lia)) as (E1 & E2). rewrite E1, E2. rewrite !nb_below by lia. cbn.
        rewrite app_nil_r, <- app_assoc. cbn. split; [repeat f_equal|]; lia.
      + intros j b Hj Hl ->. cbn [kids flat_map]. rewrite app_nil_r.
        destruct (HA j ltac:(lia)) as (E1 & E2). lvls.
  Qed.

  Theorem compress_run_again : forall t, wf height t -> settled ufull true t -> deep true height t ->
    0 < height -> R t 0 0 ->
    compress_run height getNode getLeft getRight =
    Ok (mk height (fun j => tpos 0 (nbits (F t j))) (fun j => length (nbits (F t j)))).
  Proof.
    intros t Hwf Hs Hdp Hh Hr. unfold compress_run.
    replace (repeat [] height, repeat 0 height) with (mk height (fun _ => []) (fun _ => 0)).
    2:{ unfold mk. rewrite !map_const_seq. reflexivity. }
    destruct (wc_again t height 0 0 (fun _ => []) (fun _ => 0) (S height)) as (O' & P' & -> & HA); auto; try lia.
    cbn [bind]. f_equal. apply mk_ext; intros j Hj; destruct (HA j Hj) as (E1 & E2); rewrite ?E1, ?E2; cbn [app];
      unfold nb; cbn [Nat.leb]; rewrite Nat.sub_0_r; reflexivity.
  Qed.
End WriteCompress.

(** * The traversal of the fast tries *)

Section Fast.
  Variable t : fast.
  Let lw := x_lw t.
  Let h := x_height t.
  Let R := reps (fast_getNode t) (fast_getLeftChild t) (fast_getRightChild t)
                (fun id w => fast_getWord t id = Ok w).

  Lemma fast_wc_again : forall T d lvl id O P ws fuel,
    wf d T -> settled (xfull lw) false T -> lvl + d + 1 = h -> d < fuel -> R T lvl id ->
    exists O' P',
      fast_writeCompress fuel t (mk h O P) ws lvl id false =
        Ok (mk h O' P', ws ++ leaves T, nfull (xfull lw) T) /\
      naft (h - 1) O P T lvl O' P'.
  Proof.
    induction T as [w| |T IH|T IH|l IHl r IHr]; intros d lvl id O P ws fuel Hwf Hp Hlv Hf Hr;
      (destruct fuel as [|fuel]; [lia|]); cbn [fast_writeCompress]; fold h; fold lw.
    - cbn in Hwf. subst d. replace (S lvl =? h) with true by (symmetry; apply Nat.eqb_eq; lia).
      cbn in Hr. rewrite Hr. cbn [bind]. rewrite vget_pos by lia. cbn [bind].
      rewrite push_one_mk by lia. cbn [bind]. do 2 eexists. split.
      + unfold xfull. cbn [nfull leaves]. unfold lw. destruct (N.eqb _ _); reflexivity.
      + apply naft_intro; [lvls|lia|lia].
    - cbn in Hwf. replace (S lvl =? h) with false by (symmetry; apply Nat.eqb_neq; lia).
      cbn in Hr. rewrite Hr. cbn [bind]. rewrite vget_pos by lia. cbn [bind N.eqb leaves nfull].
      rewrite app_nil_r. do 2 eexists. split; [reflexivity|].
      apply naft_intro; intros; subst; cbn; rewrite ?app_nil_r; auto.
    - cbn in Hwf, Hp. destruct Hwf as (Hd & Hwf).
      replace (S lvl =? h) with false by (symmetry; apply Nat.eqb_neq; lia).
      destruct Hr as (Hn & c & Hc & Hr). rewrite Hn. cbn [bind]. rewrite vget_pos by lia. cbn [bind N.eqb Pos.eqb].
      rewrite Hc. cbn [bind]. rewrite vget_pos by lia. cbn [bind]. rewrite push_one_mk by lia. cbn [bind].
      destruct (IH (pred d) (S lvl) c (upd O lvl (O lvl ++ [P lvl])) P ws fuel) as (O' & P' & -> & HA);
        auto; try lia.
      cbn [bind]. rewrite add_pos_mk by lia. cbn [bind]. rewrite add_pos_mk by lia. cbn [bind].
      do 2 eexists. split; [reflexivity|]. unfold naft in HA. apply naft_intro.
      + lvls. destruct (HA j ltac:(lia)) as (-> & ->). rewrite nb_below by lia. lvls.
        cbn. rewrite app_nil_r. auto.
      + lvls. destruct (HA lvl ltac:(lia)) as (-> & ->). rewrite nb_below by lia. lvls.
        cbn. rewrite app_nil_r. split; auto; lia.
      + intros j b Hj Hl ->. destruct (HA j ltac:(lia)) as (E1 & E2). lvls. rewrite E1, E2.
        cbn [kids flat_map]. rewrite app_nil_r. lvls.
    - cbn in Hwf, Hp. destruct Hwf as (Hd & Hwf).
      replace (S lvl =? h) with false by (symmetry; apply Nat.eqb_neq; lia).
      destruct Hr as (Hn & c & Hc & Hr). rewrite Hn. cbn [bind]. rewrite vget_pos by lia. cbn [bind N.eqb Pos.eqb].
      rewrite add_pos_mk by lia. cbn [bind]. rewrite Hc. cbn [bind]. rewrite vget_pos by lia. cbn [bind].
      rewrite push_one_mk by lia. cbn [bind]. rewrite upd_same.
      destruct (IH (pred d) (S lvl) c (upd O lvl (O lvl ++ [P lvl + 1])) (upd P lvl (P lvl + 1)) ws fuel)
        as (O' & P' & -> & HA); auto; try lia.
      cbn [bind]. rewrite add_pos_mk by lia. cbn [bind].
      do 2 eexists. split; [reflexivity|]. unfold naft in HA. apply naft_intro.
      + lvls. destruct (HA j ltac:(lia)) as (-> & ->). rewrite nb_below by lia. lvls.
        cbn. rewrite app_nil_r. auto.
      + lvls. destruct (HA lvl ltac:(lia)) as (-> & ->). rewrite nb_below by lia. lvls.
        cbn. rewrite app_nil_r. split; [repeat f_equal|]; lia.
      + intros j b Hj Hl ->. destruct (HA j ltac:(lia)) as (E1 & E2). lvls. rewrite E1, E2.
        cbn [kids flat_map]. rewrite app_nil_r. lvls.
    - cbn in Hwf, Hp. destruct Hwf as (Hd & W1 & W2), Hp as (NF & P1 & P2).
      replace (S lvl =? h) with false by (symmetry; apply Nat.eqb_neq; lia).
      destruct Hr as (Hn & (c & Hc & Hr1 & Hr2) & _). rewrite Hn. cbn [bind]. rewrite vget_pos by lia.
      cbn [bind N.eqb Pos.eqb]. rewrite Hc. cbn [bind].
      destruct (IHl (pred d) (S lvl) c O P ws fuel) as (O1 & Q1 & -> & H1); auto; try lia. cbn [bind].
      destruct (IHr (pred d) (S lvl) (c + 1) O1 Q1 (ws ++ leaves l) fuel)
        as (O2 & Q2 & -> & H2); auto; try lia. cbn [bind].
      cbn [nfull]. destruct (nfull (xfull lw) l && nfull (xfull lw) r)%bool eqn:EF.
      { exfalso. destruct (NF eq_refl) as (? & _). discriminate. }
      assert (HA : forall j, j < h - 1 ->
        O2 j = O j ++ tpos (P j) (nb l (S lvl) j ++ nb r (S lvl) j) /\
        Q2 j = P j + length (nb l (S lvl) j ++ nb r (S lvl) j)).
      { intros j Hj. destruct (H1 j Hj) as (A1 & A2). destruct (H2 j Hj) as (B1 & B2).
        rewrite B1, B2, A1, A2, tpos_app, app_length, app_assoc. split; auto. lia. }
      rewrite vget_pos by lia. cbn [bind]. rewrite push_one_mk by lia. cbn [bind].
      rewrite push_one_mk by lia. cbn [bind]. rewrite add_pos_mk by lia. cbn [bind].
      do 2 eexists. split.
      { cbn [leaves]. rewrite app_assoc. reflexivity. }
      apply naft_intro.
      + lvls. destruct (HA j ltac:(lia)) as (-> & ->). rewrite !nb_below by lia. cbn.
        rewrite app_nil_r. split; auto; lia.
      + lvls. destruct (HA lvl ltac:(lia)) as (E1 & E2). rewrite E1, E2. rewrite !nb_below by lia. cbn.
        rewrite app_nil_r, <- app_assoc. cbn. split; [repeat f_equal|]; lia.
      + intros j b Hj Hl ->. cbn [kids flat_map]. rewrite app_nil_r.
        destruct (HA j ltac:(lia)) as (E1 & E2). lvls.
  Qed.
End Fast.
