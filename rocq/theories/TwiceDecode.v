(** Decoding a flat or fast trie whose runs were encoded twice. *)

From Verif Require Import Base FlatTrie LevelTrie FastTrie Facts Tree Groups Reps Layout
  BuildFlat BuildLevel BuildFast DecodeFast Compress WriteOnes CompressFast WordBits InterLimits TwiceRuns TwiceWrite.

(** * The nodes that are kept *)

Definition nf {A} (F : list (tree A)) : list (tree A) :=
  flat_map (fun t => match t with Full => [] | _ => [t] end) F.

Lemma nbits_nf : forall A (F : list (tree A)), nbits F = bits (nf F).
Proof.
  intros A F. induction F as [|t F IH]; auto. unfold nbits, bits, nf in *. cbn [flat_map].
  rewrite flat_map_app', IH. f_equal. destruct t; cbn; auto.
Qed.

Lemma nf_kids : forall A (F : list (tree A)), flat_map kids (nf F) = flat_map kids F.
Proof.
  intros A F. induction F as [|t F IH]; auto. unfold nf in *. cbn [flat_map].
  rewrite flat_map_app', IH. f_equal. destruct t; cbn [flat_map kids app]; rewrite ?app_nil_r; auto.
Qed.

Lemma nf_in : forall A (F : list (tree A)) t, In t (nf F) <-> In t F /\ t <> Full.
Proof.
  intros A F t. unfold nf. rewrite in_flat_map. split.
  - intros (s & Hs & H). destruct s; cbn in H; try contradiction; destruct H as [<-|[]]; split; auto; discriminate.
  - intros (H & N). exists t. split; auto. destruct t; cbn; auto; congruence.
Qed.

Lemma nf_length : forall A (F : list (tree A)), length (nf F) <= length F /\
  (In Full F -> length (nf F) < length F).
Proof.
  intros A F. induction F as [|t F (IH1 & IH2)]; [cbn; split; [lia|intros []]|].
  unfold nf in *. cbn [flat_map]. rewrite app_length. split.
  - destruct t; cbn [length]; lia.
  - intros [->|H]; [cbn [length]; lia|]. specialize (IH2 H). destruct t; cbn [length]; lia.
Qed.

Section Kept.
  Context {A : Type}.
  Variable T : tree A.

  Fixpoint kept (n : nat) : list (tree A) :=
    match n with O => [] | S n => kept n ++ nf (F T n) end.

  Lemma pre_kept : forall n, pre (fun j => nbits (F T j)) n = bits (kept n).
  Proof. induction n; auto. cbn [pre kept]. rewrite bits_app, IHn, nbits_nf. auto. Qed.

  Lemma kept_kids : forall n, length (flat_map kids (kept n)) + 1 = off T n + length (F T n).
  Proof.
    induction n; auto. cbn [kept off]. rewrite flat_map_app', nf_kids, app_length.
    change (flat_map kids (F T n)) with (F T (S n)). lia.
  Qed.

  Lemma kept_length : forall n, length (kept n) <= off T n /\
    (forall i, i < n -> In Full (F T i) -> length (kept n) < off T n).
  Proof.
    induction n as [|n (IH1 & IH2)]; [split; [auto|lia]|]. cbn [kept off]. rewrite app_length.
    destruct (nf_length _ (F T n)) as (L1 & L2). split; [lia|]. intros i Hi Hf.
    destruct (Nat.eq_dec i n) as [->|N]; [specialize (L2 Hf); lia|].
    specialize (IH2 i ltac:(lia) Hf). lia.
  Qed.

  Lemma kept_node : forall D n t, wf D T -> n <= D -> In t (kept n) -> is_leaf t = false /\ t <> Full.
  Proof.
    intros D n t W. induction n; intros Hn Ht; [destruct Ht|]. cbn [kept] in Ht.
    apply in_app_or in Ht. destruct Ht as [Ht|Ht]; [apply IHn; auto; lia|].
    apply nf_in in Ht. destruct Ht as (Ht & N). split; auto. apply (F_notleaf T D W n); auto.
  Qed.
End Kept.

(** A tree without runs on its levels is plain. *)
Lemma nofull_plain : forall A (t : tree A) d, wf d t -> (forall i, i < d -> ~ In Full (F t i)) -> plain t.
Proof.
  intros A. induction t as [a| |t IH|t IH|l IHl r IHr]; intros d W H; cbn [plain wf] in *; auto.
  - apply (H 0); [lia|]. left; auto.
  - destruct W as (H0 & W). apply (IH (pred d) W). intros i Hi N. apply (H (S i)); [lia|].
    unfold F. rewrite fiter_S. cbn [kids]. exact N.
  - destruct W as (H0 & W). apply (IH (pred d) W). intros i Hi N. apply (H (S i)); [lia|].
    unfold F. rewrite fiter_S. cbn [kids]. exact N.
  - destruct W as (H0 & W1 & W2). split; [apply (IHl (pred d) W1)|apply (IHr (pred d) W2)];
      intros i Hi N; apply (H (S i)); try lia; unfold F; rewrite fiter_S; cbn [kids];
      change [l; r] with ([l] ++ [r]); rewrite fiter_app; apply in_or_app; auto.
Qed.

Lemma sum_kids : forall A (V : list (tree A)) n, (forall t, In t V -> kids t <> []) ->
  n <= length V -> n <= length (flat_map kids (firstn n V)).
Proof.
  intros A V. induction V as [|t V IH]; intros [|n] H Hn; cbn [firstn flat_map length] in *; try lia.
  rewrite app_length. specialize (IH n (fun s Hs => H s (or_intror Hs)) ltac:(lia)).
  destruct (kids t) eqn:E; [exfalso; apply (H t); cbn; auto|]. cbn [length]. lia.
Qed.

(** The parent of the child number [j]. *)
Lemma parent : forall A (V : list (tree A)) j, j < length (flat_map kids V) ->
  exists p t i, nth_error V p = Some t /\ i < length (kids t) /\ j = length (flat_map kids (firstn p V)) + i.
Proof.
  intros A V. induction V as [|t V IH]; intros j Hj; cbn [flat_map length] in Hj; [lia|].
  rewrite app_length in Hj. destruct (Nat.lt_ge_cases j (length (kids t))) as [L|L].
  - exists 0, t, j. cbn. auto.
  - destruct (IH (j - length (kids t)) ltac:(lia)) as (p & s & i & E & Hi & Ej).
    exists (S p), s, i. cbn [nth_error firstn flat_map]. rewrite app_length. repeat split; auto. lia.
Qed.

(** * Every number is visited *)

Section Visits.
  Context {A : Type}.
  Variable V : list (tree A).
  Variables D M : nat.
  Variable vis : nat -> nat -> Prop.
  Hypothesis HV : forall t, In t V -> kids t <> [].
  Hypothesis V0 : vis 0 0.
  Hypothesis Vnode : forall j lvl, vis j lvl -> lvl < D ->
    exists t, nth_error V j = Some t /\
      forall i, i < length (kids t) -> vis (length (flat_map kids (firstn j V)) + i + 1) (S lvl).
  Hypothesis Vlast : forall j, vis j D -> length V <= j < length V + M.

  Lemma all_visited : forall j, j <= length (flat_map kids V) -> exists lvl, lvl <= D /\ vis j lvl.
  Proof.
    induction j as [j IH] using lt_wf_ind. intros Hj. destruct j as [|j].
    - exists 0. split; [lia|auto].
    - destruct (parent _ V j ltac:(lia)) as (p & t & i & E & Hi & Ej).
      assert (Hp : p < length V) by (apply nth_error_Some; congruence).
      assert (Hl := sum_kids _ V p HV ltac:(lia)).
      destruct (IH p ltac:(lia) ltac:(lia)) as (lvl & Hlv & Hv).
      destruct (Nat.eq_dec lvl D) as [->|N]; [apply Vlast in Hv; lia|].
      destruct (Vnode p lvl Hv ltac:(lia)) as (t' & E' & Hc). rewrite E in E'. injection E' as <-.
      exists (S lvl). split; [lia|]. specialize (Hc i Hi). rewrite Nat.add_1_r in Hc. rewrite Ej. exact Hc.
  Qed.

  Lemma visits_bound : length (flat_map kids V) < length V + M.
  Proof.
    destruct (all_visited _ (Nat.le_refl _)) as (lvl & Hl & Hv).
    destruct (Nat.eq_dec lvl D) as [->|N]; [apply Vlast in Hv; lia|].
    destruct (Vnode _ lvl Hv ltac:(lia)) as (t & E & _).
    assert (nth_error V (length (flat_map kids V)) <> None) by congruence. apply nth_error_Some in H. lia.
  Qed.
End Visits.

(** * Reading a sequence of nodes *)

Section Read.
  Context {A : Type}.
  Variable V : list (tree A).
  Hypothesis HV : forall t, In t V -> is_leaf t = false /\ t <> Full.

  Lemma bits_len : length (bits V) = 2 * length V.
  Proof. rewrite bits_length; auto. intros t Ht. apply HV; auto. Qed.

  Lemma bits_out : forall j, length V <= j -> vget (bits V) (2 * j) = UB OutOfBounds.
  Proof.
    intros j Hj. unfold vget. replace (nth_error _ _) with (@None bool); auto.
    symmetry. apply nth_error_None. rewrite bits_len. lia.
  Qed.

  Lemma bits_node : forall j t, nth_error V j = Some t ->
    vget (bits V) (2 * j) = Ok (has_left t) /\ vget (bits V) (2 * j + 1) = Ok (has_right t) /\
    rank1 (bits V) (2 * j + 1) = Ok (length (flat_map kids (firstn j V)) + b2n (has_left t)) /\
    rank1 (bits V) (2 * j + 2) =
      Ok (length (flat_map kids (firstn j V)) + b2n (has_left t) + b2n (has_right t)).
  Proof.
    intros j t E. assert (Hin := nth_error_In _ _ E).
    assert (Hj : j < length V) by (apply nth_error_Some; congruence).
    assert (E1 : length (bits (firstn j V)) = 2 * j).
    { rewrite bits_length; [rewrite firstn_length; lia|]. intros s Hs. apply HV.
      rewrite <- (firstn_skipn j V). apply in_or_app; auto. }
    assert (E3 : bits V = bits (firstn j V) ++ code2 t ++ bits (skipn (S j) V)).
    { destruct (split_at _ _ _ _ E) as (F1 & F2 & EV & Hk). rewrite EV at 1. rewrite bits_app.
      assert (firstn j V = F1) as ->.
      { rewrite EV, <- Hk, firstn_app, Nat.sub_diag, firstn_all. cbn. apply app_nil_r. }
      assert (skipn (S j) V = F2) as ->; [|reflexivity].
      rewrite EV, <- Hk. clear. induction F1; cbn; auto. }
    destruct (HV t Hin) as (Hl & _).
    destruct (node_read t _ (bits (skipn (S j) V)) _ Hl E1) as (V1 & V2 & R1 & R2 & R3).
    rewrite <- E3 in *. rewrite count_bits in *. auto.
  Qed.

  Lemma node_kids : forall t, In t V -> kids t <> [].
  Proof. intros t Ht. destruct (HV t Ht) as (L & N). destruct t; try discriminate. congruence. Qed.
End Read.

(** * Decoding is defined or out of bounds *)

Section Io.
  Variables height stop : nat.
  Variable getNode : nat -> nat -> result N.
  Variable getLeft getRight : nat -> nat -> result nat.
  Hypothesis h63 : height < 64.
  Hypothesis Hn : forall i l, in_or_out (getNode i l).
  Hypothesis Hl : forall i l n, getNode i l = Ok n -> (n = 2 \/ n = 3)%N -> in_or_out (getLeft i l).
  Hypothesis Hr : forall i l n, getNode i l = Ok n -> (n = 1 \/ n = 3)%N -> in_or_out (getRight i l).

  Lemma shl1_io : forall n, n < 64 -> exists b, shl1 n = Ok b.
  Proof. intros n H. unfold shl1. replace (n <? 64) with true by (symmetry; apply Nat.ltb_lt; auto). eauto. Qed.

  Lemma runs_decode_io : forall fuel dec p id lvl, lvl <= stop -> stop <= lvl + fuel ->
    in_or_out (runsRecursiveDecode height stop getNode getLeft getRight fuel dec p id lvl).
  Proof.
    induction fuel; intros dec p id lvl H1 H2; cbn [runsRecursiveDecode].
    - replace (lvl =? stop) with true by (symmetry; apply Nat.eqb_eq; lia). io.
    - destruct (Nat.eqb_spec lvl stop) as [|Ne]; [io|].
      destruct (Hn id lvl) as [(n & E)|E]; rewrite E; cbn [bind]; [|io].
      destruct (n =? 0)%N.
      { destruct (shl1_io (height - lvl) ltac:(lia)) as (b & ->). cbn [bind]. io. }
      apply io_bind.
      + destruct (n =? 2)%N eqn:E2, (n =? 3)%N eqn:E3; cbn [orb]; try apply io_ok;
          (apply io_bind; [eapply Hl; [exact E|]; rewrite ?N.eqb_eq in *; auto|]; intros c; apply IHfuel; lia).
      + intros d. destruct (shl1_io (height - lvl - 1) ltac:(lia)) as (b & ->). cbn [bind].
        destruct (n =? 1)%N eqn:E2, (n =? 3)%N eqn:E3; cbn [orb]; try apply io_ok;
          (apply io_bind; [eapply Hr; [exact E|]; rewrite ?N.eqb_eq in *; auto|]; intros c; apply IHfuel; lia).
  Qed.
End Io.

Lemma rank1_io : forall v i, in_or_out (rank1 v i).
Proof. intros. unfold rank1. destruct (i <=? length v); io. Qed.

(** * Flat tries *)

Section Flat.
  Variable T : tree unit.
  Variable h : nat.
  Variable t : flat.
  Hypothesis Hwf : wf h T.
  Hypothesis H2 : 2 <= h < 64.
  Hypothesis Eh : f_height t = h.
  Hypothesis Eb : f_bTrie t = bits (kept T (h - 1)).
  Hypothesis El : f_lastLevel t = bits (nf (F T (h - 1))).
  Hypothesis Er : f_rank t = f_bTrie t.
  Let V := kept T (h - 1).

  Lemma HV : forall s, In s V -> is_leaf s = false /\ s <> Full.
  Proof. intros s Hs. apply (kept_node T h (h - 1)); auto. lia. Qed.

  Lemma HL : forall s, In s (nf (F T (h - 1))) -> is_leaf s = false /\ s <> Full.
  Proof.
    intros s Hs. apply nf_in in Hs. destruct Hs as (Hs & N). split; auto.
    apply (F_notleaf T h Hwf (h - 1)); auto. lia.
  Qed.

  Let vis (id lvl : nat) : Prop := exists fuel dec p res,
    runsRecursiveDecode h h (flat_getNode t) (flat_getLeftChild t) (flat_getRightChild t)
      fuel dec p id lvl = Ok res.

  Lemma flat_vis_node : forall j lvl, vis j lvl -> lvl < h - 1 ->
    exists s, nth_error V j = Some s /\
      forall i, i < length (kids s) -> vis (length (flat_map kids (firstn j V)) + i + 1) (S lvl).
  Proof.
    intros j lvl (fuel & dec & p & res & E) Hl. destruct fuel as [|fuel]; cbn [runsRecursiveDecode] in E.
    { replace (lvl =? h) with false in E by (symmetry; apply Nat.eqb_neq; lia). discriminate. }
    replace (lvl =? h) with false in E by (symmetry; apply Nat.eqb_neq; lia).
    unfold flat_getNode in E at 1. rewrite Eh, Eb in E.
    replace (S lvl <? h) with true in E by (symmetry; apply Nat.ltb_lt; lia). fold V in E.
    destruct (Nat.lt_ge_cases j (length V)) as [Hj|Hj].
    2:{ rewrite (bits_out V HV) in E by auto. discriminate. }
    destruct (nth_error V j) as [s|] eqn:Es; [|apply nth_error_None in Es; lia].
    exists s. split; auto. destruct (bits_node V HV j s Es) as (V1 & V2 & R1 & R2).
    rewrite V1 in E. cbn [bind] in E. rewrite V2 in E. cbn [bind] in E.
    destruct (HV s (nth_error_In _ _ Es)) as (Lf & Nf).
    unfold flat_getLeftChild in E at 1. unfold flat_getRightChild in E at 2. rewrite Eh, Er, Eb in E.
    replace (h <=? S lvl) with false in E by (symmetry; apply Nat.leb_gt; lia). fold V in E.
    rewrite R1, R2 in E.
    destruct (shl1_io (h - lvl - 1) ltac:(lia)) as (b & Eb').
    destruct s as [a| |l|r|l r]; try discriminate; try congruence;
      cbn [has_left has_right kids length b2n] in *.
    - change (node_code true false) with 2%N in E. cbn [N.eqb Pos.eqb orb bind] in E.
      intros [|i] Hi; [|lia]. rewrite Nat.add_0_r.
      destruct (runsRecursiveDecode _ _ _ _ _ fuel dec p _ (S lvl)) as [d1| |] eqn:E1; try discriminate.
      red. eauto.
    - change (node_code false true) with 1%N in E. cbn [N.eqb Pos.eqb orb bind] in E.
      intros [|i] Hi; [|lia]. rewrite !Nat.add_0_r in *. rewrite Eb' in E. cbn [bind] in E. red. eauto.
    - change (node_code true true) with 3%N in E. cbn [N.eqb Pos.eqb orb bind] in E.
      destruct (runsRecursiveDecode _ _ _ _ _ fuel dec p _ (S lvl)) as [d1| |] eqn:E1; try discriminate.
      cbn [bind] in E. rewrite Eb' in E. cbn [bind] in E.
      intros [|[|i]] Hi; [| |lia]; rewrite ?Nat.add_0_r; red; eauto.
  Qed.

  Lemma flat_vis_last : forall j, vis j (h - 1) -> length V <= j < length V + length (nf (F T (h - 1))).
  Proof.
    intros j (fuel & dec & p & res & E). destruct fuel as [|fuel]; cbn [runsRecursiveDecode] in E.
    { replace (h - 1 =? h) with false in E by (symmetry; apply Nat.eqb_neq; lia). discriminate. }
    replace (h - 1 =? h) with false in E by (symmetry; apply Nat.eqb_neq; lia).
    unfold flat_getNode in E at 1. rewrite Eh, Eb in E.
    replace (S (h - 1) <? h) with false in E by (symmetry; apply Nat.ltb_ge; lia). fold V in E.
    rewrite (bits_len V HV) in E. destruct (Nat.ltb_spec (2 * j) (2 * length V)); [discriminate|].
    split; [lia|]. destruct (Nat.lt_ge_cases j (length V + length (nf (F T (h - 1))))) as [Hj|Hj]; auto.
    replace (2 * j - 2 * length V) with (2 * (j - length V)) in E by lia.
    rewrite El, (bits_out _ HL) in E by lia. discriminate.
  Qed.

  Lemma flat_vis_plain : vis 0 0 -> plain T.
  Proof.
    intros H0.
    assert (Hb := visits_bound V (h - 1) (length (nf (F T (h - 1)))) vis
                    (node_kids V HV) H0 flat_vis_node flat_vis_last).
    apply (nofull_plain _ T h Hwf). intros i Hi Hf.
    destruct (kept_length T h) as (_ & L). specialize (L i Hi Hf).
    assert (K := kept_kids T (h - 1)). fold V in K.
    replace h with (S (h - 1)) in L by lia. cbn [kept off] in L. rewrite app_length in L. fold V in L. lia.
  Qed.

  Theorem flat_twice_decode : f_runs_encoded t = true -> f_empty_trie t = false -> ~ plain T ->
    forall v, flat_decode t v = UB OutOfBounds.
  Proof.
    intros Hr He Np v. unfold flat_decode. rewrite Hr, He, Eh.
    destruct (runs_decode_io h h (flat_getNode t) (flat_getLeftChild t) (flat_getRightChild t)
                ltac:(lia) (flat_node_io t)) with (fuel := S h) (dec := v) (p := 0%N) (id := 0) (lvl := 0)
      as [(r & E)|E]; auto; try lia.
    - intros i l n _ _. unfold flat_getLeftChild. destruct (_ <=? _); [io|apply rank1_io].
    - intros i l n _ _. unfold flat_getRightChild. destruct (_ <=? _); [io|apply rank1_io].
    - exfalso. apply Np, flat_vis_plain. red. eauto.
  Qed.
End Flat.

(** * Fast tries *)

Section Fast.
  Variable T : tree N.
  Variables h lw : nat.
  Variable t : fast.
  Hypothesis Hwf : wf (h - 1) T.
  Hypothesis H1 : 1 <= h.
  Hypothesis H63 : x_height_u t < 64.
  Hypothesis Eh : x_height t = h.
  Hypothesis Eb : x_bTrie t = bits (kept T (h - 1)).
  Hypothesis El : length (x_lastLevel t) = length (F T (h - 1)).
  Hypothesis Ew : Forall (fun w => w < 2 ^ pow2 lw)%N (x_lastLevel t).
  Hypothesis Elw : x_lw t = lw.
  Hypothesis Eu : x_height_u t = h - 1 + lw.
  Hypothesis Hlw : lw <= 6.
  Hypothesis Er : x_rank t = x_bTrie t.
  Let V := kept T (h - 1).

  Lemma xHV : forall s, In s V -> is_leaf s = false /\ s <> Full.
  Proof. intros s Hs. apply (kept_node T (h - 1) (h - 1)); auto. Qed.

  Let vis (id lvl : nat) : Prop := exists fuel dec p res,
    fast_runsRecursiveDecode fuel t dec p id lvl = Ok res.

  Lemma fast_decode_at : forall fuel dec p id lvl,
    fast_runsRecursiveDecode fuel t dec p id lvl =
    if S lvl =? h then
      let* w := fast_getWord t id in
      word_bits (word_fuel lw) lw w p dec
    else
      match fuel with
      | O => OutOfFuel
      | S fuel' =>
        let* node := fast_getNode t id lvl in
        if N.eqb node 0 then
          let* b := shl1 (x_height_u t - lvl) in
          Ok (push_range dec p (N.lor p (b - 1)))
        else
          let* dec :=
            (if (N.eqb node 2 || N.eqb node 3)%bool then
               let* c := fast_getLeftChild t id lvl in
               fast_runsRecursiveDecode fuel' t dec p c (S lvl)
             else Ok dec) in
          if (N.eqb node 1 || N.eqb node 3)%bool then
            let* b := shl1 (x_height_u t - lvl - 1) in
            let* c := fast_getRightChild t id lvl in
            fast_runsRecursiveDecode fuel' t dec (N.lor p b) c (S lvl)
          else Ok dec
      end.
  Proof. intros. rewrite <- Eh, <- Elw. destruct fuel; reflexivity. Qed.

  Lemma fast_vis_node : forall j lvl, vis j lvl -> lvl < h - 1 ->
    exists s, nth_error V j = Some s /\
      forall i, i < length (kids s) -> vis (length (flat_map kids (firstn j V)) + i + 1) (S lvl).
  Proof.
    intros j lvl (fuel & dec & p & res & E) Hl. rewrite fast_decode_at in E.
    replace (S lvl =? h) with false in E by (symmetry; apply Nat.eqb_neq; lia).
    destruct fuel as [|fuel]; [discriminate|].
    unfold fast_getNode in E. rewrite Eb in E. fold V in E.
    destruct (Nat.lt_ge_cases j (length V)) as [Hj|Hj].
    2:{ rewrite (bits_out V xHV) in E by auto. discriminate. }
    destruct (nth_error V j) as [s|] eqn:Es; [|apply nth_error_None in Es; lia].
    exists s. split; auto. destruct (bits_node V xHV j s Es) as (V1 & V2 & R1 & R2).
    rewrite V1 in E. cbn [bind] in E. rewrite V2 in E. cbn [bind] in E.
    destruct (xHV s (nth_error_In _ _ Es)) as (Lf & Nf).
    unfold fast_getLeftChild, fast_getRightChild in E. rewrite Eh, Er, Eb in E.
    replace (h <=? S lvl) with false in E by (symmetry; apply Nat.leb_gt; lia). fold V in E.
    rewrite R1, R2 in E.
    destruct (shl1_io (x_height_u t - lvl - 1) ltac:(lia)) as (b & Eb').
    destruct s as [a| |l|r|l r]; try discriminate; try congruence;
      cbn [has_left has_right kids length b2n] in *.
    - change (node_code true false) with 2%N in E. cbn [N.eqb Pos.eqb orb bind] in E.
      intros [|i] Hi; [|lia]. rewrite Nat.add_0_r.
      destruct (fast_runsRecursiveDecode fuel t dec p _ (S lvl)) as [d1| |] eqn:E1; try discriminate.
      red. eauto.
    - change (node_code false true) with 1%N in E. cbn [N.eqb Pos.eqb orb bind] in E.
      intros [|i] Hi; [|lia]. rewrite !Nat.add_0_r in *. rewrite Eb' in E. cbn [bind] in E. red. eauto.
    - change (node_code true true) with 3%N in E. cbn [N.eqb Pos.eqb orb bind] in E.
      destruct (fast_runsRecursiveDecode fuel t dec p _ (S lvl)) as [d1| |] eqn:E1; try discriminate.
      cbn [bind] in E. rewrite Eb' in E. cbn [bind] in E.
      intros [|[|i]] Hi; [| |lia]; rewrite ?Nat.add_0_r; red; eauto.
  Qed.

  Lemma fast_vis_last : forall j, vis j (h - 1) -> length V <= j < length V + length (F T (h - 1)).
  Proof.
    intros j (fuel & dec & p & res & E). rewrite fast_decode_at in E.
    replace (S (h - 1) =? h) with true in E by (symmetry; apply Nat.eqb_eq; lia).
    unfold fast_getWord in E. rewrite Eb in E. fold V in E. rewrite (bits_len V xHV) in E.
    rewrite (Nat.mul_comm 2), Nat.div_mul in E by lia.
    destruct (Nat.ltb_spec j (length V)); [discriminate|]. split; [auto|].
    unfold vget in E. destruct (nth_error (x_lastLevel t) (j - length V)) eqn:EN; [|discriminate].
    assert (N : nth_error (x_lastLevel t) (j - length V) <> None) by congruence.
    apply nth_error_Some in N. lia.
  Qed.

  Lemma fast_vis_plain : vis 0 0 -> plain T.
  Proof.
    intros H0.
    assert (Hb := visits_bound V (h - 1) (length (F T (h - 1))) vis
                    (node_kids V xHV) H0 fast_vis_node fast_vis_last).
    apply (nofull_plain _ T (h - 1) Hwf). intros i Hi Hf.
    destruct (kept_length T (h - 1)) as (_ & L). specialize (L i Hi Hf).
    assert (K := kept_kids T (h - 1)). fold V in K, L. lia.
  Qed.

  Lemma fast_decode_io : forall fuel dec p id lvl, S lvl <= h -> h <= S lvl + fuel -> aligned (h - 1 - lvl + lw) p ->
    in_or_out (fast_runsRecursiveDecode fuel t dec p id lvl).
  Proof.
    assert (Word : forall id p dec, aligned lw p ->
      in_or_out (let* w := fast_getWord t id in word_bits (word_fuel lw) lw w p dec)).
    { intros id p dec Ha. destruct (fast_word_io t id) as [(w & E)|E]; rewrite E; cbn [bind]; [|io].
      rewrite word_bits_spec; auto; [io|]. unfold fast_getWord in E. destruct (_ <? _); [discriminate|].
      unfold vget in E. destruct (nth_error _ _) eqn:EN; [|discriminate]. injection E as ->.
      rewrite Forall_forall in Ew. apply Ew. eapply nth_error_In; eauto. }
    induction fuel; intros dec p id lvl A1 A2 Ha; rewrite fast_decode_at.
    - replace (S lvl =? h) with true by (symmetry; apply Nat.eqb_eq; lia).
      apply Word. apply (aligned_le lw (h - 1 - lvl + lw)); auto; lia.
    - destruct (Nat.eqb_spec (S lvl) h).
      { apply Word. apply (aligned_le lw (h - 1 - lvl + lw)); auto; lia. }
      destruct (fast_node_io t id lvl) as [(n0 & E)|E]; rewrite E; cbn [bind]; [|io].
      destruct (n0 =? 0)%N.
      { destruct (shl1_io (x_height_u t - lvl) ltac:(lia)) as (b & ->). cbn [bind]. io. }
      replace (h - 1 - lvl + lw) with (S (h - 1 - S lvl + lw)) in Ha by lia.
      apply io_bind.
      + destruct (_ || _)%bool; [|io]. apply io_bind; [|intros; apply IHfuel; auto using aligned_S; lia].
        unfold fast_getLeftChild. destruct (_ <=? _); [io|apply rank1_io].
      + intros d. replace (x_height_u t - lvl - 1) with (h - 1 - S lvl + lw) by lia.
        rewrite shl1_pow2 by lia. cbn [bind].
        destruct (_ || _)%bool; [|io]. rewrite lor_right by auto.
        apply io_bind; [|intros; apply IHfuel; auto using aligned_right; lia].
        unfold fast_getRightChild. destruct (_ <=? _); [io|apply rank1_io].
  Qed.

  Theorem fast_twice_decode : x_runs_encoded t = true -> x_empty_trie t = Some false -> ~ plain T ->
    forall v, fast_decode t v = UB OutOfBounds.
  Proof.
    intros Hr He Np v. unfold fast_decode. rewrite Hr, He, Eh. cbn [oget bind].
    destruct (fast_decode_io (S h) v 0%N 0 0) as [(r & E)|E]; auto using aligned_0; try lia.
    exfalso. apply Np, fast_vis_plain. red. eauto.
  Qed.
End Fast.
