(** Correctness of partialAND and of the planning phase of the parallel
    intersection. *)

From Coq Require Import Permutation.
From Verif Require Import Base FlatTrie LevelTrie FastTrie ParallelFor Intersection Facts Tree Reps
  InterSpec InterSeq.

Lemma for_loop_post : forall S (P : nat -> S -> Prop) (f : nat -> S -> result S) n i s s',
  P i s -> (forall j s s', i <= j < i + n -> P j s -> f j s = Ok s' -> P (Datatypes.S j) s') ->
  for_loop n i f s = Ok s' -> P (i + n) s'.
Proof.
  intros S P f n; induction n; intros i s s' H0 Hs E; cbn [for_loop] in E.
  - inversion E; subst. rewrite Nat.add_0_r. auto.
  - destruct (f i s) as [s1| |] eqn:E1; try discriminate. cbn [bind] in E.
    replace (i + Datatypes.S n) with (Datatypes.S i + n) by lia.
    apply IHn with (s := s1); auto.
    + apply (Hs i s s1); auto. lia.
    + intros j t t' Hj. apply Hs. lia.
Qed.

Lemma perm_join : forall X (a1 b1 c1 i1 a2 b2 c2 i2 : list X),
  Permutation (a1 ++ b1 ++ c1) i1 -> Permutation (a2 ++ b2 ++ c2) i2 ->
  Permutation ((a1 ++ a2) ++ (b1 ++ b2) ++ (c1 ++ c2)) (i1 ++ i2).
Proof.
  intros X a1 b1 c1 i1 a2 b2 c2 i2 H1 H2. rewrite <- H1, <- H2. rewrite <- !app_assoc.
  apply Permutation_app_head. rewrite (Permutation_app_swap_app a2 b1).
  apply Permutation_app_head. rewrite (Permutation_app_swap_app b2 c1).
  rewrite (Permutation_app_swap_app a2 c1). auto.
Qed.

Lemma perm_two : forall X (a1 b1 i1 a2 b2 i2 : list X),
  Permutation (a1 ++ b1) i1 -> Permutation (a2 ++ b2) i2 ->
  Permutation ((a1 ++ a2) ++ (b1 ++ b2)) (i1 ++ i2).
Proof.
  intros X a1 b1 i1 a2 b2 i2 H1 H2. rewrite <- H1, <- H2. rewrite <- !app_assoc.
  apply Permutation_app_head. apply Permutation_app_swap_app.
Qed.

(** No run among the first [c] levels of nodes. *)
Fixpoint noruns {A} (c : nat) (t : tree A) : Prop :=
  match c with
  | O => True
  | S c' =>
    match t with
    | Leaf _ => True
    | Full => False
    | TL l => noruns c' l
    | TR r => noruns c' r
    | TB l r => noruns c' l /\ noruns c' r
    end
  end.

Lemma plain_noruns : forall A (t : tree A) c, plain t -> noruns c t.
Proof. induction t; intros [|c] H; cbn in *; auto; try tauto. intuition. Qed.

(** A unit of work: a forest and a prefix. *)
Notation ghost A := (@forest A * N)%type.

Section Par.
  Context {A : Type}.
  Variable k : kind.
  Variable Ts : list trie_ops.
  Variable maxLevel : nat.
  Variable lmem : A -> N -> bool.
  Variable lg D : nat.
  Variable leafok : nat -> nat -> A -> Prop.
  Variable noroot : bool.

  Notation n := (length Ts).
  Notation okf := (okf Ts leafok noroot).
  Notation plains := (plains Ts (A := A)).
  Notation actok := (actok Ts (A := A)).

  Hypothesis Hn : n <= 16.
  Hypothesis Hn1 : 1 <= n.
  Hypothesis Htot : total_bits k maxLevel = D + lg.
  Hypothesis Hbits : D + lg < 64.
  Hypothesis Hlast : forall lvl, lvl < D -> S lvl = maxLevel -> noroot = true /\ S lvl = D.

  Notation inter := (inter lmem lg n).
  Variable runs : bool.
  (** Whether the values that are dropped are accounted for: with [runs] unset only for
      tries without runs. *)
  Variable trk : bool.

  Definition cells {X} (v : list (option X)) : Prop := forall i, i < n -> exists x, aget v i = Ok x.

  Lemma copy_arr_spec : forall X (src : list (option X)), cells src ->
    exists dst, copy_arr n src = Ok dst /\ length dst = 16 /\ forall i, i < n -> aget dst i = aget src i.
  Proof.
    intros X src H. unfold copy_arr.
    loop_inv (fun j (dst : list (option X)) => length dst = 16 /\ forall i, i < j -> aget dst i = aget src i) LI.
    destruct LI as (dst & E & L & G).
    - split; auto. intros; lia.
    - cbn [Nat.add]. intros j dst Hj (L & G). destruct (H j ltac:(lia)) as (x & Hx). rewrite Hx. cbn [bind].
      destruct (aset_spec _ dst j x) as (dst' & -> & L' & Gj & Go); [lia|].
      exists dst'. split; auto. split; [lia|]. intros i Hi. destruct (Nat.eq_dec i j).
      + subst. congruence.
      + rewrite Go by auto. apply G. lia.
    - exists dst. auto.
  Qed.

  Lemma aset_cells : forall X (v v' : list (option X)) j x, length v = 16 -> j < n ->
    (forall i, i < j -> exists y, aget v i = Ok y) -> aset v j x = Ok v' ->
    length v' = 16 /\ forall i, i < S j -> exists y, aget v' i = Ok y.
  Proof.
    intros X v v' j x L Hj H E. destruct (aset_spec _ v j x) as (v'' & E' & L' & Gj & Go); [lia|].
    rewrite E in E'. inversion E'; subst v''. split; [lia|]. intros i Hi.
    destruct (Nat.eq_dec i j); [subst; eauto|]. rewrite Go by auto. apply H. lia.
  Qed.

  Lemma pa_left_cells : forall lvl roots nodes, pa_left Ts n lvl roots = Ok nodes -> cells nodes.
  Proof.
    intros lvl roots nodes E. unfold pa_left in E.
    eapply (for_loop_post _ (fun j v => length v = 16 /\ forall i, i < j -> exists y, aget v i = Ok y)) in E.
    - destruct E as (_ & E). intros i Hi. apply E. auto.
    - split; auto. intros; lia.
    - cbn beta. intros j v v' Hj (L & H) E'. destruct (vget Ts j); try discriminate. cbn [bind] in E'.
      destruct (aget roots j); try discriminate. cbn [bind] in E'.
      destruct (t_getLeft _ _ _); try discriminate. cbn [bind] in E'.
      eapply aset_cells; eauto. lia.
  Qed.

  Lemma pa_right_cells : forall lvl roots nodes, pa_right Ts n lvl roots = Ok nodes -> cells nodes.
  Proof.
    intros lvl roots nodes E. unfold pa_right in E.
    eapply (for_loop_post _ (fun j v => length v = 16 /\ forall i, i < j -> exists y, aget v i = Ok y)) in E.
    - destruct E as (_ & E). intros i Hi. apply E. auto.
    - split; auto. intros; lia.
    - cbn beta. intros j v v' Hj (L & H) E'. destruct (vget Ts j); try discriminate. cbn [bind] in E'.
      destruct (aget roots j); try discriminate. cbn [bind] in E'.
      destruct (t_getRight _ _ _); try discriminate. cbn [bind] in E'.
      eapply aset_cells; eauto. lia.
  Qed.

  Lemma pa_both_cells : forall lvl roots ln rn, pa_both Ts n lvl roots = Ok (ln, rn) ->
    cells ln /\ cells rn.
  Proof.
    intros lvl roots ln rn E. unfold pa_both in E.
    eapply (for_loop_post _ (fun j v =>
      (length (fst v) = 16 /\ forall i, i < j -> exists y, aget (fst v) i = Ok y) /\
      (length (snd v) = 16 /\ forall i, i < j -> exists y, aget (snd v) i = Ok y))) in E.
    - cbn [fst snd Nat.add] in E. unfold cells. intuition.
    - cbn. repeat split; intros; lia.
    - cbn beta. intros j (v & w) v' Hj ((L & H) & (L' & H')) E'. cbn [fst snd] in *.
      destruct (vget Ts j); try discriminate. cbn [bind] in E'.
      destruct (aget roots j); try discriminate. cbn [bind] in E'.
      destruct (t_getLeft _ _ _) as [c| |]; try discriminate. cbn [bind] in E'.
      destruct (aset v j c) eqn:E1; try discriminate. cbn [bind] in E'.
      destruct (aset w j (c + 1)) eqn:E2; try discriminate. cbn [bind] in E'. inversion E'; subst v'.
      cbn [fst snd]. split; [apply (aset_cells _ v _ j c)|apply (aset_cells _ w _ j (c + 1))]; auto; lia.
  Qed.

  Definition somes (X : forest (A := A)) : Prop := forall i, i < n -> X i <> None.
  Definition noruns_f (c : nat) (X : forest (A := A)) : Prop :=
    forall i t, i < n -> X i = Some t -> noruns c t.

  Lemma plains_noruns : forall X c, plains X -> noruns_f c X.
  Proof.
    intros X c H i t Hi E. destruct (H i Hi) as (t' & E' & P). rewrite E in E'. inversion E'; subst.
    apply plain_noruns; auto.
  Qed.

  Definition ginter (lvl : nat) (g : ghost A) : list N := inter (D - lvl) (fst g) (snd g).

  Definition task_ok (lvl : nat) (g : ghost A) (rt : harr nat) : Prop :=
    okf (D - lvl) lvl (snd rt) (fst g) /\ aligned (D - lvl + lg) (snd g) /\
    somes (fst g) /\ (runs = false -> trk = true -> plains (fst g)) /\ cells (snd rt).

  Definition acts_ok (gs : list (ghost A)) (acts : list (harr bool)) : Prop :=
    if runs then Forall2 (fun (g : ghost A) (a : harr bool) => actok (snd a) (fst g)) gs acts else acts = [].

  Lemma acts_ok_app : forall g1 g2 a1 a2, acts_ok g1 a1 -> acts_ok g2 a2 -> acts_ok (g1 ++ g2) (a1 ++ a2).
  Proof.
    unfold acts_ok. intros. destruct runs; [apply Forall2_app; auto|]. subst. auto.
  Qed.

  Lemma acts_ok_nil : acts_ok [] [].
  Proof. unfold acts_ok. destruct runs; auto. Qed.

  Definition all_full (X : forest (A := A)) : bool :=
    forallb (fun i => match X i with Some Full => true | _ => false end) (seq 0 n).

  Lemma pa_scan_spec : forall d lvl roots active X,
    okf (S d) lvl roots X -> somes X -> (runs = true -> actok active X) ->
    exists temp o, pa_scan Ts n runs lvl roots active
      = Ok (temp, node_code (all_left n X) (all_right n X), o) /\
      (runs = true -> (forall i, i < n -> aget temp i = Ok true) /\ N.eqb o 0 = all_full X).
  Proof.
    intros d lvl roots active X HX Hs Hact. unfold pa_scan.
    destruct runs eqn:ER.
    - loop_inv (fun j (s : active_arr * N * N) =>
        snd (fst s) = node_code (all_left j X) (all_right j X) /\
        length (fst (fst s)) = 16 /\
        (forall i, i < j -> aget (fst (fst s)) i = Ok true) /\
        (exists a b, snd s = node_code a b /\
           negb a && negb b = forallb (fun i => match X i with Some Full => true | _ => false end) (seq 0 j))) LI.
      destruct LI as (((temp & a) & o) & E & F).
      + cbn. repeat split; intros; try lia. exists false, false. auto.
      + cbn [Nat.add]. intros j ((temp & a) & o) Hj (F1 & F2 & F3 & c & e & F4 & F5). cbn [fst snd] in *. subst a o.
        rewrite Hact by (auto; lia). cbn [bind].
        destruct (X j) as [t|] eqn:EX; [|exfalso; apply (Hs j); auto; lia]. cbn [is_some].
        destruct (HX j t ltac:(lia) EX) as (W & Rt).
        destruct (rooted_node _ _ _ _ _ _ _ _ W Rt) as (id & Hid & Hr & Hc).
        rewrite vget_T by lia. cbn [bind]. rewrite Hid. cbn [bind]. rewrite Hc. cbn [bind].
        rewrite orb_true_r.
        assert (NL := wf_not_leaf (S d) t ltac:(lia) W).
        destruct (aset_spec _ temp j true) as (temp' & -> & Lt & Gj & Go); [lia|]. cbn [bind].
        eexists; split; [reflexivity|]. cbn [fst snd]. repeat split; auto.
        * unfold all_left, all_right. rewrite !forallb_seq_S, EX. apply land_code.
        * lia.
        * intros i Hi. destruct (Nat.eq_dec i j); [subst; auto|]. rewrite Go by auto. apply F3. lia.
        * exists (c || has_left t), (e || has_right t). rewrite lor_code. split; auto.
          rewrite forallb_seq_S, EX, <- F5. destruct t; try discriminate; cbn [has_left has_right];
          destruct c, e; reflexivity.
      + cbn [Nat.add fst snd] in F. destruct F as (-> & _ & Ft & c & e & -> & Fo).
        exists temp, (node_code c e). split; [apply E|]. intros _. split; auto. rewrite code_0. auto.
    - loop_inv (fun j (s : active_arr * N * N) =>
        snd (fst s) = node_code (all_left j X) (all_right j X)) LI.
      destruct LI as (((temp & a) & o) & E & F).
      + reflexivity.
      + cbn [Nat.add]. intros j ((temp & a) & o) Hj F1. cbn [fst snd] in *. subst a.
        destruct (X j) as [t|] eqn:EX; [|exfalso; apply (Hs j); auto; lia]. cbn [is_some].
        destruct (HX j t ltac:(lia) EX) as (W & Rt).
        destruct (rooted_node _ _ _ _ _ _ _ _ W Rt) as (id & Hid & Hr & Hc).
        rewrite vget_T by lia. cbn [bind]. rewrite Hid. cbn [bind]. rewrite Hc. cbn [bind].
        eexists; split; [reflexivity|]. cbn [fst snd].
        unfold all_left, all_right. rewrite !forallb_seq_S, EX. apply land_code.
      + cbn [Nat.add fst snd] in F. subst a. exists temp, o. split; [apply E|]. discriminate.
  Qed.

  Lemma somes_left : forall X, somes X -> all_left n X = true -> somes (lefts X).
  Proof.
    intros X H HL i Hi. specialize (H i Hi). unfold lefts. destruct (X i) eqn:E; auto.
    assert (L := all_left_has Ts X HL i t Hi E). destruct t; try discriminate.
  Qed.

  Lemma somes_right : forall X, somes X -> all_right n X = true -> somes (rights X).
  Proof.
    intros X H HL i Hi. specialize (H i Hi). unfold rights. destruct (X i) eqn:E; auto.
    assert (L := all_right_has Ts X HL i t Hi E). destruct t; try discriminate.
  Qed.

  Lemma true_actok : forall temp X, (forall i, i < n -> aget temp i = Ok true) -> somes X ->
    actok temp X.
  Proof.
    intros temp X H Hs i Hi. rewrite H by auto. specialize (Hs i Hi). destruct (X i); auto. congruence.
  Qed.

  Lemma noruns_left : forall c X, noruns_f (S c) X -> noruns_f c (lefts X).
  Proof.
    intros c X H i t Hi E. unfold lefts in E. destruct (X i) as [y|] eqn:EX; [|discriminate].
    specialize (H i y Hi EX). destruct y; inversion E; subst; cbn in H; tauto.
  Qed.

  Lemma noruns_right : forall c X, noruns_f (S c) X -> noruns_f c (rights X).
  Proof.
    intros c X H i t Hi E. unfold rights in E. destruct (X i) as [y|] eqn:EX; [|discriminate].
    specialize (H i y Hi EX). destruct y; inversion E; subst; cbn in H; tauto.
  Qed.

  Lemma all_full_none : forall X, all_full X = true -> none_left n (drop_full X) = true.
  Proof.
    intros X H. unfold all_full in H. rewrite forallb_seq in H. apply forallb_seq.
    intros i Hi. specialize (H i Hi). unfold drop_full. destruct (X i) as [[]|]; auto; discriminate.
  Qed.

  Lemma full_dec : forall X : forest (A := A),
    (exists i, i < n /\ X i = Some Full) \/ (forall i t, i < n -> X i = Some t -> t <> Full).
  Proof.
    intros X.
    destruct (forallb (fun i => match X i with Some Full => false | _ => true end) (seq 0 n)) eqn:E.
    - right. rewrite forallb_seq in E. intros i t Hi EX ->. specialize (E i Hi). rewrite EX in E. discriminate.
    - left. apply forallb_seq_false in E. destruct E as (i & Hi & E). exists i. split; auto.
      destruct (X i) as [[]|]; try discriminate; auto.
  Qed.

  (** On the way to [x], among the first [c] levels, some trie is at a run and
      some other trie is not. *)
  Fixpoint mixed (c d : nat) (X : forest (A := A)) (x : N) : Prop :=
    match c, d with
    | S c', S d' =>
      all_full X = false /\
      ((exists i, i < n /\ X i = Some Full) \/
       mixed c' d' (if N.testbit x (N.of_nat (d' + lg)) then rights X else lefts X) x)
    | _, _ => False
    end.

  Lemma mixed_mono : forall c c' d X x, c <= c' -> mixed c d X x -> mixed c' d X x.
  Proof.
    clear. induction c; intros c' d X x Hc H; [destruct H|].
    destruct c' as [|c']; [lia|]. destruct d as [|d]; [destruct H|].
    cbn [mixed] in *. destruct H as (H1 & [H2|H2]); split; auto. right. apply IHc; auto. lia.
  Qed.

  (** What one call drops: exactly the common values with a mixed level on their
      way; the tasks it leaves go on from there. *)
  Definition traced (d c lvl : nat) (X : forest (A := A)) (p : N) (gs : list (ghost A)) (Z : list N) : Prop :=
    (forall x, In x Z -> mixed c d X x) /\
    (forall x, In x (inter d X p) -> mixed c d X x -> In x Z) /\
    (forall e g x, In g gs -> In x (ginter (lvl + c) g) -> mixed e (D - (lvl + c)) (fst g) x ->
       mixed (c + e) d X x).

  (** What one call pushes and the tasks it leaves. *)
  Fixpoint walk (c d : nat) (X : forest (A := A)) (p : N) : list N * list (ghost A) :=
    match c, d with
    | S c', S d' =>
      if (runs && all_full X)%bool then (nrange p (2 ^ (S d' + lg)), [])
      else
        let l := if all_left n X then walk c' d' (lefts X) p else ([], []) in
        let r := if all_right n X then walk c' d' (rights X) (p + pow2 (d' + lg))%N else ([], []) in
        (fst l ++ fst r, snd l ++ snd r)
    | _, _ => ([], [(X, p)])
    end.

  (** Result of one partialAND call started in state [st]. *)
  Definition emits (d c lvl : nat) (X : forest (A := A)) (p : N) (st st' : pa_state) : Prop :=
    exists gs rts acts newr Z m,
      st' = mkPA (pa_r st ++ newr) (pa_ints st ++ map snd gs) (pa_roots st ++ rts)
                 (pa_active st ++ acts) (mkMem (m_next (pa_mem st) + m) (m_freed (pa_mem st))) /\
      Forall2 (task_ok (lvl + c)) gs rts /\ acts_ok gs acts /\
      Permutation (map fst rts ++ map fst acts) (seq (m_next (pa_mem st)) m) /\
      length gs <= 2 ^ c /\
      Permutation (newr ++ concat (map (ginter (lvl + c)) gs) ++ Z) (inter d X p) /\
      (trk = true -> traced d c lvl X p gs Z) /\
      (forall e, noruns_f (c + e) X ->
        newr = [] /\ Z = [] /\ concat (map (ginter (lvl + c)) gs) = inter d X p /\
        Forall (fun g => noruns_f e (fst g)) gs) /\
      walk c d X p = (newr, gs).

  (** Going down from a node without runs. *)
  Lemma mixed_left : forall d X p, aligned (S d + lg) p -> (forall i, i < n -> X i <> Some Full) ->
    forall e x, In x (inter d (lefts X) p) -> (mixed e d (lefts X) x <-> mixed (S e) (S d) X x).
  Proof.
    intros d X p Ha NF e x Hx. unfold InterSpec.inter in Hx. apply filter_In in Hx. destruct Hx as (Hx & _).
    cbn [mixed]. rewrite (left_bit (d + lg) p x Ha Hx). split.
    - intros H. split; auto. apply forallb_seq_false. exists 0. split; [lia|].
      specialize (NF 0 ltac:(lia)). destruct (X 0) as [[]|]; congruence.
    - intros (_ & [(i & Hi & E)|H]); auto. destruct (NF i Hi E).
  Qed.

  Lemma mixed_right : forall d X p, aligned (S d + lg) p -> (forall i, i < n -> X i <> Some Full) ->
    forall e x, In x (inter d (rights X) (p + pow2 (d + lg))) ->
      (mixed e d (rights X) x <-> mixed (S e) (S d) X x).
  Proof.
    intros d X p Ha NF e x Hx. unfold InterSpec.inter in Hx. apply filter_In in Hx. destruct Hx as (Hx & _).
    cbn [mixed]. rewrite (right_bit lmem (d + lg) p x Ha Hx). split.
    - intros H. split; auto. apply forallb_seq_false. exists 0. split; [lia|].
      specialize (NF 0 ltac:(lia)). destruct (X 0) as [[]|]; congruence.
    - intros (_ & [(i & Hi & E)|H]); auto. destruct (NF i Hi E).
  Qed.

  Lemma emits_lost : forall d c lvl X p st, (forall e, noruns_f (c + e) X -> inter d X p = []) ->
    (trk = true -> forall x, In x (inter d X p) -> mixed c d X x) -> walk c d X p = ([], []) ->
    emits d c lvl X p st st.
  Proof.
    intros d c lvl X p st H HM HW. exists [], [], [], [], (inter d X p), 0.
    destruct st as [r ints rts acts [nx fr]]. cbn. rewrite !app_nil_r, Nat.add_0_r.
    repeat split; auto; try lia.
    - apply acts_ok_nil.
    - intros e g x [].
    - eapply H; eauto.
    - symmetry. eapply H; eauto.
  Qed.

  Lemma emits_sub : forall d c lvl X Y p q st st',
    emits d c (S lvl) Y q st st' -> inter d Y q = inter (S d) X p ->
    (forall e, noruns_f (S c + e) X -> noruns_f (c + e) Y) ->
    (forall e x, In x (inter d Y q) -> (mixed e d Y x <-> mixed (S e) (S d) X x)) ->
    walk (S c) (S d) X p = walk c d Y q ->
    emits (S d) (S c) lvl X p st st'.
  Proof.
    intros d c lvl X Y p q st st' (gs & rts & acts & newr & Z & m & E & F & Fa & Pm & L & P & T & Hx & HW) EI HN HM EW.
    exists gs, rts, acts, newr, Z, m. unfold traced. rewrite <- EI.
    replace (lvl + S c) with (S lvl + c) by lia.
    split; [auto|split; [auto|split; [auto|split; [auto|split; [|split; [auto|
      split; [intros Htk; destruct (T Htk) as (T1 & T2 & T3); split; [|split]|split; [|congruence]]]]]]]].
    - cbn [Nat.pow]. lia.
    - intros x Hx'. apply HM; auto. apply (Permutation_in _ P). rewrite !in_app_iff. auto.
    - intros x Hi Hm. apply T2; auto. apply HM; auto.
    - intros e g x Hg Hi Hm. cbn [Nat.add]. apply HM; [|eapply T3; eauto].
      apply (Permutation_in _ P). rewrite !in_app_iff. right. left. apply in_concat.
      exists (ginter (S lvl + c) g). split; auto. apply in_map; auto.
    - intros e He. apply (Hx e); auto.
  Qed.

  Lemma emits_two : forall d c lvl X Y1 Y2 p q1 q2 st st1 st2,
    emits d c (S lvl) Y1 q1 st st1 -> emits d c (S lvl) Y2 q2 st1 st2 ->
    inter d Y1 q1 ++ inter d Y2 q2 = inter (S d) X p ->
    (forall e, noruns_f (S c + e) X -> noruns_f (c + e) Y1 /\ noruns_f (c + e) Y2) ->
    (forall e x, In x (inter d Y1 q1) -> (mixed e d Y1 x <-> mixed (S e) (S d) X x)) ->
    (forall e x, In x (inter d Y2 q2) -> (mixed e d Y2 x <-> mixed (S e) (S d) X x)) ->
    walk (S c) (S d) X p = (fst (walk c d Y1 q1) ++ fst (walk c d Y2 q2), snd (walk c d Y1 q1) ++ snd (walk c d Y2 q2)) ->
    emits (S d) (S c) lvl X p st st2.
  Proof.
    intros d c lvl X Y1 Y2 p q1 q2 st st1 st2
      (gs & rts & acts & newr & Z & m & -> & F & Fa & Pm & L & P & T & Hx & HW)
      (gs' & rts' & acts' & newr' & Z' & m' & -> & F' & Fa' & Pm' & L' & P' & T' & Hx' & HW') EI HN HM1 HM2 EW.
    cbn [pa_r pa_ints pa_roots pa_active pa_mem m_next m_freed] in *.
    exists (gs ++ gs'), (rts ++ rts'), (acts ++ acts'), (newr ++ newr'), (Z ++ Z'), (m + m').
    unfold traced. rewrite <- EI. replace (lvl + S c) with (S lvl + c) by lia.
    assert (HI : forall gs0 newr0 Z0 I0, Permutation (newr0 ++ concat (map (ginter (S lvl + c)) gs0) ++ Z0) I0 ->
      (forall x, In x Z0 -> In x I0) /\ (forall g x, In g gs0 -> In x (ginter (S lvl + c) g) -> In x I0)).
    { clear. intros gs0 newr0 Z0 I0 P. split.
      - intros x H. apply (Permutation_in _ P). rewrite !in_app_iff. auto.
      - intros g x Hg H. apply (Permutation_in _ P). rewrite !in_app_iff. right. left. apply in_concat.
        exists (ginter (S lvl + c) g). split; auto. apply in_map; auto. }
    destruct (HI _ _ _ _ P) as (I1 & I2). destruct (HI _ _ _ _ P') as (I1' & I2'). clear HI.
    split; [|split; [|split; [|split; [|split; [|split; [|split; [intros Htk; destruct (T Htk) as (T1 & T2 & T3), (T' Htk) as (T1' & T2' & T3'); split; [|split]|
      split; [|rewrite EW, HW, HW'; reflexivity]]]]]]]].
    - rewrite map_app, <- !app_assoc, Nat.add_assoc. auto.
    - apply Forall2_app; auto.
    - apply acts_ok_app; auto.
    - rewrite !map_app, seq_app. apply perm_two; auto.
    - rewrite app_length. cbn [Nat.pow]. lia.
    - rewrite map_app, concat_app. apply perm_join; auto.
    - intros x Hz. apply in_app_or in Hz. destruct Hz as [Hz|Hz]; [apply HM1|apply HM2]; auto.
    - intros x Hi Hm. apply in_or_app. apply in_app_or in Hi.
      destruct Hi as [Hi|Hi]; [left; apply T2|right; apply T2']; auto; [apply HM1|apply HM2]; auto.
    - intros e g x Hg Hi Hm. cbn [Nat.add]. apply in_app_or in Hg.
      destruct Hg as [Hg|Hg]; [apply HM1|apply HM2]; eauto.
    - intros e He. destruct (HN e He) as (N1 & N2).
      destruct (Hx e N1) as (-> & -> & C1 & G1). destruct (Hx' e N2) as (-> & -> & C2 & G2).
      rewrite map_app, concat_app. repeat split; auto; [apply f_equal2; auto|apply Forall_app; auto].
  Qed.

  Lemma traced_leaf : forall d lvl X p, lvl + d = D -> traced d 0 lvl X p [(X, p)] [].
  Proof.
    intros d lvl X p HD. unfold traced. rewrite Nat.add_0_r. replace (D - lvl) with d by lia.
    split; [|split].
    - intros x [].
    - intros x _ [].
    - intros e g x [<-|[]] _ Hm. auto.
  Qed.

  Theorem partialAND_spec : forall c d lvl roots active X p st fuel,
    lvl + d = D -> c <= d -> okf d lvl roots X -> cells roots -> somes X ->
    (runs = true -> actok active X) -> (runs = false -> trk = true -> plains X) ->
    aligned (d + lg) p -> c <= fuel ->
    exists st', partialAND k Ts n maxLevel runs fuel lvl (lvl + c) roots active p st = Ok st' /\
      emits d c lvl X p st st'.
  Proof.
    induction c; intros d lvl roots active X p st fuel HD Hc HX Hcl Hs Hact Hpl Ha Hf.
    - rewrite Nat.add_0_r.
      assert (E : partialAND k Ts n maxLevel runs fuel lvl lvl roots active p st = pa_emit n runs roots active p st).
      { destruct fuel; cbn [partialAND]; rewrite Nat.eqb_refl; auto. }
      rewrite E. unfold pa_emit.
      destruct (copy_arr_spec _ roots Hcl) as (rts & -> & Lr & Gr). cbn [bind].
      assert (Hok : forall addr, task_ok lvl (X, p) (addr, rts)).
      { intros addr. unfold task_ok. cbn [fst snd]. replace (D - lvl) with d by lia.
        split; [|split; [auto|split; [auto|split; [auto|]]]].
        - intros i t Hi Et. destruct (HX i t Hi Et) as (W & Rt). split; auto.
          destruct Rt as [?|(id & Hid & Hr)].
          + left; auto.
          + right. exists id. rewrite Gr by auto. auto.
        - intros i Hi. rewrite Gr by auto. auto. }
      assert (Hg : concat (map (ginter (lvl + 0)) [(X, p)]) = inter d X p).
      { cbn. rewrite app_nil_r. unfold ginter. cbn. replace (D - (lvl + 0)) with d by lia. auto. }
      destruct runs eqn:ER.
      + assert (Hca : cells active) by (intros i Hi; rewrite (Hact eq_refl i Hi); eauto).
        destruct (copy_arr_spec _ active Hca) as (atrs & -> & La & Ga). cbn [bind].
        eexists; split; [reflexivity|].
        exists [(X, p)], [(m_next (pa_mem st), rts)], [(S (m_next (pa_mem st)), atrs)], [], [], 2.
        rewrite Hg. cbn [map app fst snd length Nat.pow seq].
        split; [|split; [|split; [|split; [|split; [|split; [|split; [|split; [|destruct d; reflexivity]]]]]]]].
        * rewrite app_nil_r. do 2 f_equal. lia.
        * rewrite Nat.add_0_r. constructor; [apply Hok|constructor].
        * unfold acts_ok. rewrite ER. repeat constructor. cbn [fst snd]. intros i Hi. rewrite Ga by auto. apply Hact; auto.
        * auto.
        * auto.
        * rewrite app_nil_r. auto.
        * intros _. apply traced_leaf; auto.
        * intros e He. repeat split; auto.
      + eexists; split; [reflexivity|].
        exists [(X, p)], [(m_next (pa_mem st), rts)], [], [], [], 1.
        rewrite Hg. cbn [map app fst snd length Nat.pow seq].
        split; [|split; [|split; [|split; [|split; [|split; [|split; [|split; [|destruct d; reflexivity]]]]]]]].
        * rewrite !app_nil_r. do 2 f_equal. lia.
        * rewrite Nat.add_0_r. constructor; [apply Hok|constructor].
        * unfold acts_ok. rewrite ER. auto.
        * auto.
        * auto.
        * rewrite app_nil_r. auto.
        * intros _. apply traced_leaf; auto.
        * intros e He. repeat split; auto.
    - destruct d as [|d]; [lia|]. destruct fuel as [|fuel]; [lia|]. cbn [partialAND].
      replace (lvl =? lvl + S c) with false by (symmetry; apply Nat.eqb_neq; lia).
      destruct (pa_scan_spec d lvl roots active X HX Hs Hact) as (temp & o & -> & Hto). cbn [bind].
      rewrite code_0, code_1, code_2, code_3.
      (* a run in every trie *)
      destruct (runs && N.eqb o 0) eqn:EF.
      { apply andb_true_iff in EF. destruct EF as (ER & EO). rewrite ER. cbn [negb andb].
        destruct (Hto ER) as (Ht & Ho). rewrite Ho in EO.
        rewrite (push_full_spec k maxLevel lmem lg D leafok Htot Hbits lvl (S d)) by auto. cbn [bind].
        eexists; split; [reflexivity|].
        exists [], [], [], (nrange p (2 ^ (S d + lg))), [], 0.
        assert (EI : inter (S d) X p = nrange p (2 ^ (S d + lg))).
        { rewrite <- inter_drop_full. apply inter_none. apply all_full_none. auto. }
        rewrite EI. cbn [map concat length app]. rewrite !app_nil_r, Nat.add_0_r.
        destruct st as [r ints rts acts [nx fr]]. cbn.
        assert (NX : forall e, ~ noruns_f (S c + e) X).
        { intros e H. unfold all_full in EO. rewrite forallb_seq in EO.
          specialize (EO 0 ltac:(lia)). destruct (X 0) as [t|] eqn:E; [|discriminate].
          specialize (H 0 t ltac:(lia) E). destruct t; try discriminate. destruct H. }
        assert (NM : forall x, ~ mixed (S c) (S d) X x).
        { intros x (H & _). congruence. }
        split; [auto|split; [auto|split; [apply acts_ok_nil|split; [auto|split; [lia|split; [auto|]]]]]].
        split; [intros _; split; [|split]|split; [|cbn [walk]; rewrite ER, EO; reflexivity]].
        - intros x [].
        - intros x _ H. destruct (NM x H).
        - intros e g x [].
        - intros e H. destruct (NX e H). }
      assert (EW : (runs && all_full X)%bool = false).
      { destruct runs eqn:ER; auto. destruct (Hto eq_refl) as (_ & Ho). rewrite <- Ho. auto. }
      destruct (full_dec X) as [(i & Hi & EXi)|NF].
      { (* a run in some trie but not in all: the branch is dropped *)
        assert (EL : all_left n X = false).
        { apply forallb_seq_false. exists i. rewrite EXi. auto. }
        assert (ERt : all_right n X = false).
        { apply forallb_seq_false. exists i. rewrite EXi. auto. }
        rewrite EL, ERt. cbn [negb andb].
        exists st. split.
        - destruct runs; auto.
        - apply emits_lost.
          + intros e H. specialize (H i Full Hi EXi). destruct H.
          + intros Htk x _. cbn [mixed]. split; [|eauto].
            destruct runs eqn:ER.
            * destruct (Hto eq_refl) as (_ & Ho). cbn [andb] in EF. congruence.
            * destruct (Hpl eq_refl Htk i Hi) as (t & Et & Pt). rewrite EXi in Et. injection Et as <-. destruct Pt.
          + cbn [walk]. rewrite EW, EL, ERt. reflexivity. }
      assert (NF' : forall i, i < n -> X i <> Some Full).
      { intros i Hi E. apply (NF i Full Hi E). auto. }
      assert (ST : inter (S d) X p =
        (if all_left n X then inter d (lefts X) p else [])
        ++ (if all_right n X then inter d (rights X) (p + pow2 (d + lg)) else [])).
      { apply inter_step; auto. intros i t Hi E. split; [|eauto]. apply (HX i t Hi E). }
      replace (lvl + S c) with (S lvl + c) by lia.
      destruct (all_left n X) eqn:EL, (all_right n X) eqn:ERt; cbn [negb andb];
        rewrite ?andb_false_r.
      + rewrite (right_prefix_spec k maxLevel lmem lg D leafok Htot Hbits lvl d) by auto. cbn [bind].
        destruct (pa_both_spec Ts 0 leafok noroot Hn d lvl roots X all_active HX Hs) as (ln & rn & Eb & HL & HR);
          eauto using all_left_has, all_right_has.
        destruct (pa_both_cells _ _ _ _ Eb) as (CL & CR). rewrite Eb. cbn [bind].
        destruct (IHc d (S lvl) ln temp (lefts X) p st fuel) as (st1 & E1 & M1);
          eauto using somes_left, true_actok, plains_left, aligned_S; try lia.
        { intros ER. apply true_actok; [apply Hto; auto|]. apply somes_left; auto. }
        rewrite E1. cbn [bind].
        destruct (IHc d (S lvl) rn temp (rights X) (p + pow2 (d + lg))%N st1 fuel) as (st2 & E2 & M2);
          eauto using somes_right, true_actok, plains_right, aligned_right; try lia.
        { intros ER. apply true_actok; [apply Hto; auto|]. apply somes_right; auto. }
        exists st2. split; auto. eapply emits_two; eauto.
        { intros e H. split; [apply noruns_left|apply noruns_right]; auto. }
        { apply mixed_left; auto. }
        { apply mixed_right; auto. }
        cbn [walk]. rewrite EW, EL, ERt. reflexivity.
      + destruct (pa_left_spec Ts 0 leafok noroot Hn d lvl roots X all_active HX Hs) as (ln & Eb & HL);
          eauto using all_left_has.
        assert (CL := pa_left_cells _ _ _ Eb). rewrite Eb. cbn [bind].
        destruct (IHc d (S lvl) ln temp (lefts X) p st fuel) as (st1 & E1 & M1);
          eauto using somes_left, true_actok, plains_left, aligned_S; try lia.
        { intros ER. apply true_actok; [apply Hto; auto|]. apply somes_left; auto. }
        exists st1. split; auto. eapply emits_sub; eauto.
        { rewrite ST, app_nil_r. auto. }
        { intros e H. apply noruns_left; auto. }
        { apply mixed_left; auto. }
        cbn [walk]. rewrite EW, EL, ERt. cbn [fst snd]. rewrite !app_nil_r. symmetry. apply surjective_pairing.
      + rewrite (right_prefix_spec k maxLevel lmem lg D leafok Htot Hbits lvl d) by auto. cbn [bind].
        destruct (pa_right_spec Ts 0 leafok noroot Hn d lvl roots X all_active HX Hs) as (rn & Eb & HR);
          eauto using all_right_has.
        assert (CR := pa_right_cells _ _ _ Eb). rewrite Eb. cbn [bind].
        destruct (IHc d (S lvl) rn temp (rights X) (p + pow2 (d + lg))%N st fuel) as (st2 & E2 & M2);
          eauto using somes_right, true_actok, plains_right, aligned_right; try lia.
        { intros ER. apply true_actok; [apply Hto; auto|]. apply somes_right; auto. }
        exists st2. split; auto. eapply emits_sub; eauto.
        { intros e H. apply noruns_right; auto. }
        { apply mixed_right; auto. }
        cbn [walk]. rewrite EW, EL, ERt. cbn [fst snd app]. symmetry. apply surjective_pairing.
      + exists st. split.
        * destruct runs; auto.
        * apply emits_lost; [intros; auto| |]; [rewrite ST; intros _ x []|].
          cbn [walk]. rewrite EW, EL, ERt. reflexivity.
  Qed.
End Par.
