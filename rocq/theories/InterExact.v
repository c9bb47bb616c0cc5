(** What exactly a parallel call on run-encoded tries returns. *)

From Coq Require Import Permutation.
From Verif Require Import Base FlatTrie LevelTrie FastTrie ParallelFor Intersection Tries Facts Tree
  Groups Reps Layout BuildFlat BuildLevel BuildFast WordBits Spec RoundTrip RoundTripFacts
  Compress CompressFast RunsFacts RunsThms SpecTries SpecLost SpecMeasures SpecCalls
  InterSpec InterSeq ParFacts InterPar InterPlan InterTop InterInst InterTight InterMain InterThms InterLost
  CallsThms CallsMain.

(** * The first descent, on abstract trees *)

Section Walk.
  Context {A : Type}.
  Variable Ts : list trie_ops.
  Variable lmem : A -> N -> bool.
  Variable lg : nat.
  Notation n := (length Ts).
  Notation forest := (forest (A := A)).
  Notation walk := (walk Ts lg true (A := A)).
  Hypothesis Hn : 1 <= n.

  (** The forest met [c] levels down on the way to [v]. *)
  Fixpoint down (c d : nat) (X : forest) (v : N) : forest :=
    match c, d with
    | S c', S d' => down c' d' (if N.testbit v (N.of_nat (d' + lg)) then rights X else lefts X) v
    | _, _ => X
    end.

  (** A run of all the trees is met on the way to [v] before level [c]. *)
  Fixpoint topb (c d : nat) (X : forest) (v : N) : bool :=
    match c, d with
    | S c', S d' =>
      all_full Ts X
      || (if N.testbit v (N.of_nat (d' + lg)) then all_right n X && topb c' d' (rights X) v
          else all_left n X && topb c' d' (lefts X) v)
    | _, _ => false
    end.

  (** The way to [v] exists in every tree down to level [c], and meets no run before. *)
  Fixpoint openb (c d : nat) (X : forest) (v : N) : bool :=
    match c, d with
    | S c', S d' =>
      if N.testbit v (N.of_nat (d' + lg)) then all_right n X && openb c' d' (rights X) v
      else all_left n X && openb c' d' (lefts X) v
    | _, _ => true
    end.

  Lemma all_full_closed : forall X : forest, all_full Ts X = true -> all_left n X = false /\ all_right n X = false.
  Proof.
    intros X H. unfold all_full in H. rewrite forallb_seq in H. specialize (H 0 Hn).
    unfold all_left, all_right. rewrite !forallb_seq_false.
    split; exists 0; (split; [lia|]); destruct (X 0) as [[]|]; try discriminate; reflexivity.
  Qed.

  Lemma walk_fst : forall c d X p, c <= d -> aligned (d + lg) p ->
    fst (walk c d X p) = filter (topb c d X) (nrange p (2 ^ (d + lg))).
  Proof.
    induction c; intros d X p Hc Ha.
    { cbn [InterPar.walk fst]. symmetry. apply filter_none. auto. }
    destruct d as [|d]; [lia|]. cbn [InterPar.walk]. cbn [andb].
    destruct (all_full Ts X) eqn:EF.
    { cbn [fst]. symmetry. apply filter_all. intros x _. cbn [topb]. rewrite EF. auto. }
    cbn [fst]. cbn [Nat.add] in *. rewrite nrange_halves, filter_app. f_equal.
    - destruct (all_left n X) eqn:EL.
      + rewrite IHc by (auto using aligned_S; lia). apply filter_ext_in'. intros x Hx.
        cbn [topb]. rewrite EF, (left_bit _ _ _ Ha Hx), EL. auto.
      + cbn [fst]. symmetry. apply filter_none. intros x Hx.
        cbn [topb]. rewrite EF, (left_bit _ _ _ Ha Hx), EL. auto.
    - destruct (all_right n X) eqn:EL.
      + rewrite IHc by (auto using aligned_right; lia). apply filter_ext_in'. intros x Hx.
        cbn [topb]. rewrite EF, (right_bit lmem _ _ _ Ha Hx), EL. auto.
      + cbn [fst]. symmetry. apply filter_none. intros x Hx.
        cbn [topb]. rewrite EF, (right_bit lmem _ _ _ Ha Hx), EL. auto.
  Qed.

  Definition startb (b : nat) (v : N) : bool := N.eqb (v mod pow2 b) 0.

  Lemma one_start : forall b p, aligned b p -> filter (startb b) (nrange p (2 ^ b)) = [p].
  Proof.
    intros b p Ha. assert (G := pow2_pos b).
    destruct (2 ^ b) as [|k] eqn:Ek.
    { exfalso. assert (E := of_nat_pow2 b). rewrite Ek in E. cbn in E. lia. }
    cbn [nrange filter]. unfold startb at 1. unfold aligned in Ha. rewrite Ha. cbn [N.eqb]. f_equal.
    apply filter_none. intros x Hx. apply In_nrange in Hx. unfold startb. apply N.eqb_neq. intros E.
    assert (x = p); [|lia]. apply (aligned_unique b p x); auto.
    assert (E2 := of_nat_pow2 b). rewrite Ek in E2. lia.
  Qed.

  Lemma walk_snd : forall c d X p, c <= d -> aligned (d + lg) p ->
    snd (walk c d X p)
    = map (fun v => (down c d X v, v))
        (filter (fun v => openb c d X v && startb (d - c + lg) v)%bool (nrange p (2 ^ (d + lg)))).
  Proof.
    induction c; intros d X p Hc Ha.
    { cbn [InterPar.walk snd openb andb]. rewrite Nat.sub_0_r.
      change (filter (fun v => startb (d + lg) v) (nrange p (2 ^ (d + lg))))
        with (filter (startb (d + lg)) (nrange p (2 ^ (d + lg)))).
      rewrite one_start by auto. cbn [map]. destruct d; reflexivity. }
    destruct d as [|d]; [lia|]. cbn [InterPar.walk]. cbn [andb].
    destruct (all_full Ts X) eqn:EF.
    { cbn [snd]. rewrite filter_none; auto. intros x _. cbn [openb].
      destruct (all_full_closed X EF) as (-> & ->). destruct (N.testbit _ _); auto. }
    cbn [snd]. cbn [Nat.add Nat.sub] in *. rewrite nrange_halves, filter_app, map_app. f_equal.
    - destruct (all_left n X) eqn:EL.
      + rewrite IHc by (auto using aligned_S; lia).
        erewrite (filter_ext_in' _ (fun v => openb (S c) (S d) X v && startb (d - c + lg) v)%bool).
        * apply map_ext_in. intros x Hx. apply filter_In in Hx. destruct Hx as (Hx & _).
          cbn [down]. rewrite (left_bit _ _ _ Ha Hx). auto.
        * intros x Hx. cbn [openb]. rewrite (left_bit _ _ _ Ha Hx), EL. auto.
      + cbn [snd]. rewrite filter_none; auto. intros x Hx. cbn [openb]. rewrite (left_bit _ _ _ Ha Hx), EL. auto.
    - destruct (all_right n X) eqn:EL.
      + rewrite IHc by (auto using aligned_right; lia).
        erewrite (filter_ext_in' _ (fun v => openb (S c) (S d) X v && startb (d - c + lg) v)%bool).
        * apply map_ext_in. intros x Hx. apply filter_In in Hx. destruct Hx as (Hx & _).
          cbn [down]. rewrite (right_bit lmem _ _ _ Ha Hx). auto.
        * intros x Hx. cbn [openb]. rewrite (right_bit lmem _ _ _ Ha Hx), EL. auto.
      + cbn [snd]. rewrite filter_none; auto. intros x Hx. cbn [openb].
        rewrite (right_bit lmem _ _ _ Ha Hx), EL. auto.
  Qed.

  (** ** By the runs of the trees *)

  Definition all_run (j d : nat) (X : forest) (v : N) : Prop :=
    forall i t, i < n -> X i = Some t -> runat lg j d t v = true.
  Definition no_run (j d : nat) (X : forest) (v : N) : Prop :=
    forall i t, i < n -> X i = Some t -> runat lg j d t v = false.

  (** One level down, in a direction all the trees have. *)
  Lemma step_down : forall d X v, somes Ts X -> wfs n (S d) X ->
    (if N.testbit v (N.of_nat (d + lg)) then all_right n X else all_left n X) = true ->
    let Y := if N.testbit v (N.of_nat (d + lg)) then rights X else lefts X in
    somes Ts Y /\ wfs n d Y /\
    (forall i t, i < n -> X i = Some t -> t <> Full) /\
    (forall i t, i < n -> X i = Some t -> exists t', Y i = Some t' /\
       forall x, N.testbit x (N.of_nat (d + lg)) = N.testbit v (N.of_nat (d + lg)) ->
         mem lmem (S d + lg) t x = mem lmem (d + lg) t' x /\
         forall j, runat lg (S j) (S d) t x = runat lg j d t' x /\ reach lg (S j) (S d) t x = reach lg j d t' x).
  Proof.
    intros d X v Hs W H Y.
    assert (HY : forall i t, i < n -> X i = Some t -> t <> Full /\ exists t', Y i = Some t' /\
       forall x, N.testbit x (N.of_nat (d + lg)) = N.testbit v (N.of_nat (d + lg)) ->
         mem lmem (S d + lg) t x = mem lmem (d + lg) t' x /\
         forall j, runat lg (S j) (S d) t x = runat lg j d t' x /\ reach lg (S j) (S d) t x = reach lg j d t' x).
    { intros i t Hi Et. unfold Y, rights, lefts. destruct (N.testbit v (N.of_nat (d + lg))) eqn:B;
        unfold all_right, all_left in H; rewrite forallb_seq in H; specialize (H i Hi); rewrite Et in *;
        destruct t as [a| |l|r|l r]; try discriminate; (split; [discriminate|]); eexists; split; try reflexivity;
        intros x Bx; cbn [mem runat reach pred Nat.add]; rewrite Bx; auto. }
    split.
    { intros i Hi. destruct (X i) as [t|] eqn:Et; [|exfalso; exact (Hs i Hi Et)].
      destruct (HY i t Hi Et) as (_ & t' & E & _). congruence. }
    split.
    { unfold Y. destruct (N.testbit _ _); [apply wfs_rights|apply wfs_lefts]; auto. }
    split; intros i t Hi Et; apply (HY i t Hi Et).
  Qed.

  Lemma topb_spec : forall c d X v, c <= d -> somes Ts X -> wfs n d X ->
    (topb c d X v = true <-> exists j, j < c /\ all_run j d X v /\ forall j', j' < j -> no_run j' d X v).
  Proof.
    induction c; intros d X v Hc Hs W.
    { cbn [topb]. split; [discriminate|]. intros (j & Hj & _). lia. }
    destruct d as [|d]; [lia|]. cbn [topb].
    set (b := N.testbit v (N.of_nat (d + lg))).
    set (Y := if b then rights X else lefts X).
    assert (E : (if b then all_right n X && topb c d (rights X) v else all_left n X && topb c d (lefts X) v)%bool
                = ((if b then all_right n X else all_left n X) && topb c d Y v)%bool).
    { unfold Y. destruct b; auto. }
    rewrite E. clear E. rewrite orb_true_iff, andb_true_iff. split.
    - intros [HF|(HD & HT)].
      + exists 0. split; [lia|]. split; [|intros; lia]. intros i t Hi Et.
        unfold all_full in HF. rewrite forallb_seq in HF. specialize (HF i Hi). rewrite Et in HF.
        destruct t; try discriminate. reflexivity.
      + destruct (step_down d X v Hs W HD) as (Hs' & W' & NF & ST). fold b in ST, Hs', W'. fold Y in ST, Hs', W'.
        apply IHc in HT; auto; try lia. destruct HT as (j & Hj & HA & HN).
        exists (S j). split; [lia|]. split.
        * intros i t Hi Et. destruct (ST i t Hi Et) as (t' & Et' & St). destruct (St v eq_refl) as (_ & S').
          rewrite (proj1 (S' j)). apply (HA i); auto.
        * intros [|j'] Hj' i t Hi Et.
          { specialize (NF i t Hi Et). destruct t; auto; congruence. }
          destruct (ST i t Hi Et) as (t' & Et' & St). destruct (St v eq_refl) as (_ & S').
          rewrite (proj1 (S' j')). apply (HN j' ltac:(lia) i); auto.
    - intros (j & Hj & HA & HN). destruct j as [|j].
      + left. unfold all_full. apply forallb_seq. intros i Hi.
        destruct (X i) as [t|] eqn:Et; [|exfalso; exact (Hs i Hi Et)].
        specialize (HA i t Hi Et). destruct t; try discriminate. auto.
      + right. assert (HD : (if b then all_right n X else all_left n X) = true).
        { assert (HN0 := HN 0 ltac:(lia)). unfold all_right, all_left, b in *.
          destruct (N.testbit v (N.of_nat (d + lg))) eqn:B; apply forallb_seq; intros i Hi;
            destruct (X i) as [t|] eqn:Et; auto; specialize (HN0 i t Hi Et); specialize (HA i t Hi Et);
            cbn [runat pred] in HA; rewrite ?B in HA;
            destruct t; try discriminate; auto. }
        split; auto.
        destruct (step_down d X v Hs W HD) as (Hs' & W' & NF & ST). fold b in ST, Hs', W'. fold Y in ST, Hs', W'.
        apply IHc; auto; try lia. exists j. split; [lia|].
        assert (Back : forall i t', i < n -> Y i = Some t' -> exists t, X i = Some t /\
                  forall j, runat lg (S j) (S d) t v = runat lg j d t' v).
        { intros i t' Hi Et'. destruct (X i) as [t|] eqn:Et; [|exfalso; exact (Hs i Hi Et)].
          exists t. split; auto. destruct (ST i t Hi Et) as (t2 & Et2 & St). rewrite Et' in Et2. injection Et2 as <-.
          intros j0. destruct (St v eq_refl) as (_ & S'). apply S'. }
        split.
        * intros i t' Hi Et'. destruct (Back i t' Hi Et') as (t & Et & R). rewrite <- R. apply (HA i); auto.
        * intros j' Hj' i t' Hi Et'. destruct (Back i t' Hi Et') as (t & Et & R). rewrite <- R.
          apply (HN (S j') ltac:(lia) i); auto.
  Qed.

  Lemma openb_spec : forall c d X v, c <= d -> somes Ts X -> wfs n d X ->
    (openb c d X v = true <-> (forall j, j < c -> no_run j d X v) /\ all_reach lg n c d X v).
  Proof.
    induction c; intros d X v Hc Hs W.
    { cbn [openb]. split; auto. intros _. split; [intros; lia|]. intros i t _ _. reflexivity. }
    destruct d as [|d]; [lia|]. cbn [openb].
    set (b := N.testbit v (N.of_nat (d + lg))).
    set (Y := if b then rights X else lefts X).
    assert (E : (if b then all_right n X && openb c d (rights X) v else all_left n X && openb c d (lefts X) v)%bool
                = ((if b then all_right n X else all_left n X) && openb c d Y v)%bool).
    { unfold Y. destruct b; auto. }
    rewrite E. clear E. rewrite andb_true_iff. split.
    - intros (HD & HT).
      destruct (step_down d X v Hs W HD) as (Hs' & W' & NF & ST). fold b in ST, Hs', W'. fold Y in ST, Hs', W'.
      apply IHc in HT; auto; try lia. destruct HT as (HN & HA). split.
      * intros [|j'] Hj' i t Hi Et.
        { specialize (NF i t Hi Et). destruct t; auto; congruence. }
        destruct (ST i t Hi Et) as (t' & Et' & St). destruct (St v eq_refl) as (_ & S').
        rewrite (proj1 (S' j')). apply (HN j' ltac:(lia) i); auto.
      * intros i t Hi Et. destruct (ST i t Hi Et) as (t' & Et' & St). destruct (St v eq_refl) as (_ & S').
        rewrite (proj2 (S' c)). apply (HA i); auto.
    - intros (HN & HA).
      assert (HD : (if b then all_right n X else all_left n X) = true).
      { assert (HN0 := HN 0 ltac:(lia)). unfold all_right, all_left, b in *.
        destruct (N.testbit v (N.of_nat (d + lg))) eqn:B; apply forallb_seq; intros i Hi;
          destruct (X i) as [t|] eqn:Et; auto; specialize (HN0 i t Hi Et); specialize (HA i t Hi Et);
          specialize (W i t Hi Et); cbn [reach pred] in HA; rewrite ?B in HA;
          destruct t; try discriminate; auto. }
      split; auto.
      destruct (step_down d X v Hs W HD) as (Hs' & W' & NF & ST). fold b in ST, Hs', W'. fold Y in ST, Hs', W'.
      apply IHc; auto; try lia.
      assert (Back : forall i t', i < n -> Y i = Some t' -> exists t, X i = Some t /\
                forall j, runat lg (S j) (S d) t v = runat lg j d t' v /\ reach lg (S j) (S d) t v = reach lg j d t' v).
      { intros i t' Hi Et'. destruct (X i) as [t|] eqn:Et; [|exfalso; exact (Hs i Hi Et)].
        exists t. split; auto. destruct (ST i t Hi Et) as (t2 & Et2 & St). rewrite Et' in Et2. injection Et2 as <-.
        intros j0. destruct (St v eq_refl) as (_ & S'). apply S'. }
      split.
      * intros j' Hj' i t' Hi Et'. destruct (Back i t' Hi Et') as (t & Et & R). rewrite <- (proj1 (R j')).
        apply (HN (S j') ltac:(lia) i); auto.
      * intros i t' Hi Et'. destruct (Back i t' Hi Et') as (t & Et & R). rewrite <- (proj2 (R c)). apply (HA i); auto.
  Qed.

  (** The forest [c] levels down holds what the trees hold there. *)
  Lemma down_spec : forall c d X v, c <= d -> somes Ts X -> wfs n d X -> openb c d X v = true ->
    let Y := down c d X v in
    somes Ts Y /\ wfs n (d - c) Y /\
    forall i t, i < n -> X i = Some t -> exists t', Y i = Some t' /\
      forall x, (x / pow2 (d - c + lg) = v / pow2 (d - c + lg))%N ->
        mem lmem (d + lg) t x = mem lmem (d - c + lg) t' x /\
        forall j, runat lg (c + j) d t x = runat lg j (d - c) t' x /\
                  reach lg (c + j) d t x = reach lg j (d - c) t' x.
  Proof.
    induction c; intros d X v Hc Hs W HO Y.
    { unfold Y. rewrite Nat.sub_0_r. assert (E : down 0 d X v = X) by (destruct d; auto). rewrite E.
      split; auto. split; auto. intros i t Hi Et. exists t. split; auto. }
    destruct d as [|d]; [lia|]. unfold Y. cbn [openb down] in *.
    set (b := N.testbit v (N.of_nat (d + lg))) in *.
    set (Z := if b then rights X else lefts X) in *.
    assert (E : (if b then all_right n X && openb c d (rights X) v else all_left n X && openb c d (lefts X) v)%bool
                = ((if b then all_right n X else all_left n X) && openb c d Z v)%bool).
    { unfold Z. destruct b; auto. }
    rewrite E in HO. clear E. apply andb_prop in HO. destruct HO as (HD & HO).
    destruct (step_down d X v Hs W HD) as (Hs' & W' & NF & ST). fold b in ST, Hs', W'. fold Z in ST, Hs', W'.
    destruct (IHc d Z v ltac:(lia) Hs' W' HO) as (H1 & H2 & H3).
    cbn [Nat.sub]. split; auto. split; auto. intros i t Hi Et.
    destruct (ST i t Hi Et) as (t1 & Et1 & S1). destruct (H3 i t1 Hi Et1) as (t2 & Et2 & S2).
    exists t2. split; auto. intros x Hx.
    assert (B : N.testbit x (N.of_nat (d + lg)) = N.testbit v (N.of_nat (d + lg))).
    { apply (block_bit lmem (d - c + lg)); auto. lia. }
    destruct (S1 x B) as (M1 & R1). destruct (S2 x Hx) as (M2 & R2). split; [congruence|].
    intros j. cbn [Nat.add]. destruct (R1 (c + j)) as (-> & ->). apply R2.
  Qed.

  (** ** One more level for a task *)

  Lemma walk1_full : forall d Y p, (exists i, i < n /\ Y i = Some Full) -> somes Ts Y ->
    snd (walk 1 (S d) Y p) = [] /\
    fst (walk 1 (S d) Y p) = if all_full Ts Y then nrange p (2 ^ (S d + lg)) else [].
  Proof.
    intros d Y p (i & Hi & E) Hs.
    assert (EL : all_left n Y = false).
    { unfold all_left. apply forallb_seq_false. exists i. rewrite E. auto. }
    assert (ER : all_right n Y = false).
    { unfold all_right. apply forallb_seq_false. exists i. rewrite E. auto. }
    cbn [InterPar.walk andb]. destruct (all_full Ts Y); cbn [fst snd]; auto. rewrite EL, ER. auto.
  Qed.

  Lemma walk1_open : forall d Y p, (forall i t, i < n -> Y i = Some t -> t <> Full) -> wfs n (S d) Y ->
    aligned (S d + lg) p ->
    fst (walk 1 (S d) Y p) = [] /\
    concat (map (fun g => inter lmem lg n d (fst g) (snd g)) (snd (walk 1 (S d) Y p))) = inter lmem lg n (S d) Y p /\
    length (snd (walk 1 (S d) Y p)) = (if all_left n Y then 1 else 0) + (if all_right n Y then 1 else 0).
  Proof.
    intros d Y p NF W Ha.
    assert (EF : all_full Ts Y = false).
    { unfold all_full. apply forallb_seq_false. exists 0. split; auto.
      specialize (NF 0). destruct (Y 0) as [[]|]; auto. exfalso. apply (NF Full); auto. }
    cbn [InterPar.walk andb]. rewrite EF. cbn [fst snd].
    rewrite (inter_step lmem lg n d Y p Ha) by (intros i t Hi Et; split; [apply (W i); auto|apply (NF i); auto]).
    destruct (all_left n Y), (all_right n Y); destruct d; cbn [InterPar.walk fst snd map concat app length Nat.add];
      rewrite ?app_nil_r; auto.
  Qed.
End Walk.

(** * From trees to sets *)

Lemma increasing_app : forall a b, increasing a -> increasing b -> (forall x y, In x a -> In y b -> (x < y)%N) ->
  increasing (a ++ b).
Proof.
  unfold increasing. induction a as [|x a IH]; intros b Ha Hb H; auto. cbn [app].
  inversion Ha; subst. constructor.
  - apply IH; auto. intros. apply H; auto. right; auto.
  - apply Forall_app. split; auto. apply Forall_forall. intros y Hy. apply H; auto. left; auto.
Qed.

Lemma common_where_nil : forall xs P, (forall v, ~ P v) -> common_where xs P [].
Proof. intros xs P H. split; [constructor|]. intros v. split; [intros []|]. intros (_ & Hp). exact (H v Hp). Qed.

Lemma common_where_app : forall xs P Q R a b, common_where xs P a -> common_where xs Q b ->
  (forall x y, P x -> Q y -> (x < y)%N) -> (forall v, R v <-> P v \/ Q v) -> common_where xs R (a ++ b).
Proof.
  intros xs P Q R a b (Ha & Ia) (Hb & Ib) H HR. split.
  - apply increasing_app; auto. intros x y Hx Hy. apply Ia in Hx. apply Ib in Hy. apply H; tauto.
  - intros v. rewrite in_app_iff, Ia, Ib, HR. tauto.
Qed.

Lemma common_where_iff : forall xs P Q r, common_where xs P r -> (forall v, P v <-> Q v) -> common_where xs Q r.
Proof. intros xs P Q r (H1 & H2) H. split; auto. intros v. rewrite H2, H. tauto. Qed.

Lemma div_lt : forall b x y, (x / b < y / b)%N -> (x < y)%N.
Proof.
  intros b x y H. destruct (N.eq_dec b 0) as [->|Hb].
  { destruct x, y; cbn in H; lia. }
  apply N.lt_nge. intros Hle. apply (N.div_le_mono _ _ b) in Hle; auto. lia.
Qed.

Lemma half_cases : forall h q, (h / 2 = q)%N <-> h = (2 * q)%N \/ h = (2 * q + 1)%N.
Proof.
  intros h q. assert (E := N.div_mod' h 2). assert (M := N.mod_lt h 2 ltac:(discriminate)). split; lia.
Qed.

Section ExactSets.
  Context {A : Type}.
  Variable lfull : A -> bool.
  Variable lmem : A -> N -> bool.
  Variable lg D c : nat.
  Hypothesis Hc : c <= D.
  Variable Ts : list trie_ops.
  Variable ts : list (tree A).
  Variable xs : list (bool * list N).
  Notation n := (length Ts).
  Hypothesis Hn : 1 <= n.
  Hypothesis Hlen : n = length ts.
  Hypothesis HF : Forall2 (stands lfull lmem lg D c) ts xs.
  Hypothesis HI : Forall (inhabited lg lmem) ts.
  Variable cut : nat.
  Hypothesis Hcut : S cut <= c.

  Notation X := (forest_of ts).
  Notation b := (pow2 (D - cut + lg)).
  Notation common v := (Forall (fun x => In v (snd x)) xs).

  Lemma all_iff : forall (P : tree A -> Prop) (Q : bool * list N -> Prop),
    (forall t x, stands lfull lmem lg D c t x -> inhabited lg lmem t -> (P t <-> Q x)) ->
    ((forall i t, i < n -> X i = Some t -> P t) <-> Forall Q xs).
  Proof.
    intros P Q H. split.
    - intros HP. apply Forall_forall. intros x Hx. apply In_nth_error in Hx. destruct Hx as (i & Ex).
      assert (Li : i < length ts) by (rewrite (Forall2_length HF); apply nth_error_Some; congruence).
      destruct (nth_error ts i) as [t|] eqn:Et; [|apply nth_error_None in Et; lia].
      destruct (Forall2_nth _ _ _ _ _ _ _ HF Et) as (x' & Ex' & Hs). rewrite Ex in Ex'. injection Ex' as <-.
      apply (H t x Hs).
      + rewrite Forall_forall in HI. apply HI. eapply nth_error_In; eauto.
      + apply (HP i); auto. lia.
    - intros HQ i t Hi Et. destruct (Forall2_nth _ _ _ _ _ _ _ HF Et) as (x & Ex & Hs).
      apply (H t x Hs).
      + rewrite Forall_forall in HI. apply HI. eapply nth_error_In; eauto.
      + rewrite Forall_forall in HQ. apply HQ. eapply nth_error_In; eauto.
  Qed.

  Lemma X_somes : somes Ts X.
  Proof. intros i Hi E. apply nth_error_None in E. lia. Qed.

  Lemma X_wfs : wfs n D X.
  Proof. intros i t Hi E. destruct (Forall2_nth _ _ _ _ _ _ _ HF E) as (x & _ & (W & _)). auto. Qed.

  Lemma all_run_sets : forall j v, j < c -> (v < pow2 (D + lg))%N ->
    (all_run Ts lg j D X v <-> Forall (run_around (pow2 (D + lg - j)) v) xs).
  Proof.
    intros j v Hj Hv. apply (all_iff (fun t => runat lg j D t v = true)). intros t x Hs _.
    apply (stands_run lfull lmem lg D c Hc); auto.
  Qed.

  Lemma no_run_sets : forall j v, j < c -> (v < pow2 (D + lg))%N ->
    (no_run Ts lg j D X v <-> ~ Exists (run_around (pow2 (D + lg - j)) v) xs).
  Proof.
    intros j v Hj Hv. rewrite <- Forall_Exists_neg. apply (all_iff (fun t => runat lg j D t v = false)). intros t x Hs _.
    rewrite <- (stands_run lfull lmem lg D c Hc t x v j Hs) by auto. destruct (runat lg j D t v); split; congruence.
  Qed.

  Lemma reach_sets : forall j v, j <= D -> (v < pow2 (D + lg))%N ->
    (all_reach lg n j D X v <-> met (pow2 (D + lg - j)) (v / pow2 (D + lg - j)) xs).
  Proof.
    intros j v Hj Hv. apply (all_iff (fun t => reach lg j D t v = true)). intros t x Hs I.
    rewrite (reach_member lg 0 lmem j t D v) by (auto; apply Hs). split; intros (y & H1 & H2).
    - exists y. split; auto. apply (stands_mem lfull lmem lg D c Hc t x y Hs). split; auto.
      eapply same_block_lt; [|exact Hv|exact H1]. lia.
    - exists y. split; auto. apply (stands_mem lfull lmem lg D c Hc t x y Hs) in H1. tauto.
  Qed.

  Lemma common_small : forall v, common v -> (v < pow2 (D + lg))%N.
  Proof.
    intros v H. assert (L := Forall2_length HF).
    destruct xs as [|x l] eqn:Ex; [cbn in L; lia|]. destruct ts as [|t l']; [cbn in L; lia|].
    inversion HF; subst. inversion H; subst. eapply (stands_mem lfull lmem lg D c Hc t x v); eauto.
  Qed.

  Lemma common_mem : forall v, (v < pow2 (D + lg))%N -> (fmem lmem n (D + lg) X v = true <-> common v).
  Proof.
    intros v Hv. rewrite <- (all_iff (fun t => mem lmem (D + lg) t v = true)).
    - unfold fmem. rewrite forallb_seq. split.
      + intros H i t Hi E. specialize (H i Hi). rewrite E in H. auto.
      + intros H i Hi. destruct (X i) as [t|] eqn:E; auto. apply (H i); auto.
    - intros t x Hs _. rewrite (stands_mem lfull lmem lg D c Hc t x v Hs). tauto.
  Qed.

  Lemma met_small : forall q, met b q xs -> (q * b < pow2 (D + lg))%N.
  Proof.
    intros q H. assert (L := Forall2_length HF).
    destruct xs as [|x l] eqn:Ex; [cbn in L; lia|]. destruct ts as [|t l']; [cbn in L; lia|].
    inversion HF as [|? ? ? ? H3 H5]; subst. inversion H as [|? ? (y & Hy & <-) H6]; subst.
    apply (stands_mem lfull lmem lg D c Hc t x y H3) in Hy. destruct Hy as (Hy & _).
    assert (G := pow2_nz (D - cut + lg)). assert (E := N.div_mod' y b). lia.
  Qed.

  Lemma div_mul_b : forall q, (q * b / b = q)%N.
  Proof. intros. apply N.div_mul, pow2_nz. Qed.

  Lemma size_at : forall j, j <= cut -> (b * 2 ^ N.of_nat j)%N = pow2 (D + lg - (cut - j)).
  Proof. intros j Hj. unfold pow2. rewrite <- N.pow_add_r. f_equal. lia. Qed.

  (** Runs larger than the universe there are none. *)
  Lemma big : forall j v, (N.of_nat cut < j)%N -> (v < pow2 (D + lg))%N -> ~ Exists (run_around (b * 2 ^ j) v) xs.
  Proof.
    intros j v Hj Hv. apply (no_big_run lfull lmem lg D c Hc Ts ts xs Hn Hlen HF); auto.
    unfold pow2. rewrite <- N.pow_add_r. apply N.pow_lt_mono_r; lia.
  Qed.

  Theorem share_open : forall q, (q * b < pow2 (D + lg))%N ->
    (openb Ts lg cut D X (q * b) = true <-> share b xs q).
  Proof.
    intros q Hq. rewrite (openb_spec Ts lmem lg Hn cut D X (q * b)) by (auto using X_somes, X_wfs; lia).
    rewrite reach_sets by (auto; lia). replace (D + lg - cut) with (D - cut + lg) by lia. rewrite div_mul_b.
    unfold share. split.
    - intros (H1 & H2). split; auto. intros j Hj. destruct (N.le_gt_cases j (N.of_nat cut)) as [Hle|Hgt].
      + rewrite <- (N2Nat.id j), size_at by lia. apply no_run_sets; auto; [lia|]. apply H1. lia.
      + apply big; auto.
    - intros (H1 & H2). split; auto. intros j Hj. apply no_run_sets; auto; [lia|].
      specialize (H2 (N.of_nat (cut - j)) ltac:(lia)). rewrite size_at in H2 by lia.
      replace (cut - (cut - j)) with j in H2 by lia. auto.
  Qed.

  (** ** The tasks *)

  Definition task (q : N) : ghost A := (down lg cut D X (q * b), (q * b)%N).

  Lemma in_block : forall q x, (x / b = q)%N <-> In x (nrange (q * b) (2 ^ (D - cut + lg))).
  Proof.
    intros q x. rewrite In_nrange, of_nat_pow2. assert (G := pow2_nz (D - cut + lg)).
    assert (E := N.div_mod' x b). assert (M := N.mod_lt x b G). split; [intros <-; lia|]. intros H.
    symmetry. apply (N.div_unique x b q (x - q * b)); lia.
  Qed.

  Lemma block_small : forall q x, (q * b < pow2 (D + lg))%N -> (x / b = q)%N -> (x < pow2 (D + lg))%N.
  Proof.
    intros q x Hq E. eapply same_block_lt; [|exact Hq|rewrite div_mul_b; exact E]. lia.
  Qed.

  Theorem task_inter : forall q, share b xs q ->
    common_where xs (fun v => (v / b = q)%N) (inter lmem lg n (D - cut) (fst (task q)) (snd (task q))).
  Proof.
    intros q Hq. assert (Hs := met_small q (proj1 Hq)). apply share_open in Hq; auto.
    destruct (down_spec Ts lmem lg Hn cut D X (q * b) ltac:(lia) X_somes X_wfs Hq) as (S1 & W1 & H1).
    cbn [task fst snd]. unfold inter. split.
    - apply filter_sorted, nrange_sorted.
    - intros v. rewrite filter_In, <- in_block.
      assert (E : (v / b = q)%N -> (fmem lmem n (D - cut + lg) (down lg cut D X (q * b)) v = true <-> common v)).
      { intros Ev. assert (Hv := block_small q v Hs Ev). rewrite <- common_mem by auto.
        unfold fmem. rewrite !forallb_seq.
        assert (HM : forall i, i < n -> exists t t', X i = Some t /\ down lg cut D X (q * b) i = Some t' /\
                   mem lmem (D + lg) t v = mem lmem (D - cut + lg) t' v).
        { intros i Hi. destruct (X i) as [t|] eqn:Et; [|exfalso; exact (X_somes i Hi Et)].
          destruct (H1 i t Hi Et) as (t' & Et' & HH). exists t, t'. split; auto. split; auto.
          apply HH. rewrite div_mul_b. auto. }
        split; intros H i Hi; destruct (HM i Hi) as (t & t' & E1 & E2 & E3); specialize (H i Hi);
          rewrite E1, ?E2 in *; congruence. }
      split; intros (H2 & H3); split; auto; apply E; auto.
  Qed.

  (** What one more level makes of a task. *)
  Theorem task_divide : forall q, share b xs q ->
    let w := walk Ts lg true 1 (D - cut) (fst (task q)) (snd (task q)) in
    tasks_of b xs q (length (snd w)) /\
    common_where xs (fun v => (v / b = q)%N /\ Forall (run_around b v) xs) (fst w) /\
    common_where xs (fun v => (v / b = q)%N /\ ~ Exists (run_around b v) xs)
      (concat (map (ginter Ts lmem lg D (S cut)) (snd w))).
  Proof.
    intros q Hq. assert (HT := task_inter q Hq). assert (Hs := met_small q (proj1 Hq)).
    assert (HO := Hq). apply share_open in HO; auto.
    destruct (down_spec Ts lmem lg Hn cut D X (q * b) ltac:(lia) X_somes X_wfs HO) as (S1 & W1 & H1).
    cbn [task fst snd] in *. set (Y := down lg cut D X (q * b)) in *.
    assert (ED : exists d, D - cut = S d) by (exists (D - S cut); lia). destruct ED as (d & ED).
    assert (Er : forall v, (v / b = q)%N -> forall x, run_around b v x <-> run_around b (q * b) x).
    { intros v Ev x. unfold run_around. rewrite div_mul_b, Ev. tauto. }
    assert (ErF : forall v, (v / b = q)%N -> (Forall (run_around b v) xs <-> Forall (run_around b (q * b)) xs)).
    { intros v Ev. rewrite !Forall_forall. split; intros H x Hx; apply (Er v Ev); auto. }
    assert (ErE : forall v, (v / b = q)%N -> (Exists (run_around b v) xs <-> Exists (run_around b (q * b)) xs)).
    { intros v Ev. rewrite !Exists_exists. split; intros (x & Hx & H); exists x; split; auto; apply (Er v Ev); auto. }
    assert (EbD : D + lg - cut = D - cut + lg) by lia.
    assert (HX : forall i, i < n -> exists t t', X i = Some t /\ Y i = Some t' /\ wf (S d) t' /\
               forall x, (x / b = q)%N -> runat lg cut D t x = runat lg 0 (S d) t' x /\
                                        reach lg (S cut) D t x = reach lg 1 (S d) t' x).
    { intros i Hi. destruct (X i) as [t|] eqn:Et; [|exfalso; exact (X_somes i Hi Et)].
      destruct (H1 i t Hi Et) as (t' & Et' & HH). exists t, t'. split; auto. split; auto.
      split; [rewrite <- ED; apply (W1 i); auto|]. intros x Hx. rewrite <- div_mul_b in Hx.
      destruct (HH x Hx) as (_ & R). split; [rewrite <- ED; specialize (R 0); rewrite Nat.add_0_r in R; apply R|].
      rewrite <- ED. specialize (R 1). rewrite Nat.add_1_r in R. apply R. }
    assert (Hqq : (q * b / b = q)%N) by apply div_mul_b.
    assert (HAll : all_full Ts Y = true <-> Forall (run_around b (q * b)) xs).
    { rewrite <- EbD. rewrite <- all_run_sets by (rewrite ?EbD; auto; lia). rewrite EbD.
      unfold all_full. rewrite forallb_seq. split.
      - intros H i t Hi Et. destruct (HX i Hi) as (t0 & t' & E1 & E2 & W & R). rewrite Et in E1. injection E1 as <-.
        rewrite (proj1 (R _ Hqq)). specialize (H i Hi). rewrite E2 in H. destruct t'; try discriminate. auto.
      - intros H i Hi. destruct (HX i Hi) as (t & t' & E1 & E2 & W & R). specialize (H i t Hi E1).
        rewrite (proj1 (R _ Hqq)) in H. rewrite E2. destruct t'; try discriminate. auto. }
    assert (HNone : (forall i t, i < n -> Y i = Some t -> t <> Full) <-> ~ Exists (run_around b (q * b)) xs).
    { rewrite <- EbD. rewrite <- no_run_sets by (rewrite ?EbD; auto; lia). rewrite EbD. split.
      - intros H i t Hi Et. destruct (HX i Hi) as (t0 & t' & E1 & E2 & W & R). rewrite Et in E1. injection E1 as <-.
        rewrite (proj1 (R _ Hqq)). specialize (H i t' Hi E2). destruct t'; auto; congruence.
      - intros H i t' Hi Et'. destruct (HX i Hi) as (t & t2 & E1 & E2 & W & R). rewrite Et' in E2. injection E2 as <-.
        specialize (H i t Hi E1). rewrite (proj1 (R _ Hqq)) in H. intros ->. discriminate. }
    assert (Ew : forall e, e = S d -> walk Ts lg true 1 e Y (q * b) = walk Ts lg true 1 (S d) Y (q * b))
      by (intros e He; rewrite He; reflexivity).
    cbv zeta. rewrite (Ew (D - cut) ED). clear Ew. destruct (full_dec Ts Y) as [HE|NF].
    - assert (Ex : Exists (run_around b (q * b)) xs).
      { assert (HE' := HE). destruct HE' as (i & Hi & E). destruct (HX i Hi) as (t & t' & E1 & E2 & W & R).
        rewrite E in E2. injection E2 as <-. destruct (Forall2_nth _ _ _ _ _ _ _ HF E1) as (x & Ex & St).
        apply Exists_exists. exists x. split; [eapply nth_error_In; eauto|]. rewrite <- EbD.
        apply (stands_run lfull lmem lg D c Hc t x _ cut St); rewrite ?EbD; auto.
        rewrite (proj1 (R _ Hqq)). auto. }
      destruct (walk1_full Ts lg d Y (q * b) HE S1) as (-> & ->). split; [left; auto|]. split.
      + destruct (all_full Ts Y) eqn:EF.
        * assert (HA : Forall (run_around b (q * b)) xs) by (apply HAll; auto). rewrite <- ED. split.
          { apply nrange_sorted. }
          intros v. rewrite <- in_block. split.
          { intros Ev. split; [|split; auto; apply ErF; auto]. rewrite Forall_forall in *. intros x Hx.
            apply (HA x Hx). congruence. }
          tauto.
        * apply common_where_nil. intros v (Ev & H). apply ErF in H; auto. apply HAll in H. congruence.
      + apply common_where_nil. intros v (Ev & H). apply H. apply ErE; auto.
    - assert (Nx := proj1 HNone NF). rewrite ED in W1.
      assert (Hal : aligned (S d + lg) (q * b)) by (apply aligned_ex; exists q; rewrite ED; auto).
      destruct (walk1_open Ts lmem lg Hn d Y (q * b) NF W1 Hal) as (-> & EC & EL).
      assert (NA : ~ Forall (run_around b (q * b)) xs).
      { intros H. apply Nx. assert (L := Forall2_length HF). destruct xs as [|x l]; [cbn in L; lia|].
        inversion H; subst. constructor. auto. }
      split; [|split].
      + right. split; auto.
        assert (Gd := pow2_nz (d + lg)).
        assert (Eb : b = (2 * pow2 (d + lg))%N) by (rewrite ED; cbn [Nat.add]; apply pow2_S).
        assert (Eh : (b / 2 = pow2 (d + lg))%N) by (rewrite Eb, N.mul_comm; apply N.div_mul; discriminate).
        assert (Eg : D + lg - S cut = d + lg) by lia.
        assert (Al : all_left n Y = true <-> met (b / 2) (2 * q) xs).
        { rewrite Eh. replace (2 * q)%N with (q * b / pow2 (d + lg))%N.
          2: { rewrite Eb. replace (q * (2 * pow2 (d + lg)))%N with (2 * q * pow2 (d + lg))%N by lia. apply N.div_mul; auto. }
          rewrite <- Eg. rewrite <- reach_sets by (auto; lia).
          assert (B : N.testbit (q * b) (N.of_nat (d + lg)) = false).
          { apply (testbit_left (d + lg) (q * b)); [exact Hal|]. assert (Gp := pow2_pos (d + lg)). lia. }
          unfold all_left. rewrite forallb_seq. split.
          - intros H i t Hi Et. destruct (HX i Hi) as (t0 & t' & E1 & E2 & W & R). rewrite Et in E1. injection E1 as <-.
            rewrite (proj2 (R _ Hqq)). specialize (H i Hi). rewrite E2 in H. cbn [reach pred]. rewrite B.
            destruct t'; auto; discriminate.
          - intros H i Hi. destruct (HX i Hi) as (t & t' & E1 & E2 & W & R). specialize (H i t Hi E1).
            rewrite (proj2 (R _ Hqq)) in H. rewrite E2. specialize (NF i t' Hi E2). cbn [reach pred] in H. rewrite B in H.
            destruct t'; auto; try discriminate; congruence. }
        assert (Ar : all_right n Y = true <-> met (b / 2) (2 * q + 1) xs).
        { set (p := (q * b + pow2 (d + lg))%N).
          assert (Hpb : (p / b = q)%N).
          { symmetry. assert (Gp := pow2_pos (d + lg)). apply (N.div_unique p b q (pow2 (d + lg))); unfold p; lia. }
          assert (Hps := block_small q p Hs Hpb).
          rewrite Eh. replace (2 * q + 1)%N with (p / pow2 (d + lg))%N.
          2: { unfold p. rewrite Eb. replace (q * (2 * pow2 (d + lg)) + pow2 (d + lg))%N with ((2 * q + 1) * pow2 (d + lg))%N by lia.
               apply N.div_mul; auto. }
          rewrite <- Eg. rewrite <- reach_sets by (auto; lia).
          assert (B : N.testbit p (N.of_nat (d + lg)) = true).
          { apply (testbit_right' (d + lg) (q * b)); [exact Hal|]. assert (Gp := pow2_pos (d + lg)). unfold p. lia. }
          unfold all_right. rewrite forallb_seq. split.
          - intros H i t Hi Et. destruct (HX i Hi) as (t0 & t' & E1 & E2 & W & R). rewrite Et in E1. injection E1 as <-.
            rewrite (proj2 (R _ Hpb)). specialize (H i Hi). rewrite E2 in H. cbn [reach pred]. rewrite B.
            destruct t'; auto; discriminate.
          - intros H i Hi. destruct (HX i Hi) as (t & t' & E1 & E2 & W & R). specialize (H i t Hi E1).
            rewrite (proj2 (R _ Hpb)) in H. rewrite E2. specialize (NF i t' Hi E2). cbn [reach pred] in H. rewrite B in H.
            destruct t'; auto; try discriminate; congruence. }
        exists ((if all_left n Y then [(2 * q)%N] else []) ++ (if all_right n Y then [(2 * q + 1)%N] else [])).
        split; [|split].
        * destruct (all_left n Y), (all_right n Y); cbn [app]; repeat constructor; cbn; intuition lia.
        * intros h. rewrite half_cases, in_app_iff.
          destruct (all_left n Y), (all_right n Y); cbn [In]; split.
          all: try (intros HH; destruct HH as [HH|HH]; [destruct HH as [HH|[]] + destruct HH|destruct HH as [HH|[]] + destruct HH];
                    subst h; (split; [auto|tauto])).
          all: intros ([Eh1|Eh1] & Hm); subst h; auto.
          all: try (apply Al in Hm; discriminate).
          all: try (apply Ar in Hm; discriminate).
        * rewrite EL. destruct (all_left n Y), (all_right n Y); reflexivity.
      + apply common_where_nil. intros v (Ev & H). apply NA. apply ErF in H; auto.
      + assert (E2 : concat (map (ginter Ts lmem lg D (S cut)) (snd (walk Ts lg true 1 (S d) Y (q * b))))
                = inter lmem lg n (S d) Y (q * b)).
        { rewrite <- EC. f_equal. apply map_ext. intros g. unfold ginter. replace (D - S cut) with d by lia. auto. }
        rewrite E2, <- ED. apply (common_where_iff _ _ _ _ HT). intros v. split; [|tauto]. intros Ev. split; auto.
        rewrite ErE by auto. auto.
  Qed.

  (** ** The fill loop *)

  Variable nThreads : N.

  Theorem expand_sets : forall qs made, increasing qs -> Forall (share b xs) qs ->
    exists es rest gs a, expand Ts lg D true cut nThreads (map task qs) made = (a, gs, map task rest) /\
      divided (N.to_nat nThreads) b xs qs made es rest /\
      common_where xs (fun v => In (v / b)%N es /\ Forall (run_around b v) xs) a /\
      common_where xs (fun v => In (v / b)%N es /\ ~ Exists (run_around b v) xs)
        (concat (map (ginter Ts lmem lg D (S cut)) gs)).
  Proof.
    induction qs as [|q qs IH]; intros made Hq HS.
    { exists [], [], [], []. split; auto. split; [constructor|]. split; apply common_where_nil; intros v ([] & _). }
    cbn [map expand]. assert (Hq' := Hq). inversion Hq' as [|? ? Hq2 Hlt]; subst.
    apply Forall_cons_iff in HS. destruct HS as (HS & HS'). cbn [length]. rewrite map_length.
    destruct (N.ltb_spec 1 (nThreads - N.of_nat (S (length qs) + made))) as [Hlt1|Hge].
    - destruct (task_divide q HS) as (D1 & D2 & D3).
      set (w := walk Ts lg true 1 (D - cut) (fst (task q)) (snd (task q))) in *.
      destruct (IH (made + length (snd w)) Hq2 HS') as (es & rest & gs & a & E & Di & C1 & C2).
      rewrite E. cbn [fst snd]. exists (q :: es), rest, (snd w ++ gs), (fst w ++ a). split; auto.
      assert (Hes : forall y, In y es -> (q < y)%N).
      { assert (Sub : forall m qs es rest, divided (N.to_nat nThreads) b xs qs m es rest -> incl es qs).
        { clear. induction 1; intros y Hy; cbn in *; intuition. }
        intros y Hy. rewrite Forall_forall in Hlt. apply Hlt. eapply Sub; eauto. }
      split; [eapply divided_go; eauto; cbn [length]; lia|]. split.
      + eapply common_where_app; [exact D2|exact C1| |].
        * intros x y (Ex & _) (Ey & _). apply (div_lt b). rewrite Ex. auto.
        * intros v. cbn [In]. split; [intros ([E1|E1] & H)|intros [(E1 & H)|(E1 & H)]]; auto.
      + rewrite map_app, concat_app. eapply common_where_app; [exact D3|exact C2| |].
        * intros x y (Ex & _) (Ey & _). apply (div_lt b). rewrite Ex. auto.
        * intros v. cbn [In]. split; [intros ([E1|E1] & H)|intros [(E1 & H)|(E1 & H)]]; auto.
    - exists [], (q :: qs), [], []. split; auto. split; [apply divided_stop; cbn [length]; lia|].
      split; apply common_where_nil; intros v ([] & _).
  Qed.

  Lemma rest_sets : forall qs, increasing qs -> Forall (share b xs) qs ->
    common_where xs (fun v => In (v / b)%N qs) (concat (map (ginter Ts lmem lg D cut) (map task qs))).
  Proof.
    induction qs as [|q qs IH]; intros Hq HS.
    { apply common_where_nil. intros v []. }
    cbn [map concat]. inversion Hq as [|? ? Hq2 Hlt]; subst. apply Forall_cons_iff in HS. destruct HS as (HS & HS').
    eapply common_where_app; [exact (task_inter q HS)|apply IH; auto| |].
    - intros x y Ex Ey. apply (div_lt b). rewrite Ex. rewrite Forall_forall in Hlt. apply Hlt; auto.
    - intros v. cbn [In]. intuition.
  Qed.

  (** ** The values pushed on the way *)

  Lemma run_smaller : forall k j v x, run_around (b * 2 ^ (j + k)) v x -> run_around (b * 2 ^ j) v x.
  Proof.
    intros k j v x (H1 & H2). split; auto. intros y Hy. apply H2.
    rewrite N.pow_add_r, N.mul_assoc. assert (G := pow2_nz (D - cut + lg)).
    assert (Gj : (2 ^ j <> 0)%N) by (apply N.pow_nonzero; discriminate).
    assert (Gk : (2 ^ k <> 0)%N) by (apply N.pow_nonzero; discriminate).
    assert (Gb : (b * 2 ^ j <> 0)%N) by (apply N.neq_mul_0; auto).
    rewrite <- (N.div_div y (b * 2 ^ j) (2 ^ k)), <- (N.div_div v (b * 2 ^ j) (2 ^ k)) by auto. rewrite Hy. auto.
  Qed.

  Theorem top_sets : forall v,
    (v < pow2 (D + lg))%N /\ topb Ts lg cut D X v = true <->
    common v /\ (exists j, (1 <= j)%N /\ Forall (run_around (b * 2 ^ j) v) xs) /\
                forall j, (1 <= j)%N -> ~ disagree (b * 2 ^ j) v xs.
  Proof.
    intros v. assert (ST := topb_spec Ts lmem lg Hn cut D X v ltac:(lia) X_somes X_wfs). split.
    - intros (Hv & H). apply ST in H. destruct H as (j & Hj & HA & HN).
      apply all_run_sets in HA; auto; [|lia].
      assert (EA : Forall (run_around (b * 2 ^ N.of_nat (cut - j)) v) xs).
      { rewrite size_at by lia. replace (cut - (cut - j)) with j by lia. auto. }
      split.
      { rewrite Forall_forall in *. intros x Hx. apply (EA x Hx). auto. }
      split; [exists (N.of_nat (cut - j)); split; [lia|auto]|].
      intros i Hi (D1 & D2). destruct (N.le_gt_cases i (N.of_nat (cut - j))) as [Hle|Hgt].
      + rewrite Exists_exists in D2. destruct D2 as (x & Hx & Nx). apply Nx. rewrite Forall_forall in EA.
        apply (run_smaller (N.of_nat (cut - j) - i)). replace (i + (N.of_nat (cut - j) - i))%N with (N.of_nat (cut - j)) by lia.
        auto.
      + destruct (N.le_gt_cases i (N.of_nat cut)) as [Hle|Hgt'].
        * revert D1. rewrite <- (N2Nat.id i), size_at by lia. apply no_run_sets; auto; [lia|]. apply HN. lia.
        * revert D1. apply big; auto.
    - intros (Hc' & (j & Hj & HA) & HD). assert (Hv := common_small v Hc'). split; auto. apply ST.
      assert (Hjc : (j <= N.of_nat cut)%N).
      { apply N.le_ngt. intros H. apply (big j v H Hv). assert (L := Forall2_length HF).
        destruct xs as [|x l]; [cbn in L; lia|]. inversion HA; subst. constructor; auto. }
      assert (HL : all_run Ts lg (cut - N.to_nat j) D X v).
      { apply all_run_sets; auto; [lia|]. rewrite <- size_at by lia. rewrite N2Nat.id. auto. }
      (* the first level at which all have a run *)
      assert (Dec : forall i, i < cut -> {all_run Ts lg i D X v} + {~ all_run Ts lg i D X v}).
      { intros i Hi. destruct (forallb (fun k => match X k with Some t => runat lg i D t v | None => true end) (seq 0 n)) eqn:E.
        - left. rewrite forallb_seq in E. intros k t Hk Et. specialize (E k Hk). rewrite Et in E. auto.
        - right. apply forallb_seq_false in E. destruct E as (k & Hk & E). intros H.
          destruct (X k) as [t|] eqn:Et; [|discriminate]. rewrite (H k t Hk Et) in E. discriminate. }
      assert (First : forall m, m < cut -> all_run Ts lg m D X v ->
                exists i, i <= m /\ all_run Ts lg i D X v /\ forall i', i' < i -> ~ all_run Ts lg i' D X v).
      { clear HL. intros m. induction m as [m IHm] using (well_founded_induction lt_wf). intros Hm HL.
        assert (Dec2 : (exists i', i' < m /\ all_run Ts lg i' D X v) \/ (forall i', i' < m -> ~ all_run Ts lg i' D X v)).
        { assert (G : forall k, k <= m -> (exists i', i' < k /\ all_run Ts lg i' D X v) \/
                             (forall i', i' < k -> ~ all_run Ts lg i' D X v)).
          { induction k; intros Hk; [right; intros; lia|]. destruct (IHk ltac:(lia)) as [(i' & ? & ?)|Hno].
            - left. exists i'. split; auto.
            - destruct (Dec k ltac:(lia)) as [Hy|Hn']; [left; exists k; auto|]. right. intros i' Hi'.
              destruct (Nat.eq_dec i' k) as [->|]; auto. apply Hno. lia. }
          apply (G m). auto. }
        destruct Dec2 as [(i' & Hi' & HA')|Hno].
        - destruct (IHm i' Hi' ltac:(lia) HA') as (i & Hi & H). exists i. split; [lia|auto].
        - exists m. auto. }
      destruct (First (cut - N.to_nat j) ltac:(lia) HL) as (i & Hi & HA' & HN').
      exists i. split; [lia|]. split; auto. intros i' Hi'. apply no_run_sets; auto; [lia|]. intros Ex.
      apply (HD (N.of_nat (cut - i')) ltac:(lia)). rewrite size_at by lia. replace (cut - (cut - i')) with i' by lia.
      split; auto. assert (NA := HN' i' Hi'). rewrite all_run_sets in NA by (auto; lia).
      assert (Dx : forall x, In x xs -> run_around (pow2 (D + lg - i')) v x \/ ~ run_around (pow2 (D + lg - i')) v x).
      { intros x Hx. apply In_nth_error in Hx. destruct Hx as (k & Ek).
        assert (Lk : k < length ts) by (rewrite (Forall2_length HF); apply nth_error_Some; congruence).
        destruct (nth_error ts k) as [t|] eqn:Et; [|apply nth_error_None in Et; lia].
        destruct (Forall2_nth _ _ _ _ _ _ _ HF Et) as (x' & Ex' & Hs). rewrite Ek in Ex'. injection Ex' as <-.
        rewrite <- (stands_run lfull lmem lg D c Hc t x v i' Hs) by (auto; lia).
        destruct (runat lg i' D t v); [left|right]; congruence. }
      clear - NA Dx. induction xs as [|x l IHl]; [exfalso; apply NA; constructor|].
      destruct (Dx x ltac:(left; auto)) as [Hr|Hr].
      + right. apply IHl; [|intros; apply Dx; right; auto]. intros H. apply NA. constructor; auto.
      + left. auto.
  Qed.

  (** The tasks, the ones divided and the ones left. *)
  Theorem plan_sets : exists qs es rest gs a,
    increasing qs /\ (forall q, In q qs <-> share b xs q) /\
    snd (walk Ts lg true cut D X 0%N) = map task qs /\
    expand Ts lg D true cut nThreads (map task qs) 0 = (a, gs, map task rest) /\
    divided (N.to_nat nThreads) b xs qs 0 es rest /\ qs = es ++ rest /\
    common_where xs (fun v => In (v / b)%N es /\ Forall (run_around b v) xs) a /\
    common_where xs (fun v => In (v / b)%N es /\ ~ Exists (run_around b v) xs)
      (concat (map (ginter Ts lmem lg D (S cut)) gs)).
  Proof.
    rewrite (walk_snd Ts lmem lg Hn cut D X 0) by (auto using aligned_0; lia).
    set (ps := filter (fun v => openb Ts lg cut D X v && startb (D - cut + lg) v)%bool (nrange 0 (2 ^ (D + lg)))).
    set (qs := map (fun v => v / b)%N ps).
    assert (Hps : forall v, In v ps <-> (v < pow2 (D + lg))%N /\ openb Ts lg cut D X v = true /\ (v mod b = 0)%N).
    { intros v. unfold ps. rewrite filter_In, In_nrange, of_nat_pow2, andb_true_iff. unfold startb. rewrite N.eqb_eq.
      split; intros H; repeat split; try tauto; lia. }
    assert (Hst : forall v, In v ps -> (v / b * b = v)%N).
    { intros v Hv. apply Hps in Hv. assert (E := N.div_mod' v b). lia. }
    assert (Iq : increasing qs).
    { unfold qs. assert (Sp : StronglySorted N.lt ps) by (apply filter_sorted, nrange_sorted). clear - Sp Hst.
      induction Sp as [|a l Sp IHs Hf]; [constructor|]. cbn [map]. constructor.
      - apply IHs. intros v Hv. apply Hst. right; auto.
      - apply Forall_forall. intros y Hy. apply in_map_iff in Hy. destruct Hy as (v & <- & Hv).
        rewrite Forall_forall in Hf. specialize (Hf v Hv). assert (E1 := Hst a ltac:(left; auto)).
        assert (E2 := Hst v ltac:(right; auto)). apply N.lt_nge. intros Hle.
        assert (v <= a)%N; [|lia]. rewrite <- E1, <- E2. apply N.mul_le_mono_r. auto. }
    assert (Mq : forall q, In q qs <-> share b xs q).
    { intros q. unfold qs. rewrite in_map_iff. split.
      - intros (v & <- & Hv). assert (E := Hst v Hv). apply Hps in Hv. apply share_open; rewrite E; tauto.
      - intros Hq. exists (q * b)%N. split; [apply div_mul_b|]. assert (Hs := met_small q (proj1 Hq)). apply Hps.
        split; auto. split; [apply share_open; auto|]. apply N.mod_mul, pow2_nz. }
    assert (HSq : Forall (share b xs) qs) by (apply Forall_forall; intros q; apply Mq).
    assert (Et : map (fun v => (down lg cut D X v, v)) ps = map task qs).
    { unfold qs. rewrite map_map. apply map_ext_in. intros v Hv. unfold task. rewrite (Hst v Hv). auto. }
    rewrite Et. destruct (expand_sets qs 0 Iq HSq) as (es & rest & gs & a & E & Di & C1 & C2).
    assert (Er : qs = es ++ rest).
    { clear - Di. induction Di; auto. cbn [app]. f_equal. auto. }
    exists qs, es, rest, gs, a. auto 10.
  Qed.

  Theorem outcome_sets : parallel_outcome b (N.to_nat nThreads) xs (outcome Ts lmem lg D true cut nThreads X).
  Proof.
    destruct plan_sets as (qs & es & rest & gs & a & Iq & Mq & Ew & Ee & Di & Er & C1 & C2).
    assert (HSq : Forall (share b xs) qs) by (apply Forall_forall; intros q; apply Mq).
    unfold outcome. rewrite Ew, Ee. cbn [fst snd].
    rewrite (walk_fst Ts lmem lg Hn cut D X 0) by (auto using aligned_0; lia).
    exists qs, es, rest, (filter (topb Ts lg cut D X) (nrange 0 (2 ^ (D + lg)))), a,
      (concat (map (ginter Ts lmem lg D (S cut)) gs)), (concat (map (ginter Ts lmem lg D cut) (map task rest))).
    split; auto. split; auto. split; auto. split; auto. split; [|split; auto; split; auto].
    - split; [apply filter_sorted, nrange_sorted|]. intros v. rewrite <- top_sets, filter_In, In_nrange, of_nat_pow2.
      split; intros (H1 & H2); split; auto; lia.
    - apply rest_sets.
      + rewrite Er in Iq. clear - Iq. induction es as [|e es IH]; auto. apply IH. inversion Iq; auto.
      + rewrite Er in HSq. apply Forall_app in HSq. tauto.
  Qed.

  Theorem divided_sets : exists qs es rest,
    increasing qs /\ (forall q, In q qs <-> share b xs q) /\
    divided (N.to_nat nThreads) b xs qs 0 es rest /\
    plan_divided Ts lg D true cut nThreads X = length es.
  Proof.
    destruct plan_sets as (qs & es & rest & gs & a & Iq & Mq & Ew & Ee & Di & Er & _).
    exists qs, es, rest. split; auto. split; auto. split; auto.
    unfold plan_divided. rewrite Ew, Ee. cbn [snd]. rewrite !map_length, Er, app_length. lia.
  Qed.
End ExactSets.

(** * Tries built from sets *)

Theorem bin_par_exact : forall (u : N) (l : list bitem) hc s1 s2,
  (3 <= u <= 2 ^ 48)%N -> 1 <= length l <= 16 -> Forall (bitem_ok u) l ->
  (1 <= hc < 2 ^ 16)%N -> valid_scheduler s1 -> valid_scheduler s2 -> (4 * 2 ^ N.log2 hc <= rounded u)%N ->
  exists Ts r, each_ok (make_bitem u) l = Ok Ts /\
    Intersect Bin s1 s2 hc (map bin_ops Ts) true true = Ok r /\
    parallel_outcome (thread_block u hc) (N.to_nat (2 ^ N.log2 hc)) (map b_part l) r.
Proof.
  intros u l hc s1 s2 Hu Hn Hl Hhc V1 V2 H4.
  destruct (bin_family_runs u l ltac:(lia) Hl) as (h & Ts & ts & H1 & Hp & H2 & Hh & E & HR & HS & HB).
  specialize (H2 ltac:(lia)).
  assert (Ln : length (map bin_ops Ts) = length l).
  { rewrite (Forall2_length HR), (Forall2_length HS), map_length. auto. }
  assert (Hb : par_branch h hc true = true).
  { rewrite (height_rounded u h) in H4 by (auto; lia). unfold par_branch. cbn [andb].
    replace (h <? 2) with false by (symmetry; apply Nat.ltb_ge; lia). cbn [orb]. rewrite Nat.leb_le.
    change 4%N with (2 ^ 2)%N in H4. rewrite <- N.pow_add_r in H4. unfold pow2 in H4.
    rewrite <- N.pow_le_mono_r_iff in H4 by lia. lia. }
  destruct (hc_threads hc ltac:(lia) ltac:(lia)) as (H15 & H3 & _).
  destruct (bin_cut h H1 hc ltac:(lia) ltac:(lia) ltac:(lia) true Hb) as (C1 & C2).
  destruct (par_intersect Bin (map bin_ops Ts) h umem 0 h (leafok lok_bin (map bin_ops Ts)) true ltac:(lia) ltac:(lia)
             (bin_end h) (bin_tot h) ltac:(lia) ltac:(lia) (bin_last h) (bin_leaf h (map bin_ops Ts)) true
             (forest_of ts)) with (hc := hc) (s1 := s1) (s2 := s2) (parallel := true)
    as (r & m & Er & _ & _ & _ & _ & _ & Eo & _); auto; try lia; try discriminate.
  { eapply inst_okf; eauto. lia. }
  { eapply inst_somes; eauto. }
  { eapply inst_heights; eauto. }
  exists Ts, r. split; auto. split; [unfold Intersect; rewrite Er; auto|].
  assert (Hcut : S (N.to_nat (N.log2 hc)) <= pred h).
  { unfold par_branch in Hb. cbn [andb] in Hb. apply orb_prop in Hb.
    destruct Hb as [Hb|Hb]; [apply Nat.ltb_lt in Hb; lia|]. apply Nat.leb_le in Hb. lia. }
  assert (HF : Forall2 (stands ufull umem 0 h (pred h)) ts (map b_part l)).
  { apply Forall2_map_both. apply Forall2_unmap_r in HS.
    assert (HW : forall t, In t ts -> wf h t).
    { intros t Ht. apply In_nth_error in Ht. destruct Ht as (i & Ei).
      apply Forall2_flip in HR. destruct (Forall2_nth _ _ _ _ _ _ _ HR Ei) as (o & _ & (_ & W & _)). auto. }
    eapply Forall2_impl; [|exact (Forall2_in_l _ _ _ _ _ _ HW (Forall2_and _ _ _ _ _ _ HS HB))].
    cbn. intros t x (W & Hsel & Hf & Ht). split; auto. split; auto. split; auto.
    intros He. split; [apply Ht; auto|apply unit_gaps]. }
  assert (HI : Forall (inhabited 0 umem) ts) by (apply Forall_forall; intros t _; apply unit_inhabited).
  rewrite Eo. rewrite (thread_block_pow2 u h hc) by (auto; lia).
  assert (EX := outcome_sets ufull umem 0 h (pred h) ltac:(lia) (map bin_ops Ts) ts (map b_part l) ltac:(lia)
                  (Forall2_length HR) HF HI _ Hcut (2 ^ N.log2 hc)%N).
  rewrite Nat.add_0_r in EX. exact EX.
Qed.

Theorem fast_par_exact : forall (u : N) (lw : nat) (l : list fitem) hc s1 s2,
  fast_universe u lw -> (2 ^ N.of_nat lw < u)%N -> 1 <= length l <= 16 -> Forall (fitem_ok u) l ->
  (1 <= hc < 2 ^ 16)%N -> valid_scheduler s1 -> valid_scheduler s2 ->
  (2 * 2 ^ N.of_nat lw * 2 ^ N.log2 hc <= rounded u)%N ->
  exists Ts r, each_ok (make_fitem u lw) l = Ok Ts /\
    Intersect (Fast lw) s1 s2 hc (map fast_ops Ts) true true = Ok r /\
    parallel_outcome (thread_block u hc) (N.to_nat (2 ^ N.log2 hc)) (map f_part l) r.
Proof.
  intros u lw l hc s1 s2 (Hlw & Hu) Hbig Hn Hl Hhc V1 V2 H4.
  assert (H8 : (2 ^ N.of_nat 3 <= 2 ^ N.of_nat lw)%N).
  { apply N.pow_le_mono_r; [lia|]. cbn in Hlw. lia. }
  change (2 ^ N.of_nat 3)%N with 8%N in H8.
  destruct (height_of_spec u ltac:(lia)) as (h & Hh & H1 & Hp & H2 & Hk).
  assert (Hlh : lw < h).
  { apply Hk. exact Hbig. }
  assert (H6 : lw <= 6) by (cbn in Hlw; lia).
  assert (Eh : h - lw + lw = h) by lia. assert (Hd : 1 <= h - lw) by lia. set (d := h - lw) in *.
  destruct (each_ok_spec _ _ (make_fitem u lw) (fun x t => exists T, T = fast_tree lw d (f_enc x) (snd x) /\
    repr lok_fast d (S d) (fast_ops t) T /\ sel (wmem lw) (d + lw) T 0 = snd x /\ snd x <> []) l) as (Ts & E & HT).
  { eapply Forall_impl; [|exact Hl]. intros [[[jh je] e] s] Hx.
    destruct (fast_make_tree u h lw jh je e s Hh H6 ltac:(lia) ltac:(lia) Hp Hx) as (t & ? & ? & ?). exists t. split; auto.
    destruct Hx as (Hne & _). eauto 6. }
  apply Forall2_split in HT. destruct HT as (ts & HA & HB).
  assert (HR : Forall2 (repr lok_fast d (S d)) (map fast_ops Ts) ts).
  { apply Forall2_map_l. eapply Forall2_impl; [|exact HA]. cbn. intros t T (x & _ & _ & ? & _). auto. }
  assert (HF : Forall2 (stands (xfull lw) (wmem lw) lw d d) ts (map f_part l)).
  { apply Forall2_map_both. eapply Forall2_impl; [|exact HB]. cbn. intros T x (t & -> & (_ & W & _) & Es & Hne).
    split; auto. split; auto. unfold f_part. cbn [fst]. unfold fast_tree in *. split; intros He; rewrite He in *.
    - apply tree_of_plain.
    - split; [|apply words_gaps]. apply (compress_tight (xfull lw) false _ d); auto; [|discriminate]. apply tree_of_wf. }
  assert (HI : Forall (inhabited lw (wmem lw)) ts).
  { apply Forall_forall. intros T HTi. apply In_nth_error in HTi. destruct HTi as (i & Ei).
    destruct (Forall2_nth _ _ _ _ _ _ _ HB Ei) as (x & Ex & (t & -> & _ & _ & Hne)). apply fast_inhabited; auto. }
  assert (Ln : length (map fast_ops Ts) = length l).
  { rewrite (Forall2_length HR), (Forall2_length HF), map_length. auto. }
  assert (Hb : par_branch (S d) hc true = true).
  { rewrite (height_rounded u h) in H4 by (auto; lia). unfold par_branch. cbn [andb].
    replace (S d <? 2) with false by (symmetry; apply Nat.ltb_ge; lia). cbn [orb]. rewrite Nat.leb_le.
    rewrite <- N.pow_succ_r', <- N.pow_add_r in H4. unfold pow2 in H4. rewrite <- N.pow_le_mono_r_iff in H4 by lia. lia. }
  destruct (hc_threads hc ltac:(lia) ltac:(lia)) as (H15 & H3 & _).
  destruct (fast_cut d hc ltac:(lia) true Hb) as (C1 & C2).
  destruct (par_intersect (Fast lw) (map fast_ops Ts) (S d) (wmem lw) lw d (leafok lok_fast (map fast_ops Ts)) false
             ltac:(lia) ltac:(lia)
             (fast_end lw d) (fast_tot lw d) ltac:(lia) ltac:(lia) (fast_last d)
             (fast_leaf lw d H6 (map fast_ops Ts)) true
             (forest_of ts)) with (hc := hc) (s1 := s1) (s2 := s2) (parallel := true)
    as (r & m & Er & _ & _ & _ & _ & _ & Eo & _); auto; try lia; try discriminate.
  { eapply inst_okf; eauto. lia. }
  { eapply inst_somes; eauto. }
  { eapply inst_heights; eauto. }
  exists Ts, r. split; auto. split; [unfold Intersect; rewrite Er; auto|].
  assert (Hcut : S (N.to_nat (N.log2 hc)) <= d).
  { unfold par_branch in Hb. cbn [andb] in Hb. apply orb_prop in Hb.
    destruct Hb as [Hb|Hb]; [apply Nat.ltb_lt in Hb; lia|]. apply Nat.leb_le in Hb. lia. }
  rewrite Eo. rewrite (thread_block_pow2 u h hc) by (auto; lia).
  assert (EX := outcome_sets (xfull lw) (wmem lw) lw d d ltac:(lia) (map fast_ops Ts) ts (map f_part l) ltac:(lia)
                  (Forall2_length HR) HF HI _ Hcut (2 ^ N.log2 hc)%N).
  replace (h - N.to_nat (N.log2 hc)) with (d - N.to_nat (N.log2 hc) + lw) by lia. exact EX.
Qed.

(** * The description leaves no choice *)

Lemma increasing_unique : forall a b, increasing a -> increasing b -> (forall v, In v a <-> In v b) -> a = b.
Proof. intros. apply sorted_unique; auto. Qed.

Lemma tasks_of_unique : forall b xs q k k', tasks_of b xs q k -> tasks_of b xs q k' -> k = k'.
Proof.
  intros b xs q k k' [(H1 & ->)|(H1 & hs & N1 & M1 & ->)] [(H2 & ->)|(H2 & hs' & N2 & M2 & ->)]; auto; try contradiction.
  apply Nat.le_antisymm; apply NoDup_incl_length; auto; intros h Hh; [apply M2, M1|apply M1, M2]; auto.
Qed.

Lemma divided_unique : forall nT b xs qs made es rest, divided nT b xs qs made es rest ->
  forall es' rest', divided nT b xs qs made es' rest' -> es = es' /\ rest = rest'.
Proof.
  intros nT b xs qs made es rest H. induction H as [made|q qs made Hs|q qs made k es rest Hg Hk Hd IH]; intros es' rest' H'.
  - inversion H'; auto.
  - inversion H' as [|? ? ? Hs'|? ? ? k' es2 rest2 Hg' Hk' Hd']; subst; auto. lia.
  - inversion H' as [|? ? ? Hs'|? ? ? k' es2 rest2 Hg' Hk' Hd']; subst; [lia|].
    assert (k = k') by (eapply tasks_of_unique; eauto). subst k'.
    destruct (IH _ _ Hd') as (-> & ->). auto.
Qed.

Lemma common_where_unique : forall xs P r r', common_where xs P r -> common_where xs P r' -> r = r'.
Proof. intros xs P r r' (H1 & H2) (H3 & H4). apply increasing_unique; auto. intros v. rewrite H2, H4. tauto. Qed.

Theorem outcome_unique : forall b nT xs r r', parallel_outcome b nT xs r -> parallel_outcome b nT xs r' -> r = r'.
Proof.
  intros b nT xs r r' (qs & es & rest & r1 & r2 & r3 & r4 & Q1 & Q2 & Q3 & -> & A1 & A2 & A3 & A4)
    (qs' & es' & rest' & r1' & r2' & r3' & r4' & Q1' & Q2' & Q3' & -> & A1' & A2' & A3' & A4').
  assert (qs = qs') by (apply increasing_unique; auto; intros v; rewrite Q2, Q2'; tauto). subst qs'.
  destruct (divided_unique _ _ _ _ _ _ _ Q3 _ _ Q3') as (<- & <-).
  rewrite (common_where_unique _ _ _ _ A1 A1'), (common_where_unique _ _ _ _ A2 A2'),
    (common_where_unique _ _ _ _ A3 A3'), (common_where_unique _ _ _ _ A4 A4'). auto.
Qed.

(** * Which common values are returned *)

Lemma run_dec : forall b v x, (b <> 0)%N -> run_around b v x \/ ~ run_around b v x.
Proof.
  intros b v x Hb. destruct x as [e s]. unfold run_around. cbn [fst snd].
  destruct e; [|right; intros (H & _); discriminate].
  assert (HB : forall y, (y / b = v / b)%N <-> In y (nrange (v / b * b) (N.to_nat b))).
  { intros y. rewrite In_nrange, N2Nat.id. assert (E := N.div_mod' y b). assert (M := N.mod_lt y b Hb).
    split; [intros Hy; rewrite <- Hy; lia|]. intros H. symmetry. apply (N.div_unique y b (v / b) (y - v / b * b)); lia. }
  destruct (Forall_Exists_dec (fun y => In y s) (fun y => in_dec N.eq_dec y s) (nrange (v / b * b) (N.to_nat b))) as [HA|HE].
  - left. split; auto. intros y Hy. rewrite Forall_forall in HA. apply HA. apply HB. auto.
  - right. intros (_ & H). rewrite Exists_exists in HE. destruct HE as (y & Hy & Ny). apply Ny, H, HB. auto.
Qed.

Lemma runs_cases : forall b v xs, (b <> 0)%N ->
  disagree b v xs \/ Forall (run_around b v) xs \/ ~ Exists (run_around b v) xs.
Proof.
  intros b v xs Hb. unfold disagree.
  assert (G : forall (P : bool * list N -> Prop) xs, (forall x, P x \/ ~ P x) -> Exists P xs \/ Forall (fun x => ~ P x) xs).
  { clear. intros P xs H. induction xs as [|x xs IH]; auto. destruct (H x) as [Hx|Hx]; auto.
    destruct IH as [IH|IH]; auto. }
  destruct (G (run_around b v) xs (fun x => run_dec b v x Hb)) as [H1|H1].
  - destruct (G (fun x => ~ run_around b v x) xs) as [H2|H2].
    + intros x. destruct (run_dec b v x Hb); auto.
    + left. auto.
    + right. left. eapply Forall_impl; [|exact H2]. intros x Hx. cbv beta in Hx. destruct (run_dec b v x Hb) as [Hy|Hy]; [exact Hy|exfalso; exact (Hx Hy)].
  - right. right. apply Forall_Exists_neg. auto.
Qed.

Lemma agree_all : forall b v xs, xs <> [] -> Forall (run_around b v) xs -> ~ disagree b v xs.
Proof.
  intros b v xs Hx H (_ & H2). rewrite Exists_exists in H2. destruct H2 as (x & I1 & N1).
  rewrite Forall_forall in H. auto.
Qed.

Theorem outcome_members : forall b nT xs r, (b <> 0)%N -> xs <> [] -> parallel_outcome b nT xs r ->
  exists qs es rest, increasing qs /\ (forall q, In q qs <-> share b xs q) /\ divided nT b xs qs 0 es rest /\
    NoDup r /\
    forall v, In v r <-> Forall (fun x => In v (snd x)) xs /\
      (forall j, (1 <= j)%N -> ~ disagree (b * 2 ^ j) v xs) /\ (In (v / b)%N es -> ~ disagree b v xs).
Proof.
  intros b nT xs r Hb Hx (qs & es & rest & r1 & r2 & r3 & r4 & Q1 & Q2 & Q3 & -> & (I1 & A1) & (I2 & A2) & (I3 & A3) & (I4 & A4)).
  exists qs, es, rest. split; auto. split; auto. split; auto.
  assert (Er : qs = es ++ rest) by (clear - Q3; induction Q3; auto; cbn [app]; f_equal; auto).
  assert (Gj : forall j, (b * 2 ^ j <> 0)%N).
  { intros j. apply N.neq_mul_0. split; auto. apply N.pow_nonzero. discriminate. }
  assert (NoEx : forall q, In q qs -> forall v, (v / b = q)%N -> forall j, (1 <= j)%N -> ~ Exists (run_around (b * 2 ^ j) v) xs).
  { intros q Hq v Ev j Hj. apply Q2 in Hq. destruct Hq as (_ & Hq). intros H. apply (Hq j Hj).
    rewrite Exists_exists in *. destruct H as (x & H1 & H2 & H3). exists x. split; auto. split; auto. intros y Hy.
    apply H3. rewrite Hy. assert (Gp : (2 ^ j <> 0)%N) by (apply N.pow_nonzero; discriminate).
    rewrite <- (N.div_div (q * b) b (2 ^ j)), <- (N.div_div v b (2 ^ j)) by auto. rewrite N.div_mul by auto. congruence. }
  assert (Nq : NoDup qs).
  { clear - Q1. unfold increasing in Q1. induction Q1 as [|a l Q1 IH Hf]; constructor; auto.
    intros H. rewrite Forall_forall in Hf. specialize (Hf a H). lia. }
  assert (Dis : forall q, In q es -> In q rest -> False).
  { intros q H1 H2. rewrite Er in Nq. clear - Nq H1 H2. induction es as [|e es IH]; [destruct H1|].
    cbn [app] in Nq. inversion Nq as [|? ? Ha Hb]; subst. destruct H1 as [->|H1]; [apply Ha, in_or_app; auto|]. auto. }
  assert (Ne : forall v P, Forall (run_around P v) xs -> ~ Exists (run_around P v) xs -> False).
  { intros v P H1 H2. destruct xs as [|x l]; [congruence|]. apply H2. inversion H1; subst. constructor. auto. }
  assert (Incr : forall l, increasing l -> NoDup l).
  { clear. intros l H. unfold increasing in H. induction H as [|a l Q1 IH Hf]; constructor; auto.
    intros H1. rewrite Forall_forall in Hf. specialize (Hf a H1). lia. }
  split.
  { assert (NA : forall a c : list N, NoDup a -> NoDup c -> (forall v, In v a -> In v c -> False) -> NoDup (a ++ c)).
    { intros a c Ha Hc H. apply NoDup_both; auto. }
    apply NA; [auto|apply NA; [auto|apply NA; auto|]|].
    - intros v H3 H4. apply A3 in H3. apply A4 in H4. destruct H3 as (_ & H3 & _), H4 as (_ & H4). eauto.
    - intros v H2 H34. apply A2 in H2. destruct H2 as (_ & H2 & H2'). apply in_app_or in H34. destruct H34 as [H3|H4].
      + apply A3 in H3. destruct H3 as (_ & _ & H3). eauto.
      + apply A4 in H4. destruct H4 as (_ & H4). eauto.
    - intros v H1 H234. apply A1 in H1. destruct H1 as (_ & (j & Hj & H1) & _).
      assert (Hin : In (v / b)%N qs).
      { rewrite Er. apply in_or_app. rewrite !in_app_iff, A2, A3, A4 in H234. tauto. }
      apply (Ne v (b * 2 ^ j)%N); auto. apply (NoEx _ Hin); auto. }
  intros v. rewrite !in_app_iff, A1, A2, A3, A4. cbv beta. split.
  - intros [(Hc & (j & Hj & HA) & HD)|[(Hc & Hin & HA)|[(Hc & Hin & HN)|(Hc & Hin)]]].
    + split; auto. split; auto. intros Hin. exfalso. apply (Ne v (b * 2 ^ j)%N); auto.
      apply (NoEx (v / b)%N); auto. rewrite Er. apply in_or_app; auto.
    + split; auto. assert (Hq : In (v / b)%N qs) by (rewrite Er; apply in_or_app; auto). split.
      * intros j Hj (H & _). revert H. apply (NoEx _ Hq); auto.
      * intros _. apply agree_all; auto.
    + split; auto. assert (Hq : In (v / b)%N qs) by (rewrite Er; apply in_or_app; auto). split.
      * intros j Hj (H & _). revert H. apply (NoEx _ Hq); auto.
      * intros _ (H & _). auto.
    + split; auto. assert (Hq : In (v / b)%N qs) by (rewrite Er; apply in_or_app; auto). split.
      * intros j Hj (H & _). revert H. apply (NoEx _ Hq); auto.
      * intros H. exfalso. eauto.
  - intros (Hc & HD & He).
    destruct (in_dec N.eq_dec (v / b)%N qs) as [Hq|Hq].
    + rewrite Er in Hq. apply in_app_or in Hq. destruct Hq as [Hq|Hq]; [|right; right; right; auto].
      destruct (runs_cases b v xs Hb) as [H|[H|H]].
      * exfalso. exact (He Hq H).
      * right. left. auto.
      * right. right. left. auto.
    + left. split; auto. split; auto.
      (* some size has a run of all: otherwise the block would be a share *)
      assert (Hs : ~ share b xs (v / b)%N) by (intros H; apply Hq, Q2; auto).
      assert (Hm : met b (v / b) xs).
      { unfold met. eapply Forall_impl; [|exact Hc]. intros x Hv. exists v. auto. }
      assert (Bound : exists B, forall j, (B < j)%N -> ~ Exists (run_around (b * 2 ^ j) v) xs).
      { destruct xs as [|x0 l0] eqn:Ex0; [congruence|]. rewrite <- Ex0 in *. clear Ex0.
        exists (fold_right N.max 0 (concat (map snd xs)) + 1)%N. intros j Hj H.
        rewrite Exists_exists in H. destruct H as (x & Hx1 & _ & Hall).
        assert (Mx : forall l y, In y l -> (y <= fold_right N.max 0 l)%N).
        { clear. induction l as [|a l IH]; intros y []; cbn [fold_right]; [subst; lia|]. specialize (IH y H). lia. }
        set (M := fold_right N.max 0%N (concat (map snd xs))) in *.
        assert (Hin : forall y, In y (snd x) -> (y <= M)%N).
        { intros y Hy. apply Mx. apply in_concat. exists (snd x). split; auto. apply in_map. auto. }
        assert (Gb := Gj j). set (c := (b * 2 ^ j)%N) in *.
        assert (HcM : (M + 1 < c)%N).
        { assert (j < 2 ^ j)%N by (apply N.pow_gt_lin_r; reflexivity). unfold c. nia. }
        specialize (Hall (v / c * c + (c - 1))%N).
        assert (E : ((v / c * c + (c - 1)) / c = v / c)%N).
        { symmetry. apply (N.div_unique _ c (v / c) (c - 1)); lia. }
        specialize (Hall E). apply Hin in Hall. clear - Hall HcM. generalize dependent (v / c * c)%N. intros z Hz. lia. }
      destruct Bound as (B & HB).
      assert (Fin : forall k, (exists j, (1 <= j <= N.of_nat k)%N /\ Forall (run_around (b * 2 ^ j) v) xs) \/
                  (forall j, (1 <= j <= N.of_nat k)%N -> ~ Exists (run_around (b * 2 ^ j) v) xs)).
      { induction k as [|k IH]; [right; intros; lia|]. destruct IH as [(j & Hj & H)|IH].
        - left. exists j. split; auto. lia.
        - destruct (runs_cases (b * 2 ^ N.of_nat (S k)) v xs (Gj _)) as [H|[H|H]].
          + exfalso. apply (HD (N.of_nat (S k)) ltac:(lia) H).
          + left. exists (N.of_nat (S k)). split; auto. lia.
          + right. intros j Hj. destruct (N.eq_dec j (N.of_nat (S k))) as [->|]; auto. apply IH. lia. }
      destruct (Fin (N.to_nat B)) as [(j & Hj & H)|H].
      * exists j. split; auto. lia.
      * exfalso. apply Hs. split; auto. intros j Hj He'.
        assert (He2 : Exists (run_around (b * 2 ^ j) v) xs).
        { rewrite Exists_exists in *. destruct He' as (x & H1 & H2 & H3). exists x. split; auto. split; auto. intros y Hy.
          apply H3. rewrite Hy. assert (Gp : (2 ^ j <> 0)%N) by (apply N.pow_nonzero; discriminate).
          rewrite <- (N.div_div (v / b * b) b (2 ^ j)), <- (N.div_div v b (2 ^ j)) by auto. rewrite N.div_mul by auto. congruence. }
        destruct (N.le_gt_cases j B); [|exact (HB j ltac:(lia) He2)]. apply (H j); auto. lia.
Qed.
