(** Intersect on tries built from sets: the statements used by the property
    files. *)

From Coq Require Import Permutation.
From Verif Require Import Base FlatTrie LevelTrie FastTrie ParallelFor Intersection Tries Facts Tree
  Groups Reps Layout BuildFlat BuildLevel BuildFast WordBits Spec RoundTrip RoundTripFacts
  Compress CompressFast RunsFacts RunsThms SpecTries
  InterSpec InterSeq ParFacts InterPar InterPlan InterTop InterInst InterTight InterMain.

Lemma Forall2_impl : forall X Y (P Q : X -> Y -> Prop) a b, (forall x y, P x y -> Q x y) ->
  Forall2 P a b -> Forall2 Q a b.
Proof. intros X Y P Q a b H F. induction F; auto. Qed.

Lemma Forall2_flip : forall X Y (P : X -> Y -> Prop) a b,
  Forall2 P a b -> Forall2 (fun y x => P x y) b a.
Proof. intros X Y P a b F. induction F; auto. Qed.

Lemma Forall2_map_l : forall X Y Z (f : X -> Y) (P : Y -> Z -> Prop) a b,
  Forall2 (fun x z => P (f x) z) a b -> Forall2 P (map f a) b.
Proof. intros X Y Z f P a b H. induction H; cbn; auto. Qed.

Lemma Forall2_map_r : forall X Y Z (f : X -> Y) (P : Z -> Y -> Prop) a b,
  Forall2 (fun z x => P z (f x)) a b -> Forall2 P a (map f b).
Proof. intros X Y Z f P a b H. induction H; cbn; auto. Qed.

(** A relation through a middle list. *)
Lemma Forall2_split : forall X Y Z (P : X -> Y -> Z -> Prop) a b,
  Forall2 (fun x y => exists z, P x y z) a b ->
  exists c, Forall2 (fun y z => exists x, In x a /\ P x y z) b c /\ Forall2 (fun z x => exists y, P x y z) c a.
Proof.
  intros X Y Z P a b H. induction H as [|x y a b (z & Hz) H IH].
  - exists []. auto.
  - destruct IH as (c & H1 & H2). exists (z :: c). split; constructor; auto.
    + exists x. split; auto. left; auto.
    + eapply Forall2_impl; [|exact H1]. cbn. intros y' z' (x' & Hi & Hp). exists x'. auto.
    + eauto.
Qed.

(** What the tree of a stored set is like: without runs, or with a run at every
    block of at least four values that the set contains. *)
Definition bin_tree_ok (h : nat) (T : tree unit) (x : bitem) : Prop :=
  (snd (fst x) = false -> plain T) /\ (snd (fst x) = true -> tight ufull (pred h) T).

Lemma bin_family_runs : forall u (l : list bitem), (2 <= u <= 2 ^ 48)%N -> Forall (bitem_ok u) l ->
  exists h Ts ts, 1 <= h <= 48 /\ (u <= pow2 h)%N /\ ((3 <= u)%N -> 2 <= h) /\ height_of u = Ok h /\
    each_ok (make_bitem u) l = Ok Ts /\
    Forall2 (repr lok_bin h h) (map bin_ops Ts) ts /\
    Forall2 (fun t s => sel umem (h + 0) t 0 = s) ts (map snd l) /\
    Forall2 (bin_tree_ok h) ts l.
Proof.
  intros u l Hu Hl. destruct (height_of_spec u Hu) as (h & Hh & H1 & Hp & H2 & _).
  destruct (each_ok_spec _ _ (make_bitem u) (fun x t => exists T, repr lok_bin h h (bin_ops t) T /\
    sel umem (h + 0) T 0 = snd x /\ bin_tree_ok h T x) l) as (Ts & E & HT).
  { eapply Forall_impl; [|exact Hl]. intros [[v e] s] Hx.
    destruct (bin_make_rep u h v e s Hh Hu H1 Hp H2 Hx) as (t & T & ? & ? & ? & ?). unfold bin_tree_ok. eauto 8. }
  apply Forall2_split in HT. destruct HT as (ts & HA & HB).
  exists h, Ts, ts. split; auto. split; auto. split; auto. split; auto. split; auto. split.
  { apply Forall2_map_l. eapply Forall2_impl; [|exact HA]. cbn. intros t T (x & _ & ? & _). auto. }
  split.
  { apply Forall2_map_r. eapply Forall2_impl; [|exact HB]. cbn. intros t T (x & _ & ? & _). auto. }
  eapply Forall2_impl; [|exact HB]. cbn. intros t T (x & _ & _ & ?). auto.
Qed.

Lemma bin_family : forall u (l : list bitem), (2 <= u <= 2 ^ 48)%N -> Forall (bitem_ok u) l ->
  exists h Ts ts, 1 <= h <= 48 /\ (u <= pow2 h)%N /\ ((3 <= u)%N -> 2 <= h) /\ height_of u = Ok h /\
    each_ok (make_bitem u) l = Ok Ts /\
    Forall2 (repr lok_bin h h) (map bin_ops Ts) ts /\
    Forall2 (fun t s => sel umem (h + 0) t 0 = s) ts (map snd l) /\
    (Forall (fun x : bitem => snd (fst x) = false) l -> Forall plain ts).
Proof.
  intros u l Hu Hl.
  destruct (bin_family_runs u l Hu Hl) as (h & Ts & ts & H1 & Hp & H2 & Hh & E & HR & HS & HB).
  exists h, Ts, ts. repeat (split; [assumption|]).
  intros Hf. apply Forall_forall. intros T HT. apply In_nth_error in HT. destruct HT as (i & Ei).
  destruct (Forall2_nth _ _ _ _ _ _ _ HB Ei) as (x & Ex & (Hpl & _)). apply Hpl.
  rewrite Forall_forall in Hf. apply Hf. eapply nth_error_In; eauto.
Qed.

(** ** Blocks *)

Lemma height_rounded : forall u h, (2 <= u)%N -> height_of u = Ok h -> rounded u = pow2 h.
Proof.
  intros u h Hu E. unfold height_of in E.
  replace (u =? 1)%N with false in E by (symmetry; apply N.eqb_neq; lia).
  replace (u =? 0)%N with false in E by (symmetry; apply N.eqb_neq; lia).
  destruct (2 ^ 48 <? u)%N; [discriminate|]. inversion E as [E']. unfold rounded, pow2. f_equal.
  rewrite N2Nat.id. unfold N.log2_up. replace (1 ?= u)%N with Lt by (symmetry; apply N.compare_lt_iff; lia).
  f_equal. f_equal. lia.
Qed.

Lemma thread_block_pow2 : forall u h hc, (2 <= u)%N -> height_of u = Ok h -> N.to_nat (N.log2 hc) <= h ->
  thread_block u hc = pow2 (h - N.to_nat (N.log2 hc)).
Proof.
  intros u h hc Hu E Hc. unfold thread_block. rewrite (height_rounded u h Hu E). unfold pow2.
  replace (N.of_nat h) with (N.of_nat (h - N.to_nat (N.log2 hc)) + N.log2 hc)%N by lia.
  rewrite N.pow_add_r. apply N.div_mul. apply N.pow_nonzero. lia.
Qed.

Lemma no_block_noruns : forall A (lmem : A -> N -> bool) lg d c t s,
  wf d t -> sel lmem (d + lg) t 0 = s -> c <= d + lg ->
  no_block (pow2 (d + lg - c)) s -> noruns (S c) t.
Proof.
  intros A lmem lg d c t s W E Hc Hq.
  apply (noruns_blocks A lmem lg (d + lg - c) t (S c) d 0); auto using aligned_0; try lia.
  intros q Aq Lq. set (b := d + lg - c) in *. destruct (Hq (q / pow2 b)%N) as (x & Dx & Nx).
  assert (G := pow2_nz b). apply aligned_ex in Aq. destruct Aq as (k & ->).
  rewrite N.div_mul in Dx by auto. exists x.
  assert (Ex := N.div_mod' x (pow2 b)). assert (Mx := N.mod_lt x (pow2 b) G). rewrite Dx in Ex.
  split; [lia|]. destruct (mem lmem (d + lg) t x) eqn:M; auto. exfalso. apply Nx. rewrite <- E.
  unfold sel. apply filter_In. split; auto. rewrite In_nrange, of_nat_pow2. split; [lia|].
  assert (Hle := aligned_block b (d + lg) 0 (k * pow2 b)%N ltac:(lia) (aligned_0 _)).
  assert (aligned b (k * pow2 b)) by (apply aligned_ex; eauto). specialize (Hle H Lq). lia.
Qed.

(** ** C10 *)

Theorem bin_runs_sequential : forall u (l : list bitem) s1 s2 hc,
  (2 <= u <= 2 ^ 48)%N -> 1 <= length l <= 16 -> Forall (bitem_ok u) l -> (1 <= hc)%N ->
  exists Ts r, each_ok (make_bitem u) l = Ok Ts /\
    Intersect Bin s1 s2 hc (map bin_ops Ts) true false = Ok r /\ is_intersection (map snd l) r.
Proof.
  intros u l s1 s2 hc Hu Hn Hl Hhc.
  destruct (bin_family u l Hu Hl) as (h & Ts & ts & H1 & Hp & H2 & Hh & E & HR & HS & Hpl).
  assert (Ln : length (map bin_ops Ts) = length l).
  { rewrite (Forall2_length HR), (Forall2_length HS), map_length. auto. }
  destruct (bin_seq h H1 (map bin_ops Ts) ts (map snd l) ltac:(lia) HR HS true ltac:(discriminate) hc Hhc
              s1 s2 false eq_refl) as (r & Er & Hr).
  exists Ts, r. split; auto. split; auto. unfold Intersect. rewrite Er. auto.
Qed.

(** ** C13, C14, C15, C40 *)

Lemma bin_par_outcome : forall u (l : list bitem) runs s1 s2 hc,
  (2 <= u <= 2 ^ 48)%N -> 1 <= length l <= 16 -> Forall (bitem_ok u) l ->
  (runs = false -> Forall (fun x : bitem => snd (fst x) = false) l) ->
  (1 <= hc < 2 ^ 16)%N -> (3 <= u \/ hc <= 3)%N -> valid_scheduler s1 -> valid_scheduler s2 ->
  exists Ts, each_ok (make_bitem u) l = Ok Ts /\
    par_outcome (map snd l)
      (runs = false \/ Forall (no_block (thread_block u hc)) (map snd l) \/
       (3 <= u /\ rounded u < 4 * 2 ^ N.log2 hc)%N) hc
      (Intersect_mem Bin s1 s2 hc (map bin_ops Ts) runs true).
Proof.
  intros u l runs s1 s2 hc Hu Hn Hl Hr Hhc H3 V1 V2.
  destruct (bin_family u l Hu Hl) as (h & Ts & ts & H1 & Hp & H2 & Hh & E & HR & HS & Hpl).
  assert (Ln : length (map bin_ops Ts) = length l).
  { rewrite (Forall2_length HR), (Forall2_length HS), map_length. auto. }
  exists Ts. split; auto. destruct (par_branch h hc true) eqn:Hb.
  - assert (HP := bin_par h H1 (map bin_ops Ts) ts (map snd l) ltac:(lia) HR HS runs
      ltac:(intros; apply Hpl; auto) hc ltac:(lia) ltac:(lia)
      ltac:(destruct H3; [left; auto|right; auto]) s1 s2 true V1 V2 Hb).
    destruct HP as (r & m & Eo & O1 & O2 & O3 & O4). exists r, m. split; auto. split; auto. split; auto.
    split; auto. intros Hf. apply O3.
    destruct (bin_cut h H1 hc ltac:(lia) ltac:(lia) ltac:(destruct H3; [left; auto|right; auto]) true Hb) as (C1 & C2).
    destruct Hf as [Hf|[Hf|Hf]].
    + eapply Forall_impl; [|apply Hpl; auto]. intros. apply plain_noruns; auto.
    + apply Forall_forall. intros T HT. apply In_nth_error in HT. destruct HT as (i & Ei).
      destruct (Forall2_nth _ _ _ _ _ _ _ HS Ei) as (s & Es & Esel).
      apply (no_block_noruns _ umem 0 h _ T s); auto; try lia.
      * apply Forall2_flip in HR. destruct (Forall2_nth _ _ _ _ _ _ _ HR Ei) as (o & _ & (_ & W & _)). auto.
      * rewrite Forall_forall in Hf. specialize (Hf s (nth_error_In _ _ Es)).
        rewrite (thread_block_pow2 u h hc) in Hf; auto; try lia. rewrite Nat.add_0_r. auto.
    + exfalso. rewrite (height_rounded u h) in Hf by (auto; lia). destruct Hf as (H3' & Hf). specialize (H2 H3').
      unfold par_branch in Hb. cbn [andb] in Hb. apply orb_prop in Hb.
      destruct Hb as [Hb|Hb]; [apply Nat.ltb_lt in Hb; lia|]. apply Nat.leb_le in Hb.
      assert (4 * 2 ^ N.log2 hc <= pow2 h)%N; [|lia].
      change 4%N with (2 ^ 2)%N. rewrite <- N.pow_add_r. unfold pow2. apply N.pow_le_mono_r; lia.
  - destruct (bin_seq h H1 (map bin_ops Ts) ts (map snd l) ltac:(lia) HR HS runs
      ltac:(intros; apply Hpl; auto) hc ltac:(lia) s1 s2 true Hb) as (r & Er & Hi).
    exists r, (mkMem 0 []). split; auto.
    destruct (perm_outcome (map snd l) r r [] Hi) as (P1 & P2); [rewrite app_nil_r; auto|].
    split; auto. split; auto. split; auto. cbn. split; [constructor|]. split; auto. intros a [].
Qed.

(** ** C09, C12: plain tries, with empty sets in the level-wise variants *)

(** What the caller observes of a call on plain tries. *)
Definition exact_outcome (sets : list (list N)) (hc : N) (out : result (list N * Intersection.mem)) : Prop :=
  exists r m, out = Ok (r, m) /\ is_intersection sets r /\
    NoDup (m_freed m) /\ (forall a, In a (m_freed m) -> a < m_next m) /\
    ((hc <= 3)%N -> Permutation (m_freed m) (seq 0 (m_next m))).

Lemma pitem_bitem : forall u (l : list pitem), Forall (pitem_ok u) l -> Forall (fun x => snd x <> []) l ->
  let l' := map (fun x : pitem => (fst x, false, snd x)) l in
  Forall (bitem_ok u) l' /\ map snd l' = map snd l /\ length l' = length l /\
  Forall (fun x : bitem => snd (fst x) = false) l' /\
  each_ok (make_bitem u) l' = each_ok (make_pitem u) l.
Proof.
  intros u l Hok Hne l'. split; [|split; [|split; [|split]]].
  - apply Forall_map. rewrite Forall_forall in *. intros [v s] Hx. unfold bitem_ok. cbn [fst snd].
    split; [apply (Hok _ Hx)|]. split; [apply (Hne _ Hx)|]. destruct v; auto. discriminate.
  - unfold l'. rewrite map_map. auto.
  - apply map_length.
  - apply Forall_map. apply Forall_forall. auto.
  - unfold l'. clear. induction l as [|[v s] l IH]; auto. cbn [map each_ok].
    unfold make_bitem at 1, make_pitem at 1, bin_make. cbn [fst snd].
    destruct (bin_build v s u); auto. cbn [bind]. rewrite IH. auto.
Qed.

Lemma level_empty_built : forall il u h, (2 <= u <= 2 ^ 48)%N -> height_of u = Ok h -> 1 <= h <= 48 ->
  exists t, level_build il [] u = Ok t /\ level_getHeight t = h /\ level_getNode t 0 0 = Ok 0%N.
Proof.
  intros il u h Hu Hh H1. destruct (Nat.eq_dec h 1) as [->|Hn].
  - exists (mkLevel il 0 false false [[false; false]] []).
    assert (u = 2)%N.
    { unfold height_of in Hh.
      replace (u =? 1)%N with false in Hh by (symmetry; apply N.eqb_neq; lia).
      replace (u =? 0)%N with false in Hh by (symmetry; apply N.eqb_neq; lia).
      replace (2 ^ 48 <? u)%N with false in Hh by (symmetry; apply N.ltb_ge; lia).
      injection Hh as E. assert (N.log2 (u - 1) = 0)%N by lia.
      destruct (N.le_gt_cases u 2); [lia|].
      assert (1 <= N.log2 (u - 1))%N by (apply (N.log2_le_mono 2 (u - 1)); lia). lia. }
    subst u. split; [apply level_build_empty1|]. split; reflexivity.
  - eexists. split; [apply level_build_empty; eauto; lia|]. split.
    + unfold level_getHeight, empty_levels. cbn [l_bTrie]. rewrite map_length, seq_length. auto.
    + unfold level_getNode, empty_levels. cbn [l_bTrie]. destruct h as [|h]; [lia|]. reflexivity.
Qed.

Lemma pitem_root : forall u h (x : pitem), (2 <= u <= 2 ^ 48)%N -> height_of u = Ok h ->
  1 <= h <= 48 -> (u <= pow2 h)%N -> ((3 <= u)%N -> 2 <= h) -> pitem_ok u x ->
  exists t c, make_pitem u x = Ok t /\ t_height (bin_ops t) = h /\ t_getNode (bin_ops t) 0 0 = Ok c /\
    (snd x = [] -> c = 0%N).
Proof.
  intros u h [v s] Hu Hh H1 Hp H2 Hx. cbn [snd].
  destruct s as [|a s'].
  - destruct Hx as (_ & _ & Hv). cbn [fst snd] in Hv. destruct v as [il|il]; [tauto|].
    destruct (level_empty_built il u h Hu Hh H1) as (t & E1 & E2 & E3).
    exists (BLevel t), 0%N. unfold make_pitem. cbn [bin_build fst snd]. rewrite E1. auto.
  - destruct (bin_make_rep u h v false (a :: s') Hh Hu H1 Hp H2) as (t & T & Et & (Rh & W & R) & _).
    { split; [exact Hx|]. split; [discriminate|]. destruct v; auto. discriminate. }
    exists t. unfold bin_make in Et. destruct (bin_build v (a :: s') u) as [t0| |] eqn:E0; try discriminate.
    cbn [bind] in Et. injection Et as ->. exists (node_code (has_left T) (has_right T)).
    unfold make_pitem. cbn [fst snd]. split; auto. split; auto. split; [|discriminate].
    assert (is_leaf T = false) by (apply (wf_not_leaf h); auto; lia).
    destruct T; try discriminate; cbn in R; apply R.
Qed.

Theorem bin_plain_outcome : forall u (l : list pitem),
  (2 <= u <= 2 ^ 48)%N -> 1 <= length l <= 16 -> Forall (pitem_ok u) l ->
  exists Ts, each_ok (make_pitem u) l = Ok Ts /\
    forall s1 s2 hc (parallel : bool), (1 <= hc)%N ->
      (parallel = true -> (hc < 2 ^ 16 /\ (3 <= u \/ hc <= 3))%N /\ valid_scheduler s1 /\ valid_scheduler s2) ->
      exact_outcome (map snd l) hc (Intersect_mem Bin s1 s2 hc (map bin_ops Ts) false parallel).
Proof.
  intros u l Hu Hn Hl.
  destruct (Forall_dec (fun x : pitem => snd x <> [])) with (l := l) as [Hne|He].
  { intros [v [|a s]]; cbn; [right; tauto|left; discriminate]. }
  - destruct (pitem_bitem u l Hl Hne) as (B1 & B2 & B3 & B4 & B5).
    set (l' := map (fun x : pitem => (fst x, false, snd x)) l) in *.
    destruct (bin_family u l' Hu B1) as (h & Ts & ts & H1 & Hp & H2 & Hh & E & HR & HS & Hpl).
    assert (Ln : length (map bin_ops Ts) = length l').
    { rewrite (Forall2_length HR), (Forall2_length HS), map_length. auto. }
    assert (Hn' : 1 <= length l' <= 16) by (unfold l'; rewrite map_length; exact Hn).
    assert (Hn2 : 1 <= length (map bin_ops Ts) <= 16) by (rewrite Ln; exact Hn').
    exists Ts. split; [congruence|]. intros s1 s2 hc [|] Hhc Hpar.
    + destruct Hpar as ((Hc16 & H3) & V1 & V2); auto.
      destruct (bin_par_outcome u l' false s1 s2 hc Hu Hn' B1 ltac:(auto) ltac:(lia) H3 V1 V2)
        as (Ts' & E' & (r & m & O1 & O2 & O3 & O4 & O5)).
      assert (Ts' = Ts) by congruence. subst Ts'. exists r, m. rewrite B2 in *. split; auto.
    + destruct (bin_seq h H1 (map bin_ops Ts) ts (map snd l') Hn2 HR HS false
        ltac:(intros; apply Hpl; auto) hc Hhc s1 s2 false eq_refl) as (r & Er & Hi).
      rewrite B2 in Hi. exists r, (mkMem 0 []). split; auto. split; auto. cbn. split; [constructor|].
      split; auto. intros a [].
  - apply Exists_Forall_neg in He || apply neg_Forall_Exists_neg in He.
    2:{ intros [v [|a s]]; cbn; [right; tauto|left; discriminate]. }
    destruct (height_of_spec u Hu) as (h & Hh & H1 & Hp & H2 & _).
    destruct (each_ok_spec _ _ (make_pitem u) (fun x t => exists c, t_height (bin_ops t) = h /\
      t_getNode (bin_ops t) 0 0 = Ok c /\ (snd x = [] -> c = 0%N)) l) as (Ts & E & HT).
    { eapply Forall_impl; [|exact Hl]. intros x Hx.
      destruct (pitem_root u h x Hu Hh H1 Hp H2 Hx) as (t & c & ? & ? & ? & ?). eauto 8. }
    exists Ts. split; auto. intros s1 s2 hc parallel Hhc Hpar.
    assert (Ln : length Ts = length l) by (symmetry; eapply Forall2_length; eauto).
    apply Forall2_split in HT. destruct HT as (cs & HA & HB).
    assert (Lc : length cs = length l) by (eapply Forall2_length; eauto).
    destruct (empty_intersect h ltac:(lia) (map bin_ops Ts)) with (code := fun i => nth i cs 0%N)
      (hc := hc) (s1 := s1) (s2 := s2) (parallel := parallel) as (m & Em & Pm).
    + rewrite map_length. lia.
    + intros o Ho. apply in_map_iff in Ho. destruct Ho as (t & <- & Ht).
      apply In_nth_error in Ht. destruct Ht as (i & Ei).
      destruct (Forall2_nth _ _ _ _ _ _ _ HA Ei) as (c & _ & (x & _ & ? & _)). auto.
    + intros i Hi. rewrite map_length in Hi. destruct (nth_error Ts i) as [t|] eqn:Et;
        [|apply nth_error_None in Et; lia].
      destruct (Forall2_nth _ _ _ _ _ _ _ HA Et) as (c & Ec & (x & _ & _ & Hc & _)).
      unfold T. erewrite nth_error_nth by (apply map_nth_error; eauto).
      rewrite Hc. f_equal. symmetry. apply nth_error_nth. auto.
    + apply Exists_exists in He. destruct He as (x & Hx & Ex).
      apply In_nth_error in Hx. destruct Hx as (i & Ei). exists i.
      assert (Hi : i < length l) by (apply nth_error_Some; congruence).
      rewrite map_length. split; [lia|].
      apply Forall2_flip in HB. destruct (Forall2_nth _ _ _ _ _ _ _ HB Ei) as (c & Ec & (t & _ & _ & Hz)).
      erewrite nth_error_nth by eauto. apply Hz. destruct (snd x); auto. exfalso. apply Ex. discriminate.
    + auto.
    + intros Hp'. destruct (Hpar Hp') as (_ & V1 & _). auto.
    + exists [], m. split; auto. split.
      * split; [constructor|]. intros y. split; [intros []|]. intros Hall. exfalso.
        apply Exists_exists in He. destruct He as (x & Hx & Ex).
        rewrite Forall_forall in Hall. specialize (Hall (snd x) (in_map snd _ _ Hx)).
        apply Ex. intros E0. rewrite E0 in Hall. destruct Hall.
      * assert (Nd : NoDup (m_freed m)).
        { apply (Permutation_NoDup (l := seq 0 (m_next m))); [symmetry; auto|apply seq_NoDup]. }
        split; auto. split; auto. intros a Ha. apply (Permutation_in _ Pm) in Ha. apply in_seq in Ha. lia.
Qed.

(** ** C11 and the parallel properties for fast tries *)

Definition fast_tree_ok (lw d : nat) (T : tree N) (x : fitem) : Prop :=
  (f_enc x = false -> plain T) /\
  (f_enc x = true -> tight (xfull lw) d T /\ gaps (xfull lw) (wmem lw) lw T).

Lemma fast_family_runs : forall u lw (l : list fitem), fast_universe u lw -> Forall (fun x => fast_ok u (snd x)) l ->
  exists d Ts ts, lw <= 6 /\ d + lw <= 48 /\ height_of u = Ok (d + lw) /\ (5 <= u <= 2 ^ 48)%N /\
    ((2 ^ N.of_nat lw < u)%N -> 1 <= d) /\ (u <= pow2 (d + lw))%N /\
    each_ok (make_fitem u lw) l = Ok Ts /\
    Forall2 (repr lok_fast d (S d)) (map fast_ops Ts) ts /\
    Forall2 (fun t s => sel (wmem lw) (d + lw) t 0 = s) ts (map snd l) /\
    Forall2 (fast_tree_ok lw d) ts l.
Proof.
  intros u lw l (Hlw & Hu) Hl.
  assert (H8 : (2 ^ N.of_nat 3 <= 2 ^ N.of_nat lw)%N).
  { apply N.pow_le_mono_r; [lia|]. cbn in Hlw. lia. }
  change (2 ^ N.of_nat 3)%N with 8%N in H8.
  destruct (height_of_spec u ltac:(lia)) as (h & Hh & Hr & Hp & H2 & Hk).
  assert (Hlh : lw <= h).
  { destruct lw as [|lw]; [lia|]. change (2 ^ N.of_nat (S lw))%N with (pow2 (S lw)) in Hu.
    rewrite pow2_S in Hu. assert (lw < h) by (apply Hk; lia). lia. }
  assert (H6 : lw <= 6) by (cbn in Hlw; lia).
  assert (Eh : h - lw + lw = h) by lia.
  destruct (each_ok_spec _ _ (make_fitem u lw) (fun x t => exists T, repr lok_fast (h - lw) (S (h - lw)) (fast_ops t) T /\
    sel (wmem lw) (h - lw + lw) T 0 = snd x /\ fast_tree_ok lw (h - lw) T x) l) as (Ts & E & HT).
  { eapply Forall_impl; [|exact Hl]. intros [[[jh je] e] s] Hx.
    destruct (fast_make_rep u h lw jh je e s Hh H6 Hlh ltac:(lia) Hp Hx) as (t & T & ? & ? & ? & ?).
    unfold fast_tree_ok, f_enc. eauto 8. }
  apply Forall2_split in HT. destruct HT as (ts & HA & HB).
  exists (h - lw), Ts, ts. split; auto. split; [lia|]. split; [rewrite Eh; auto|].
  split; [lia|]. split. { intros Hx. apply (Hk lw) in Hx. lia. } split; [rewrite Eh; auto|]. split; auto. split.
  { apply Forall2_map_l. eapply Forall2_impl; [|exact HA]. cbn. intros t T (x & _ & ? & _). auto. }
  split.
  { apply Forall2_map_r. eapply Forall2_impl; [|exact HB]. cbn. intros t T (x & _ & ? & _). auto. }
  eapply Forall2_impl; [|exact HB]. cbn. intros t T (x & _ & _ & ?). auto.
Qed.

Lemma fast_family : forall u lw (l : list fitem), fast_universe u lw -> Forall (fun x => fast_ok u (snd x)) l ->
  exists d Ts ts, lw <= 6 /\ d + lw <= 48 /\ height_of u = Ok (d + lw) /\ (5 <= u <= 2 ^ 48)%N /\
    ((2 ^ N.of_nat lw < u)%N -> 1 <= d) /\
    each_ok (make_fitem u lw) l = Ok Ts /\
    Forall2 (repr lok_fast d (S d)) (map fast_ops Ts) ts /\
    Forall2 (fun t s => sel (wmem lw) (d + lw) t 0 = s) ts (map snd l) /\
    (Forall (fun x : fitem => f_enc x = false) l -> Forall plain ts).
Proof.
  intros u lw l Hu Hl.
  destruct (fast_family_runs u lw l Hu Hl) as (d & Ts & ts & H1 & H2 & H3 & H4 & H5 & H6 & E & HR & HS & HB).
  exists d, Ts, ts. repeat (split; [assumption|]).
  intros Hf. apply Forall_forall. intros T HT. apply In_nth_error in HT. destruct HT as (i & Ei).
  destruct (Forall2_nth _ _ _ _ _ _ _ HB Ei) as (x & Ex & (Hpl & _)). apply Hpl.
  rewrite Forall_forall in Hf. apply Hf. eapply nth_error_In; eauto.
Qed.

Theorem fast_sequential : forall u lw (l : list fitem) runs s1 s2 hc,
  fast_universe u lw -> 1 <= length l <= 16 -> Forall (fun x => fast_ok u (snd x)) l ->
  (runs = false -> Forall (fun x => f_enc x = false) l) -> (1 <= hc)%N ->
  exists Ts r, each_ok (make_fitem u lw) l = Ok Ts /\
    Intersect (Fast lw) s1 s2 hc (map fast_ops Ts) runs false = Ok r /\ is_intersection (map snd l) r.
Proof.
  intros u lw l runs s1 s2 hc Hu Hn Hl Hr Hhc.
  destruct (fast_family u lw l Hu Hl) as (d & Ts & ts & H6 & H48 & Hh & _ & Hd & E & HR & HS & Hpl).
  assert (Ln : length (map fast_ops Ts) = length l).
  { rewrite (Forall2_length HR), (Forall2_length HS), map_length. auto. }
  destruct (fast_seq lw d H6 H48 (map fast_ops Ts) ts (map snd l) ltac:(lia) HR HS runs
              ltac:(intros; apply Hpl; auto) hc Hhc s1 s2 false eq_refl) as (r & Er & Hi).
  exists Ts, r. split; auto. split; auto. unfold Intersect. rewrite Er. auto.
Qed.

Lemma fast_par_outcome : forall u lw (l : list fitem) runs s1 s2 hc,
  fast_universe u lw -> 1 <= length l <= 16 -> Forall (fun x => fast_ok u (snd x)) l ->
  (runs = false -> Forall (fun x => f_enc x = false) l) ->
  (1 <= hc < 2 ^ 16)%N -> (2 ^ N.of_nat lw < u \/ hc = 1)%N -> valid_scheduler s1 -> valid_scheduler s2 ->
  exists Ts, each_ok (make_fitem u lw) l = Ok Ts /\
    par_outcome (map snd l)
      (runs = false \/ Forall (no_block (thread_block u hc)) (map snd l) \/
       (2 ^ N.of_nat lw < u /\ rounded u < 2 * 2 ^ N.of_nat lw * 2 ^ N.log2 hc)%N) hc
      (Intersect_mem (Fast lw) s1 s2 hc (map fast_ops Ts) runs true).
Proof.
  intros u lw l runs s1 s2 hc Hu Hn Hl Hr Hhc H3 V1 V2.
  destruct (fast_family u lw l Hu Hl) as (d & Ts & ts & H6 & H48 & Hh & Hu5 & Hd & E & HR & HS & Hpl).
  assert (Ln : length (map fast_ops Ts) = length l).
  { rewrite (Forall2_length HR), (Forall2_length HS), map_length. auto. }
  exists Ts. split; auto. destruct (par_branch (S d) hc true) eqn:Hb.
  - assert (HP := fast_par lw d H6 H48 (map fast_ops Ts) ts (map snd l) ltac:(lia) HR HS runs
      ltac:(intros; apply Hpl; auto) hc ltac:(lia) ltac:(lia)
      ltac:(destruct H3; [left; auto|right; auto]) s1 s2 true V1 V2 Hb).
    destruct HP as (r & m & Eo & O1 & O2 & O3 & O4). exists r, m. split; auto. split; auto. split; auto.
    split; auto. intros Hf. apply O3.
    destruct (fast_cut d hc ltac:(destruct H3; [left; auto|right; auto]) true Hb) as (C1 & C2).
    destruct Hf as [Hf|[Hf|Hf]].
    + eapply Forall_impl; [|apply Hpl; auto]. intros. apply plain_noruns; auto.
    + apply Forall_forall. intros T HT. apply In_nth_error in HT. destruct HT as (i & Ei).
      destruct (Forall2_nth _ _ _ _ _ _ _ HS Ei) as (s & Es & Esel).
      apply (no_block_noruns _ (wmem lw) lw d _ T s); auto; try lia.
      * apply Forall2_flip in HR. destruct (Forall2_nth _ _ _ _ _ _ _ HR Ei) as (o & _ & (_ & W & _)). auto.
      * rewrite Forall_forall in Hf. specialize (Hf s (nth_error_In _ _ Es)).
        rewrite (thread_block_pow2 u (d + lw) hc) in Hf; auto; lia.
    + exfalso. rewrite (height_rounded u (d + lw)) in Hf by (auto; lia). destruct Hf as (H3' & Hf). specialize (Hd H3').
      unfold par_branch in Hb. cbn [andb] in Hb. apply orb_prop in Hb.
      destruct Hb as [Hb|Hb]; [apply Nat.ltb_lt in Hb; lia|]. apply Nat.leb_le in Hb.
      assert (2 * 2 ^ N.of_nat lw * 2 ^ N.log2 hc <= pow2 (d + lw))%N; [|lia].
      rewrite <- N.pow_succ_r', <- N.pow_add_r. unfold pow2. apply N.pow_le_mono_r; lia.
  - destruct (fast_seq lw d H6 H48 (map fast_ops Ts) ts (map snd l) ltac:(lia) HR HS runs
      ltac:(intros; apply Hpl; auto) hc ltac:(lia) s1 s2 true Hb) as (r & Er & Hi).
    exists r, (mkMem 0 []). split; auto.
    destruct (perm_outcome (map snd l) r r [] Hi) as (P1 & P2); [rewrite app_nil_r; auto|].
    split; auto. split; auto. split; auto. cbn. split; [constructor|]. split; auto. intros a [].
Qed.
