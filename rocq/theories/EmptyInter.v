(** Proofs about intersections over runs that include a plain trie of the empty set. *)

From Verif Require Import Base FlatTrie LevelTrie FastTrie ParallelFor Intersection Tries Facts Tree
  Groups Reps Layout BuildLevel Spec RoundTrip RoundTripFacts EdgeFacts Compress SpecTries SpecMeasures
  NodeCount InterSpec InterSeq ParFacts InterPar InterPlan InterTop InterTight InterInst InterMain InterThms InterLaws InterLimits InterTiny EmptyThms ParForThms.

(** The set that a plain trie stands for in an intersection over runs. *)
Definition as_seen (h : nat) (s : list N) : list N := match s with [] => nrange 0 (2 ^ h) | _ => s end.

(** When the tree of an item is a single run, and when it has none. *)
Definition seen_as (h : nat) (t : tree unit) (x : bitem) : Prop :=
  (snd x = [] -> t = Full) /\
  (snd x <> [] -> snd (fst x) = false -> plain t) /\
  (2 <= h -> snd x <> [] -> snd (fst x) = true -> (forall v, (v < pow2 h)%N -> In v (snd x)) -> t = Full).

Lemma seen_family : forall u h (l : list bitem), (2 <= u <= 2 ^ 48)%N -> height_of u = Ok h ->
  1 <= h <= 48 -> (u <= pow2 h)%N -> ((3 <= u)%N -> 2 <= h) ->
  Forall (fun x => bitem_ok u x \/ exists il, x = (VLevel il, false, [])) l ->
  exists Ts ts, each_ok (make_bitem u) l = Ok Ts /\
    Forall2 (repr lok_bin h h) (map bin_ops Ts) ts /\
    Forall2 (fun t s => sel umem (h + 0) t 0 = s) ts (map (fun x : bitem => as_seen h (snd x)) l) /\
    Forall2 (seen_as h) ts l.
Proof.
  intros u h l Hu Hh H1 Hp H2 Hl.
  destruct (each_ok_spec _ _ (make_bitem u) (fun (x : bitem) t => exists T, repr lok_bin h h (bin_ops t) T /\
    sel umem (h + 0) T 0 = as_seen h (snd x) /\ seen_as h T x) l) as (Ts & E & HT).
  { eapply Forall_impl; [|exact Hl]. intros [[vt e] s] [Hx|(il & Ex)].
    - destruct (bin_make_rep u h vt e s Hh Hu H1 Hp H2 Hx) as (t & T & ? & HRT & Es & Hpl & Hti). exists t. split; auto.
      exists T. split; auto. destruct Hx as (_ & Hne & _). cbn [snd] in *. split; [destruct s; [congruence|exact Es]|].
      unfold seen_as. cbn [fst snd]. split; [congruence|]. split; [auto|]. intros H3 _ He Hall. specialize (Hti He).
      destruct (pred h) as [|c] eqn:Ep; [lia|]. cbn [tight] in Hti. destruct Hti as (Hti & _). apply Hti.
      destruct (full ufull T) eqn:Ef; [reflexivity|]. exfalso. destruct HRT as (_ & W & _).
      destruct (not_full_gap ufull umem 0 T h 0 W (unit_gaps T) (aligned_0 _) Ef) as (v & Hv & Hm).
      rewrite N.add_0_l, Nat.add_0_r in Hv. specialize (Hall v (proj2 Hv)). rewrite <- Es in Hall. unfold sel in Hall.
      apply filter_In in Hall. rewrite Hm in Hall. destruct Hall. discriminate.
    - injection Ex as -> -> ->. destruct (level_empty_built il u h Hu Hh H1) as (t & Et & Eh & En).
      exists (BLevel t). split.
      { unfold make_bitem, bin_make. cbn [fst snd bin_build]. rewrite Et. reflexivity. }
      exists Full. split.
      { split; [exact Eh|]. split; [cbn; lia|]. exact En. }
      split; [rewrite sel_Full, Nat.add_0_r; reflexivity|]. unfold seen_as. cbn [fst snd]. split; [auto|]. split; congruence. }
  apply Forall2_split in HT. destruct HT as (ts & HA & HB).
  exists Ts, ts. split; auto. split.
  { apply Forall2_map_l. eapply Forall2_impl; [|exact HA]. cbn. intros t T (x & _ & ? & _). auto. }
  split.
  { apply Forall2_map_r. eapply Forall2_impl; [|exact HB]. cbn. intros t T (x & _ & ? & _). auto. }
  eapply Forall2_impl; [|exact HB]. cbn. intros t T (x & _ & _ & ?). auto.
Qed.

(** On one thread a parallel call does what a sequential one does. *)
Lemma one_thread : forall h Ts ts sets s1 s2, 1 <= h <= 48 -> 1 <= length Ts <= 16 ->
  Forall2 (repr lok_bin h h) Ts ts -> Forall2 (fun t s => sel umem (h + 0) t 0 = s) ts sets ->
  valid_scheduler s1 -> valid_scheduler s2 ->
  exists r, Intersect Bin s1 s2 1 Ts true true = Ok r /\ is_intersection sets r.
Proof.
  intros h Ts ts sets s1 s2 H1 Hn HR HS V1 V2.
  destruct (par_intersect Bin Ts h umem 0 h (leafok lok_bin Ts) true ltac:(lia) ltac:(lia)
               (bin_end h) (bin_tot h) ltac:(lia) ltac:(lia) (bin_last h) (bin_leaf h Ts) true
               (forest_of ts)) with (hc := 1%N) (s1 := s1) (s2 := s2) (parallel := true)
      as (r & m & E & _ & _ & _ & _ & _ & Er & _); auto; try (cbn; lia); try discriminate.
  - eapply inst_okf; eauto. lia.
  - eapply inst_somes; eauto.
  - eapply inst_heights; eauto.
  - exists r. split; [unfold Intersect; rewrite E; reflexivity|].
    replace r with (inter umem 0 (length Ts) h (forest_of ts) 0); [eapply (inst_inter lok_bin); eauto; lia|].
    rewrite Er. cbn. rewrite app_nil_r. unfold ginter. cbn. rewrite Nat.sub_0_r. reflexivity.
Qed.

Theorem empty_ignored : forall u (l : list bitem), (2 <= u <= 2 ^ 48)%N -> 1 <= length l <= 16 ->
  Forall (fun x => bitem_ok u x \/ exists il, x = (VLevel il, false, [])) l ->
  exists Ts r, each_ok (make_bitem u) l = Ok Ts /\ increasing r /\
    (forall x, In x r <-> (x < 2 ^ N.of_nat (digits u))%N /\ Forall (fun y : bitem => snd y <> [] -> In x (snd y)) l) /\
    forall s1 s2 hc parallel, (1 <= hc)%N -> (parallel = true -> (3 <= u /\ rounded u < 4 * 2 ^ N.log2 hc)%N \/ hc = 1%N /\ valid_scheduler s1 /\ valid_scheduler s2) ->
      Intersect Bin s1 s2 hc (map bin_ops Ts) true parallel = Ok r.
Proof.
  intros u l Hu Hn Hl. destruct (height_of_spec u Hu) as (h & Hh & H1 & Hp & H2 & _).
  assert (Eh := height_digits u h ltac:(lia) Hh). rewrite <- Eh.
  destruct (seen_family u h l Hu Hh H1 Hp H2 Hl) as (Ts & ts & E & HR & HS & _).
  assert (Ln : length (map bin_ops Ts) = length l).
  { rewrite (Forall2_length HR), (Forall2_length HS), map_length. auto. }
  assert (Q : forall s1 s2 hc parallel, (1 <= hc)%N -> (parallel = true -> (3 <= u /\ rounded u < 4 * 2 ^ N.log2 hc)%N \/ hc = 1%N /\ valid_scheduler s1 /\ valid_scheduler s2) ->
    exists r, Intersect Bin s1 s2 hc (map bin_ops Ts) true parallel = Ok r /\
    is_intersection (map (fun x : bitem => as_seen h (snd x)) l) r).
  { intros s1 s2 hc parallel Hhc Hlow.
    assert (Hcase : (parallel = true -> 3 <= u /\ rounded u < 4 * 2 ^ N.log2 hc)%N \/
                    parallel = true /\ hc = 1%N /\ valid_scheduler s1 /\ valid_scheduler s2).
    { destruct parallel; [|left; discriminate]. destruct (Hlow eq_refl); auto. }
    clear Hlow. destruct Hcase as [Hlow|(-> & -> & V1 & V2)].
    2: { eapply one_thread; eauto. lia. }
    assert (Hb : par_branch h hc parallel = false).
    { destruct parallel; [|reflexivity]. destruct (Hlow eq_refl) as (H3 & H4). specialize (H2 H3).
      rewrite (height_rounded u h) in H4 by (auto; lia). unfold par_branch. cbn [andb].
      replace (h <? 2) with false by (symmetry; apply Nat.ltb_ge; lia). cbn [orb]. apply Nat.leb_gt.
      change 4%N with (2 ^ 2)%N in H4. rewrite <- N.pow_add_r in H4. unfold pow2 in H4.
      rewrite <- N.pow_lt_mono_r_iff in H4 by lia. lia. }
    destruct (bin_seq h H1 (map bin_ops Ts) ts _ ltac:(lia) HR HS true ltac:(discriminate) hc Hhc
              s1 s2 parallel Hb) as (r & Er & Hr).
    exists r. split; auto. unfold Intersect. rewrite Er. auto. }
  destruct (Q in_order in_order 1%N false ltac:(lia) ltac:(discriminate)) as (r & Er & Hr).
  exists Ts, r. split; auto. split; [apply Hr|]. split.
  - intros x. destruct Hr as (_ & Hr). rewrite Hr. rewrite Forall_map. rewrite !Forall_forall. split.
    + intros F. split.
      * destruct l as [|y l]; [cbn in Hn; lia|]. specialize (F y (or_introl eq_refl)).
        inversion Hl as [|? ? Hy _]; subst. unfold as_seen in F. destruct (snd y) as [|a s] eqn:Es.
        { apply In_nrange in F. rewrite of_nat_pow2 in F. unfold pow2 in F. lia. }
        destruct Hy as [Hy|(il & ->)]; [|discriminate]. destruct Hy as ((_ & Hb & _) & _).
        rewrite Es in Hb. unfold below in Hb. rewrite Forall_forall in Hb. specialize (Hb x F). unfold pow2 in Hp. clear - Hb Hp. lia.
      * intros y Hy Hne. specialize (F y Hy). unfold as_seen in F. destruct (snd y); [congruence|exact F].
    + intros (Hx & F) y Hy. specialize (F y Hy). unfold as_seen. destruct (snd y) as [|a s].
      * apply In_nrange. rewrite of_nat_pow2. unfold pow2. clear - Hx. lia.
      * apply F. discriminate.
  - intros s1 s2 hc parallel Hhc Hlow. destruct (Q s1 s2 hc parallel Hhc Hlow) as (r' & Er' & Hr'). rewrite Er'. f_equal.
    eapply inter_unique; eauto. tauto.
Qed.

Theorem empty_returns_other : forall u v enc s il, (2 <= u <= 2 ^ 48)%N -> stored_ok u v enc s ->
  exists t t0, bin_make u v enc s = Ok t /\ level_build il [] u = Ok t0 /\
    forall s1 s2 hc, (1 <= hc)%N ->
      Intersect Bin s1 s2 hc [bin_ops t; bin_ops (BLevel t0)] true false = Ok s /\
      Intersect Bin s1 s2 hc [bin_ops (BLevel t0); bin_ops t] true false = Ok s.
Proof.
  intros u v enc s il Hu Hx.
  destruct (height_of_spec u Hu) as (h & Hh & H1 & Hp & H2 & _).
  destruct (level_empty_built il u h Hu Hh H1) as (t0 & E0 & _).
  destruct (bin_make_rep u h v enc s Hh Hu H1 Hp H2 Hx) as (t & _ & Et & _).
  exists t, t0. split; auto. split; auto. intros s1 s2 hc Hhc.
  assert (Hd := height_digits u h ltac:(lia) Hh).
  assert (Hxs := Hx). destruct Hxs as ((Hs & Hb & _) & Hne & _).
  assert (Em : make_bitem u (v, enc, s) = Ok t) by exact Et.
  assert (Em0 : make_bitem u (VLevel il, false, []) = Ok (BLevel t0)).
  { unfold make_bitem, bin_make. cbn [fst snd bin_build]. rewrite E0. reflexivity. }
  assert (D : forall r, increasing r ->
    (forall x, In x r <-> (x < 2 ^ N.of_nat (digits u))%N /\ In x s) -> r = s).
  { intros r Hr Hi. apply sorted_unique; auto. intros x. rewrite Hi. split; [tauto|]. intros H. split; auto.
    rewrite <- Hd. unfold below in Hb. rewrite Forall_forall in Hb. specialize (Hb x H). unfold pow2 in Hp.
    clear - Hb Hp. lia. }
  split.
  - destruct (empty_ignored u [(v, enc, s); (VLevel il, false, [])] Hu ltac:(cbn; lia)) as (Ts & r & E & Hr & Hi & Q).
    { constructor; [left; exact Hx|]. constructor; [right; eauto|constructor]. }
    cbn [each_ok] in E. rewrite Em, Em0 in E. cbn [bind] in E. injection E as <-.
    rewrite <- (D r Hr); [apply Q; auto; discriminate|]. intros x. rewrite Hi. split.
    + intros (A & B). split; auto. inversion B as [|? ? B1 _]; subst. apply B1. exact Hne.
    + intros (A & B). split; auto. constructor; [intros _; exact B|]. constructor; [cbn; congruence|constructor].
  - destruct (empty_ignored u [(VLevel il, false, []); (v, enc, s)] Hu ltac:(cbn; lia)) as (Ts & r & E & Hr & Hi & Q).
    { constructor; [right; eauto|]. constructor; [left; exact Hx|constructor]. }
    cbn [each_ok] in E. rewrite Em, Em0 in E. cbn [bind] in E. injection E as <-.
    rewrite <- (D r Hr); [apply Q; auto; discriminate|]. intros x. rewrite Hi. split.
    + intros (A & B). split; auto. inversion B as [|? ? _ B2]; subst. inversion B2 as [|? ? B3 _]; subst. apply B3. exact Hne.
    + intros (A & B). split; auto. constructor; [cbn; congruence|]. constructor; [intros _; exact B|constructor].
Qed.

Lemma empty_inter : forall sets r, In [] sets -> is_intersection sets r -> r = [].
Proof.
  intros sets r Hin (_ & Hr). destruct r as [|x r]; auto. exfalso.
  assert (F := proj1 (Hr x) (or_introl eq_refl)). rewrite Forall_forall in F. exact (F [] Hin).
Qed.

Lemma two_values_empty : forall (l : list pitem) hc s1 s2, 1 <= length l <= 16 -> Forall (pitem_ok 2) l ->
  In [] (map snd l) -> (4 <= hc)%N ->
  exists Ts, each_ok (make_pitem 2) l = Ok Ts /\ Intersect Bin s1 s2 hc (map bin_ops Ts) false true = Ok [].
Proof.
  intros l hc s1 s2 Hn Hl He Hhc.
  set (l' := map (fun x : pitem => (fst x, false, snd x)) l).
  assert (Em : map snd l' = map snd l) by (unfold l'; rewrite map_map; reflexivity).
  assert (Ee : each_ok (make_bitem 2) l' = each_ok (make_pitem 2) l).
  { unfold l'. clear. induction l as [|[v s] l IH]; [reflexivity|]. cbn [map each_ok]. rewrite IH.
    unfold make_bitem, make_pitem, bin_make. cbn [fst snd]. destruct (bin_build v s 2); reflexivity. }
  destruct (bin_two_values l' false hc s1 s2) as (Ts & E & Q & _).
  - unfold l'. rewrite map_length. auto.
  - unfold l'. apply Forall_map. eapply Forall_impl; [|exact Hl]. intros [v s] Hx. exact Hx.
  - discriminate.
  - auto.
  - exists Ts. split; [congruence|]. apply Q. rewrite Em. split; [constructor|].
    intros x. split; [intros []|]. intros F. rewrite Forall_forall in F. exact (F [] He).
Qed.

Theorem empty_plain : forall u (l : list pitem), (2 <= u <= 2 ^ 48)%N -> 1 <= length l <= 16 ->
  Forall (pitem_ok u) l -> In [] (map snd l) ->
  exists Ts, each_ok (make_pitem u) l = Ok Ts /\
    (forall hc s1 s2, (1 <= hc)%N -> Intersect Bin s1 s2 hc (map bin_ops Ts) false false = Ok []) /\
    (forall hc s1 s2, (1 <= hc < 2 ^ 16)%N -> valid_scheduler s1 -> valid_scheduler s2 ->
      Intersect Bin s1 s2 hc (map bin_ops Ts) false true = Ok []).
Proof.
  intros u l Hu Hn Hl He.
  destruct (bin_plain_sequential u l Hu Hn Hl) as (Ts & r & E & Hr & Q).
  destruct (bin_parallel u l Hu Hn Hl) as (Ts' & r' & E' & Hr' & Q').
  assert (Ts' = Ts) by congruence. subst Ts'.
  rewrite (empty_inter _ _ He Hr) in Q. rewrite (empty_inter _ _ He Hr') in Q'.
  exists Ts. split; auto. split; [exact (fun hc s1 s2 => Q s1 s2 hc)|]. intros hc s1 s2 A C D.
  destruct (N.le_gt_cases 3 u) as [H3|H3].
  - apply (Q' hc s1 s2 A (or_introl H3) C D).
  - destruct (N.le_gt_cases hc 3) as [H4|H4].
    + apply (Q' hc s1 s2 A (or_intror H4) C D).
    + assert (u = 2%N) by (clear - Hu H3; lia). subst u.
      destruct (two_values_empty l hc s1 s2 Hn Hl He ltac:(clear - H4; lia)) as (Ts' & E2 & R).
      assert (Ts' = Ts) by congruence. subst Ts'. exact R.
Qed.

Theorem empty_whole : forall il u, (2 <= u <= 2 ^ 48)%N ->
  exists t r, level_build il [] u = Ok t /\ level_decode t [] = Ok [] /\
    (increasing r /\ forall x, In x r <-> (x < 2 ^ N.of_nat (digits u))%N) /\
    forall s1 s2 hc, (1 <= hc)%N -> Intersect Bin s1 s2 hc [bin_ops (BLevel t)] true false = Ok r.
Proof.
  intros il u Hu.
  destruct (level_round_trip_empty il u Hu) as (t & E0 & D).
  assert (Em0 : make_bitem u (VLevel il, false, []) = Ok (BLevel t)).
  { unfold make_bitem, bin_make. cbn [fst snd bin_build]. rewrite E0. reflexivity. }
  destruct (empty_ignored u [(VLevel il, false, [])] Hu ltac:(cbn; lia)) as (Ts & r & E & Hr & Hi & Q).
  { constructor; [right; eauto|constructor]. }
  cbn [each_ok] in E. rewrite Em0 in E. cbn [bind] in E. injection E as <-.
  exists t, r. split; auto. split; auto. split; [|intros; apply Q; auto; discriminate]. split; auto. intros x. rewrite Hi. split; [tauto|].
  intros A. split; auto. constructor; [cbn; congruence|constructor].
Qed.

Lemma copy_in : forall X n (src : list (option X)), n <= 16 -> (forall i, i < n -> exists x, aget src i = Ok x) ->
  exists dst, copy_arr n src = Ok dst /\ forall i, i < n -> aget dst i = aget src i.
Proof.
  intros X n src Hn H. unfold copy_arr.
  destruct (for_loop_inv _ (fun j (dst : list (option X)) => length dst = 16 /\ forall i, i < j -> aget dst i = aget src i)
              (fun i dst => let* x := aget src i in aset dst i x) n 0 arr16) as (dst & E & L & G).
  - split; auto. intros; lia.
  - cbn [Nat.add]. intros j dst Hj (L & G). destruct (H j ltac:(lia)) as (x & Hx). rewrite Hx. cbn [bind].
    destruct (aset_spec _ dst j x) as (dst' & -> & L' & Gj & Go); [lia|].
    exists dst'. split; auto. split; [lia|]. intros i Hi. destruct (Nat.eq_dec i j).
    + subst. congruence.
    + rewrite Go by auto. apply G. lia.
  - exists dst. auto.
Qed.

Theorem empty_encoded : forall il u (before after : list bin_trie), (3 <= u <= 2 ^ 48)%N -> length before < 16 ->
  Forall (fun t => t_height (bin_ops t) = digits u) (before ++ after) ->
  exists t t', level_build il [] u = Ok t /\ level_encodeRuns t = Ok t' /\
    forall s1 s2 hc runs parallel, (1 <= hc)%N ->
      (parallel = true -> N.of_nat (length (before ++ after)) < 2 ^ 16 - 1)%N ->
      Intersect Bin s1 s2 hc (map bin_ops (before ++ BLevel t' :: after)) runs parallel = UB OutOfBounds.
Proof.
  intros il u before after Hu Hb Hh.
  destruct (empty_stored il u ltac:(lia)) as (t & t' & E & E' & _ & B').
  exists t, t'. split; auto. split; auto. intros s1 s2 hc runs parallel Hhc Hpar.
  replace (u =? 2)%N with false in B' by (symmetry; apply N.eqb_neq; lia).
  destruct (height_of_spec u ltac:(lia)) as (h & Hd & H1 & _ & _).
  rewrite <- (height_digits u h ltac:(lia) Hd) in *. clear Hu Hd E E'.
  assert (Ht : t_height (bin_ops (BLevel t')) = h) by (cbn; unfold level_getHeight; rewrite B'; apply repeat_length).
  assert (Hr : t_getNode (bin_ops (BLevel t')) 0 0 = UB OutOfBounds).
  { cbn [bin_ops level_ops t_getNode]. unfold level_getNode. rewrite B'. destruct h; [lia|]. reflexivity. }
  set (Ts := map bin_ops (before ++ BLevel t' :: after)).
  assert (HT : Forall (fun T => t_height T = h) Ts).
  { unfold Ts. apply Forall_map. apply Forall_app in Hh. destruct Hh. apply Forall_app. split; auto. }
  assert (Hg : forall i T, nth_error Ts i = Some T -> in_or_out (t_getNode T 0 0)).
  { intros i T EG. apply nth_error_In, in_map_iff in EG. destruct EG as (x & <- & _). apply bin_node_io. }
  assert (Hm : nth_error Ts (length before) = Some (bin_ops (BLevel t'))).
  { unfold Ts. rewrite map_app, nth_error_app2; rewrite map_length; [|lia]. rewrite Nat.sub_diag. reflexivity. }
  assert (Hlt : length before < length Ts) by (apply nth_error_Some; congruence).
  assert (Hnt : parallel = true -> n_tries (length Ts) = length Ts).
  { intros Ep. specialize (Hpar Ep). rename Hpar into Hlen. apply n_tries_small. unfold Ts. rewrite map_length.
    rewrite app_length in *. cbn [length]. clear - Hlen. lia. }
  clear Hpar. clearbody Ts. generalize dependent (length before). intros m Hm16 Hm Hlt.
  assert (Hv : forall i, i < length Ts -> exists T, vget Ts i = Ok T /\ in_or_out (t_getNode T 0 0)).
  { intros i Hi. unfold vget. destruct (nth_error Ts i) eqn:EG; [eauto|]. apply nth_error_None in EG. lia. }
  unfold Intersect, Intersect_mem. destruct (Hv 0 ltac:(lia)) as (T0 & E0 & _). rewrite E0. cbn [bind].
  assert (Eh : t_height T0 = h).
  { unfold vget in E0. destruct (nth_error Ts 0) eqn:EG; [|discriminate]. injection E0 as <-.
    apply nth_error_In in EG. rewrite Forall_forall in HT. auto. }
  rewrite Eh. replace (same_height h Ts) with true.
  2: { symmetry. apply forallb_forall. intros T HI. rewrite Forall_forall in HT. apply Nat.eqb_eq. auto. }
  cbn [negb]. replace (N.eqb hc 0) with false by (symmetry; apply N.eqb_neq; lia).
  assert (HR : forall rts ats, (forall i, i <= m -> aget rts i = Ok 0) -> (forall i, i <= m -> aget ats i = Ok true) ->
    runsAND Bin Ts (length Ts) h (S h) 0 rts ats 0 [] = UB OutOfBounds).
  { intros rts ats Gr Ga. cbn [runsAND]. replace (at_end Bin h 0) with false by (destruct h; [lia|reflexivity]).
    unfold runs_scan. rewrite (loop_out _ (fun a : active_arr * N * N => length (fst (fst a)) = 16) _ m m); auto.
    + intros j [[tmp x] y] Hj L. cbn [fst] in L. rewrite Ga by lia. cbn [bind].
      destruct (Hv j ltac:(lia)) as (T & ET & HX). rewrite ET. cbn [bind]. rewrite Gr by lia. cbn [bind].
      destruct HX as [(w & Ew)|Ew]; rewrite Ew; cbn [bind]; auto. left.
      destruct (negb (N.eqb w 0)).
      * destruct (aset_len _ tmp j true ltac:(lia)) as (tmp' & E & L'). rewrite E. cbn [bind].
        eexists; split; [reflexivity|]. cbn. lia.
      * destruct (aset_len _ tmp j false ltac:(lia)) as (tmp' & E & L'). rewrite E. cbn [bind].
        eexists; split; [reflexivity|]. cbn. lia.
    + intros [[tmp x] y] _. rewrite Ga by lia. cbn [bind]. unfold vget at 1. rewrite Hm. cbn [bind].
      rewrite Gr by lia. cbn [bind]. rewrite Hr. reflexivity. }
  assert (HA : forall rts, (forall i, i <= m -> aget rts i = Ok 0) ->
    AND Bin Ts (length Ts) h (S h) 0 rts 0 [] = UB OutOfBounds).
  { intros rts Gr. cbn [AND]. replace (at_end Bin h 0) with false by (destruct h; [lia|reflexivity]).
    rewrite (loop_out _ (fun _ => True) _ m m); auto.
    + intros j a Hj _. destruct (Hv j ltac:(lia)) as (T & ET & HX). rewrite ET. cbn [bind].
      rewrite Gr by lia. cbn [bind]. destruct HX as [(w & Ew)|Ew]; rewrite Ew; cbn [bind]; eauto.
    + intros a _. unfold vget at 1. rewrite Hm. cbn [bind]. rewrite Gr by lia. cbn [bind]. rewrite Hr. reflexivity. }
  destruct (parallel && ((h <? 2) || (N.to_nat (N.log2 hc) <=? h - 2))) eqn:Eb.
  { apply andb_true_iff in Eb. destruct Eb as (Ep & _). rewrite (Hnt Ep). unfold par_plan.
    destruct (N.to_nat (N.log2 hc)) as [|c] eqn:Ec; cbn [partialAND Nat.eqb].
    { unfold pa_emit. cbn [pa_mem m_next].
      destruct (Nat.le_gt_cases (length Ts) 16) as [L16|G16].
      2: { unfold copy_arr at 1. rewrite (loop_out _ (fun a : list (option nat) => length a = 16) _ 16 16); auto.
           - intros j a Hj L. rewrite init_roots_in by lia. cbn [bind]. left. destruct (aset_len _ a j 0 ltac:(lia)) as (a' & E & L'). exists a'. split; auto. lia. }
      destruct (copy_in _ (length Ts) init_roots L16) as (rts & -> & Gr).
      { intros i Hi. rewrite init_roots_in by lia. eauto. }
      destruct (copy_in _ (length Ts) init_active L16) as (ats & Ea & Ga).
      { intros i Hi. rewrite init_active_in by lia. eauto. }
      replace (N.log2 hc) with 0%N by lia.
      assert (Gr' : forall i, i <= m -> aget rts i = Ok 0).
      { intros i Hi. rewrite Gr by lia. apply init_roots_in. lia. }
      assert (Ga' : forall i, i <= m -> aget ats i = Ok true).
      { intros i Hi. rewrite Ga by lia. apply init_active_in. lia. }
      destruct runs; [rewrite Ea|]; cbn -[runsAND AND]; change (Pos.to_nat 1) with 1;
        cbn -[runsAND AND par_results]; unfold par_results; cbn -[runsAND AND];
        unfold run_task; cbn -[runsAND AND].
      - rewrite (HR _ _ Gr' Ga'). reflexivity.
      - rewrite (HA _ Gr'). reflexivity. }
    unfold pa_scan. rewrite (loop_out _ (fun a : active_arr * N * N => length (fst (fst a)) = 16) _ m m); auto.
    - intros j [[tmp x] y] Hj L. cbn [fst] in L. rewrite init_active_in by lia. cbn [bind].
      destruct (Hv j ltac:(lia)) as (T & ET & HX). rewrite ET. cbn [bind]. rewrite init_roots_in by lia. cbn [bind].
      destruct HX as [(w & Ew)|Ew]; rewrite Ew; cbn [bind]; [|destruct runs; auto].
      destruct runs; left.
      + rewrite orb_true_r. destruct (aset_len _ tmp j true ltac:(lia)) as (tmp' & E & L'). rewrite E. cbn [bind].
        eexists; split; [reflexivity|]. cbn. lia.
      + eexists; split; [reflexivity|]. cbn. auto.
    - intros [[tmp x] y] _. rewrite init_active_in by lia. cbn [bind]. unfold vget. rewrite Hm. cbn [bind].
      rewrite init_roots_in by lia. cbn [bind]. rewrite Hr. destruct runs; reflexivity. }
  destruct runs.
  - rewrite HR; auto; intros; [apply init_roots_in|apply init_active_in]; lia.
  - rewrite HA; auto; intros; apply init_roots_in; lia.
Qed.

Theorem empty_parallel : forall u (l : list bitem) hc s1 s2, (3 <= u <= 2 ^ 48)%N -> 1 <= length l <= 16 ->
  Forall (fun x => bitem_ok u x \/ exists il, x = (VLevel il, false, [])) l ->
  (2 <= hc)%N -> (4 * 2 ^ N.log2 hc <= rounded u)%N -> In [] (map snd l) ->
  (exists y, In y l /\ snd y <> [] /\
     (snd (fst y) = false \/ exists v, (v < 2 ^ N.of_nat (digits u))%N /\ ~ In v (snd y))) ->
  exists Ts, each_ok (make_bitem u) l = Ok Ts /\ Intersect Bin s1 s2 hc (map bin_ops Ts) true true = Ok [].
Proof.
  intros u l hc s1 s2 Hu Hn Hl Hhc H4 He (y & Hy & Hne & Hcase).
  destruct (height_of_spec u ltac:(lia)) as (h & Hh & H1 & Hp & H2 & _).
  specialize (H2 ltac:(lia)).
  rewrite <- (height_digits u h ltac:(lia) Hh) in Hcase.
  assert (Hb : par_branch h hc true = true).
  { rewrite (height_rounded u h) in H4 by (auto; lia). unfold par_branch. cbn [andb].
    replace (h <? 2) with false by (symmetry; apply Nat.ltb_ge; lia). cbn [orb]. rewrite Nat.leb_le.
    change 4%N with (2 ^ 2)%N in H4. rewrite <- N.pow_add_r in H4. unfold pow2 in H4.
    rewrite <- N.pow_le_mono_r_iff in H4 by lia. lia. }
  destruct (seen_family u h l ltac:(lia) Hh H1 Hp ltac:(lia) Hl) as (Ts & ts & E & HR & HS & HF).
  assert (Ln : length (map bin_ops Ts) = length l).
  { rewrite (Forall2_length HR), (Forall2_length HS), map_length. auto. }
  exists Ts. split; auto.
  remember (map bin_ops Ts) as Os eqn:EO. clear E EO Ts.
  assert (Lt : length ts = length l) by (rewrite (Forall2_length HF); auto).
  (* one tree is a run *)
  assert (F1 : exists i, i < length Os /\ forest_of ts i = Some Full).
  { apply in_map_iff in He. destruct He as (x & Ex & Hx). apply In_nth_error in Hx. destruct Hx as (i & Ei).
    assert (i < length l) by (apply nth_error_Some; unfold bitem in *; congruence).
    destruct (nth_error ts i) as [T|] eqn:ET; [|apply nth_error_None in ET; lia].
    destruct (Forall2_nth _ _ _ _ _ _ _ HF ET) as (x' & Ex' & Hf).
    exists i. split; [lia|]. unfold forest_of. rewrite ET. f_equal. apply (proj1 Hf). unfold bitem in *. congruence. }
  (* and one is not *)
  assert (F2 : exists i T, i < length Os /\ forest_of ts i = Some T /\ T <> Full).
  { apply In_nth_error in Hy. destruct Hy as (i & Ei).
    assert (i < length l) by (apply nth_error_Some; unfold bitem in *; congruence).
    destruct (nth_error ts i) as [T|] eqn:ET; [|apply nth_error_None in ET; lia].
    exists i, T. split; [lia|]. split; auto. intros ->.
    destruct Hcase as [Hp0|(v & Hv & Hnv)].
    - destruct (Forall2_nth _ _ _ _ _ _ _ HF ET) as (y' & Ey & (_ & Hf & _)).
      assert (y' = y) by (unfold bitem in *; congruence). subst y'. exact (Hf Hne Hp0).
    - destruct (Forall2_nth _ _ _ _ _ _ _ HS ET) as (s' & Es' & Hsel).
      unfold bitem in *. rewrite nth_error_map, Ei in Es'. cbn [option_map] in Es'. injection Es' as Es'.
      unfold as_seen in Es'. destruct (snd y) as [|a s] eqn:Ey; [congruence|].
      apply Hnv. rewrite Es', <- Hsel, sel_Full, Nat.add_0_r. apply In_nrange. rewrite of_nat_pow2. unfold pow2.
      clear - Hv. lia. }
  destruct F1 as (i & Hi & Fi). destruct F2 as (i' & T & Hi' & Fi' & HT).
  destruct (pa_scan_spec Bin Os h umem 0 h (leafok lok_bin Os) true ltac:(lia) ltac:(lia) (bin_tot h) ltac:(lia)
     (bin_last h) true (pred h) 0 init_roots init_active (forest_of ts)) as (temp & o & ES & Ho).
  { replace (S (pred h)) with h by lia. eapply inst_okf; eauto. lia. }
  { eapply inst_somes; eauto. }
  { intros _ j Hj. rewrite init_active_in by lia. assert (Q := inst_somes lok_bin h h Os ts HR j Hj).
    destruct (forest_of ts j); auto. congruence. }
  destruct (Ho eq_refl) as (_ & Eo).
  assert (AL : all_left (length Os) (forest_of ts) = false).
  { apply not_true_is_false. unfold all_left. rewrite forallb_seq. intros Q. specialize (Q i Hi). rewrite Fi in Q. discriminate. }
  assert (AR : all_right (length Os) (forest_of ts) = false).
  { apply not_true_is_false. unfold all_right. rewrite forallb_seq. intros Q. specialize (Q i Hi). rewrite Fi in Q. discriminate. }
  assert (AF : N.eqb o 0 = false).
  { rewrite Eo. apply not_true_is_false. unfold all_full. rewrite forallb_seq. intros Q. specialize (Q i' Hi').
    rewrite Fi' in Q. destruct T; try discriminate. congruence. }
  rewrite AL, AR in ES. change (node_code false false) with 0%N in ES.
  assert (Ht := inst_heights lok_bin h h Os ts HR).
  unfold Intersect, Intersect_mem.
  destruct Os as [|T0 Os']; [cbn in Ln; lia|]. change (vget (T0 :: Os') 0) with (Ok T0). cbn [bind].
  rewrite (Ht T0 (or_introl eq_refl)).
  replace (same_height h (T0 :: Os')) with true.
  2: { symmetry. apply forallb_forall. intros X HI. apply Nat.eqb_eq. auto. }
  remember (T0 :: Os') as Os eqn:EO. clear EO T0 Os'.
  cbn [negb]. replace (N.eqb hc 0) with false by (symmetry; apply N.eqb_neq; lia).
  unfold par_branch in Hb. rewrite Hb.
  replace (n_tries (length Os)) with (length Os).
  2: { symmetry. apply n_tries_16. lia. }
  assert (Hc : 1 <= N.to_nat (N.log2 hc)).
  { assert (1 <= N.log2 hc)%N by (apply (N.log2_le_mono 2 hc); lia). lia. }
  unfold par_plan. destruct (N.to_nat (N.log2 hc)) as [|c]; [lia|]. cbn [partialAND Nat.eqb].
  rewrite ES. cbn [bind negb andb]. rewrite AF. reflexivity.
Qed.

Theorem empty_parallel_all : forall u (l : list bitem) hc s1 s2, (3 <= u <= 2 ^ 48)%N -> 1 <= length l <= 16 ->
  Forall (fun x => (exists il, x = (VLevel il, false, [])) \/
    bitem_ok u x /\ snd (fst x) = true /\ forall v, (v < 2 ^ N.of_nat (digits u))%N -> In v (snd x)) l ->
  (2 <= hc)%N -> (4 * 2 ^ N.log2 hc <= rounded u)%N ->
  exists Ts r, each_ok (make_bitem u) l = Ok Ts /\ Intersect Bin s1 s2 hc (map bin_ops Ts) true true = Ok r /\
    increasing r /\ forall x, In x r <-> (x < 2 ^ N.of_nat (digits u))%N.
Proof.
  intros u l hc s1 s2 Hu Hn Hl Hhc H4.
  destruct (height_of_spec u ltac:(lia)) as (h & Hh & H1 & Hp & H2 & _).
  specialize (H2 ltac:(lia)).
  rewrite <- (height_digits u h ltac:(lia) Hh) in *.
  assert (Hb : par_branch h hc true = true).
  { rewrite (height_rounded u h) in H4 by (auto; lia). unfold par_branch. cbn [andb].
    replace (h <? 2) with false by (symmetry; apply Nat.ltb_ge; lia). cbn [orb]. rewrite Nat.leb_le.
    change 4%N with (2 ^ 2)%N in H4. rewrite <- N.pow_add_r in H4. unfold pow2 in H4.
    rewrite <- N.pow_le_mono_r_iff in H4 by lia. lia. }
  destruct (seen_family u h l ltac:(lia) Hh H1 Hp ltac:(lia)) as (Ts & ts & E & HR & HS & HF).
  { eapply Forall_impl; [|exact Hl]. intros x [Hx|(Hx & _)]; auto. }
  assert (Ln : length (map bin_ops Ts) = length l).
  { rewrite (Forall2_length HR), (Forall2_length HS), map_length. auto. }
  exists Ts, (nrange 0 (2 ^ h)). split; auto. split.
  2: { split; [apply nrange_sorted|]. intros x. rewrite In_nrange, of_nat_pow2. unfold pow2. clear. lia. }
  remember (map bin_ops Ts) as Os eqn:EO. clear E EO Ts.
  assert (Lt : length ts = length l) by (rewrite (Forall2_length HF); auto).
  assert (F1 : forall i, i < length Os -> forest_of ts i = Some Full).
  { intros i Hi. destruct (nth_error ts i) as [T|] eqn:ET; [|apply nth_error_None in ET; lia].
    destruct (Forall2_nth _ _ _ _ _ _ _ HF ET) as (x' & Ex' & Hf).
    unfold forest_of. rewrite ET. f_equal. rewrite Forall_forall in Hl.
    destruct Hf as (Hf1 & _ & Hf2). destruct (Hl x' (nth_error_In _ _ Ex')) as [(il & ->)|(Hx & He & Hall)]; auto.
    apply Hf2; auto. destruct Hx as (_ & Hne & _). exact Hne. }
  destruct (pa_scan_spec Bin Os h umem 0 h (leafok lok_bin Os) true ltac:(lia) ltac:(lia) (bin_tot h) ltac:(lia)
     (bin_last h) true (pred h) 0 init_roots init_active (forest_of ts)) as (temp & o & ES & Ho).
  { replace (S (pred h)) with h by lia. eapply inst_okf; eauto. lia. }
  { eapply inst_somes; eauto. }
  { intros _ j Hj. rewrite init_active_in by lia. assert (Q := inst_somes lok_bin h h Os ts HR j Hj).
    destruct (forest_of ts j); auto. congruence. }
  destruct (Ho eq_refl) as (_ & Eo).
  assert (AF : N.eqb o 0 = true).
  { rewrite Eo. unfold all_full. rewrite forallb_seq. intros i Hi. rewrite F1 by auto. reflexivity. }
  assert (Ht := inst_heights lok_bin h h Os ts HR).
  unfold Intersect, Intersect_mem.
  destruct Os as [|T0 Os']; [cbn in Ln; lia|]. change (vget (T0 :: Os') 0) with (Ok T0). cbn [bind].
  rewrite (Ht T0 (or_introl eq_refl)).
  replace (same_height h (T0 :: Os')) with true.
  2: { symmetry. apply forallb_forall. intros X HI. apply Nat.eqb_eq. auto. }
  remember (T0 :: Os') as Os eqn:EO. clear EO T0 Os'.
  cbn [negb]. replace (N.eqb hc 0) with false by (symmetry; apply N.eqb_neq; lia).
  unfold par_branch in Hb. rewrite Hb.
  replace (n_tries (length Os)) with (length Os).
  2: { symmetry. apply n_tries_16. lia. }
  assert (Hc : 1 <= N.to_nat (N.log2 hc)).
  { assert (1 <= N.log2 hc)%N by (apply (N.log2_le_mono 2 hc); lia). lia. }
  unfold par_plan. destruct (N.to_nat (N.log2 hc)) as [|c]; [lia|]. cbn [partialAND Nat.eqb].
  rewrite ES. cbn [bind negb andb]. rewrite AF. cbn [pa_r].
  rewrite (push_full_spec Bin h umem 0 h (leafok lok_bin Os) (bin_tot h) ltac:(lia) 0 h) by (auto using aligned_0; lia).
  cbn [bind app length pa_roots Nat.eqb pa_r]. rewrite Nat.add_0_r. reflexivity.
Qed.
