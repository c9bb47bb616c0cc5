(** Intersect on tries built over different universe sizes. *)

From Coq Require Import Permutation.
From Verif Require Import Base FlatTrie LevelTrie FastTrie ParallelFor Intersection Tries Facts Tree
  Groups Reps Layout BuildFlat BuildLevel BuildFast WordBits Spec RoundTrip RoundTripFacts
  Compress CompressFast RunsFacts RunsThms SpecTries SpecLimits
  InterSpec InterSeq ParFacts InterPar InterPlan InterTop InterInst InterTight InterMain InterThms InterLaws.

Lemma Forall2_cut : forall X Y (P : X -> Y -> Prop) (Q : X -> Prop) a b, Forall2 P a b -> Forall Q a ->
  Forall2 (fun x y => P x y /\ Q x) a b.
Proof.
  intros X Y P Q a b F. induction F; intros H0; constructor.
  - split; auto. apply (Forall_inv H0).
  - apply IHF. apply (Forall_inv_tail H0).
Qed.

Lemma heights_dec : forall X (f : X -> nat) l, l <> [] ->
  (exists h, Forall (fun x => f x = h) l) \/ exists x y, In x l /\ In y l /\ f x <> f y.
Proof.
  intros X f l. induction l as [|x l IH]; [congruence|]. intros _. destruct l as [|y l].
  - left. exists (f x). auto.
  - destruct IH as [(h & H)|(a & b & Ha & Hb & Hne)]; [discriminate| |].
    + destruct (Nat.eq_dec (f x) h) as [E|E].
      * left. exists h. constructor; auto.
      * right. exists x, y. split; [left; auto|]. split; [right; left; auto|].
        apply Forall_inv in H. congruence.
    + right. exists a, b. split; [right; auto|]. split; [right; auto|]. auto.
Qed.

(** The number of bits of a universe. *)
Definition bits (u : N) : nat := N.to_nat (N.log2_up u).

Lemma bits_height : forall u h, (2 <= u <= 2 ^ 48)%N -> height_of u = Ok h -> h = bits u.
Proof.
  intros u h Hu Hh. assert (E := height_rounded u h ltac:(lia) Hh). unfold rounded, pow2 in E.
  apply N.pow_inj_r in E; [|lia]. unfold bits. lia.
Qed.

Lemma bits_rounded : forall u v, bits u = bits v <-> rounded u = rounded v.
Proof.
  intros u v. unfold bits, rounded. split; intros H.
  - f_equal. lia.
  - apply N.pow_inj_r in H; lia.
Qed.

Lemma no_common_empty : forall sets, sets <> [] -> is_intersection sets [] <-> disjoint_sets sets.
Proof.
  intros sets Hne. unfold is_intersection, disjoint_sets. split.
  - intros (_ & H) v Hv. apply H in Hv. destruct Hv.
  - intros H. split; [constructor|]. intros x. split; [intros []|]. intros Hx. exfalso. apply (H x Hx).
Qed.

Section Mixed.
  Context {X : Type} (uni : X -> N) (set : X -> list N).

  (** What a call yields, given the outcome when all universes have the same number of bits. *)
  Lemma mixed_outcome : forall (Ts : list trie_ops) (l : list X) k s1 s2 hc runs parallel, l <> [] ->
    (exists b, Forall2 (fun x T => t_height T = bits (uni x) + b) l Ts) \/
    (exists b, Forall2 (fun x T => t_height T = S (bits (uni x) - b) /\ b <= bits (uni x)) l Ts) ->
    ((forall x y, In x l -> In y l -> rounded (uni x) = rounded (uni y)) ->
       exists r, Intersect k s1 s2 hc Ts runs parallel = Ok r /\ is_intersection (map set l) r) ->
    exists r, Intersect k s1 s2 hc Ts runs parallel = Ok r /\
      (is_intersection (map set l) r <->
         (forall x y, In x l -> In y l -> rounded (uni x) = rounded (uni y)) \/ disjoint_sets (map set l)).
  Proof.
    intros Ts l k s1 s2 hc runs parallel Hne HT Hsame.
    destruct (heights_dec _ (fun x => bits (uni x)) l Hne) as [(h & Hh)|(x & y & Hx & Hy & Hxy)].
    - assert (Hall : forall x y, In x l -> In y l -> rounded (uni x) = rounded (uni y)).
      { intros x y Hx Hy. apply bits_rounded. rewrite Forall_forall in Hh. rewrite (Hh x Hx), (Hh y Hy). auto. }
      destruct (Hsame Hall) as (r & E & Hr). exists r. split; auto. tauto.
    - assert (HT' : exists T T', In T Ts /\ In T' Ts /\ t_height T <> t_height T').
      { apply In_nth_error in Hx. destruct Hx as (i & Ei). apply In_nth_error in Hy. destruct Hy as (j & Ej).
        destruct HT as [(b & HT)|(b & HT)];
          destruct (Forall2_nth _ _ _ _ _ _ _ HT Ei) as (T & ETi & HTi);
          destruct (Forall2_nth _ _ _ _ _ _ _ HT Ej) as (T' & ETj & HTj);
          exists T, T'; (split; [eapply nth_error_In; eauto|split; [eapply nth_error_In; eauto|lia]]). }
      destruct HT' as (T & T' & H1 & H2 & H3). exists []. unfold Intersect.
      rewrite (height_mismatch k s1 s2 hc Ts runs parallel T T' H1 H2 H3). cbn [bind]. split; auto.
      rewrite no_common_empty by (destruct l; cbn; congruence).
      split; auto. intros [Hall|H]; auto. exfalso. apply Hxy. apply bits_rounded. apply Hall; auto.
  Qed.
End Mixed.

Theorem bin_mixed : forall (l : list (N * bitem)), 1 <= length l <= 16 ->
  Forall (fun x => (2 <= fst x <= 2 ^ 48)%N /\ bitem_ok (fst x) (snd x)) l ->
  exists Ts, each_ok (fun x => make_bitem (fst x) (snd x)) l = Ok Ts /\
    forall s1 s2 hc runs parallel, (1 <= hc)%N ->
      (runs = false -> Forall (fun x => snd (fst (snd x)) = false) l) ->
      (parallel = true -> runs = false /\ (hc < 2 ^ 16)%N /\ Forall (fun x => (3 <= fst x)%N) l /\
                          valid_scheduler s1 /\ valid_scheduler s2) ->
      exists r, Intersect Bin s1 s2 hc (map bin_ops Ts) runs parallel = Ok r /\
        (is_intersection (map (fun x => snd (snd x)) l) r <->
           (forall x y, In x l -> In y l -> rounded (fst x) = rounded (fst y)) \/
           disjoint_sets (map (fun x => snd (snd x)) l)).
Proof.
  intros l Hn Hl.
  destruct (each_ok_spec _ _ (fun x => make_bitem (fst x) (snd x))
    (fun x t => exists T, repr lok_bin (bits (fst x)) (bits (fst x)) (bin_ops t) T /\
       (1 <= bits (fst x) <= 48 /\ ((3 <= fst x)%N -> 2 <= bits (fst x))) /\
       sel umem (bits (fst x) + 0) T 0 = snd (snd x) /\ (snd (fst (snd x)) = false -> plain T)) l) as (Ts & E & HT).
  { eapply Forall_impl; [|exact Hl]. intros [u [[v e] s]] (Hu & Hx). cbn [fst snd] in *.
    destruct (height_of_spec u Hu) as (h & Hh & H1 & Hp & H2 & _). assert (Eh := bits_height u h Hu Hh). subst h.
    destruct (bin_make_rep u (bits u) v e s Hh Hu H1 Hp H2 Hx) as (t & T & ? & ? & ? & ? & ?). eauto 12. }
  exists Ts. split; auto. intros s1 s2 hc runs parallel Hhc Hr Hpar.
  assert (Ln : length Ts = length l) by (symmetry; eapply Forall2_length; eauto).
  assert (Hne : l <> []) by (destruct l; cbn in *; [lia|discriminate]).
  assert (HH : Forall2 (fun x T => t_height T = bits (fst x) + 0) l (map bin_ops Ts)).
  { apply Forall2_map_r. eapply Forall2_impl; [|exact HT]. cbn. intros x t (T & (Hh & _) & _). lia. }
  apply (mixed_outcome fst (fun x : N * bitem => snd (snd x))); auto.
  { eauto. }
  intros Hall. set (h := match l with x :: _ => bits (fst x) | [] => 0 end).
  assert (Hb : Forall (fun x => bits (fst x) = h) l).
  { apply Forall_forall. intros x Hx. destruct l as [|y l']; [congruence|]. apply bits_rounded. apply Hall; auto. left; auto. }
  apply (Forall2_cut _ _ _ _ _ _ HT) in Hb.
  assert (HT2 : Forall2 (fun x t => exists T, repr lok_bin h h (bin_ops t) T /\ (1 <= h <= 48 /\ ((3 <= fst x)%N -> 2 <= h)) /\
       sel umem (h + 0) T 0 = snd (snd x) /\ (snd (fst (snd x)) = false -> plain T)) l Ts).
  { eapply Forall2_impl; [|exact Hb]. cbn. intros x t ((T & ? & ? & ? & ?) & <-). eauto 8. }
  apply Forall2_split in HT2. destruct HT2 as (ts & HA & HB).
  assert (HR : Forall2 (repr lok_bin h h) (map bin_ops Ts) ts).
  { apply Forall2_map_l. eapply Forall2_impl; [|exact HA]. cbn. intros t T (x & _ & ? & _). auto. }
  assert (HS : Forall2 (fun t s => sel umem (h + 0) t 0 = s) ts (map (fun x => snd (snd x)) l)).
  { apply Forall2_map_r. eapply Forall2_impl; [|exact HB]. cbn. intros t x (y & _ & _ & ? & _). auto. }
  assert (HX : exists x, In x l /\ 1 <= h <= 48 /\ ((3 <= fst x)%N -> 2 <= h)).
  { assert (Lts := Forall2_length HB). destruct ts as [|T ts']; [destruct l; cbn in *; [lia|discriminate]|].
    destruct (Forall2_nth _ _ _ _ _ 0 T HB eq_refl) as (x & Ex & (t & _ & ? & _)). exists x. split; auto.
    eapply nth_error_In; eauto. }
  destruct HX as (x0 & Hx0 & H48 & H2).
  assert (Hpl : runs = false -> Forall plain ts).
  { intros H0. specialize (Hr H0). apply Forall_forall. intros T HT'. apply In_nth_error in HT'. destruct HT' as (i & Ei).
    destruct (Forall2_nth _ _ _ _ _ _ _ HB Ei) as (x & Ex & (t & _ & _ & _ & Hp)). apply Hp.
    rewrite Forall_forall in Hr. apply Hr. eapply nth_error_In; eauto. }
  assert (Hn' : 1 <= length (map bin_ops Ts) <= 16) by (rewrite map_length; lia).
  destruct (par_branch h hc parallel) eqn:Hbr.
  - assert (parallel = true) by (unfold par_branch in Hbr; destruct parallel; auto; discriminate). subst parallel.
    destruct (Hpar eq_refl) as (-> & H16 & H3 & V1 & V2). rewrite Forall_forall in H3.
    destruct (bin_par h H48 (map bin_ops Ts) ts _ Hn' HR HS false Hpl hc Hhc H16 (or_introl (H2 (H3 _ Hx0)))
                s1 s2 true V1 V2 Hbr) as (r & m & Eo & _ & _ & Hf & _).
    exists r. unfold Intersect. rewrite Eo. split; auto. apply Hf.
    eapply Forall_impl; [|apply Hpl; auto]. intros. apply plain_noruns; auto.
  - destruct (bin_seq h H48 (map bin_ops Ts) ts _ Hn' HR HS runs Hpl hc Hhc s1 s2 parallel Hbr) as (r & Er & Hi).
    exists r. unfold Intersect. rewrite Er. auto.
Qed.

Theorem fast_mixed : forall (lw : nat) (l : list (N * fitem)), 1 <= length l <= 16 ->
  Forall (fun x => fast_universe (fst x) lw /\ fitem_ok (fst x) (snd x)) l ->
  exists Ts, each_ok (fun x => make_fitem (fst x) lw (snd x)) l = Ok Ts /\
    forall s1 s2 hc runs parallel, (1 <= hc)%N ->
      (runs = false -> Forall (fun x => f_enc (snd x) = false) l) ->
      (parallel = true -> runs = false /\ (hc < 2 ^ 16)%N /\ Forall (fun x => (2 ^ N.of_nat lw < fst x)%N) l /\
                          valid_scheduler s1 /\ valid_scheduler s2) ->
      exists r, Intersect (Fast lw) s1 s2 hc (map fast_ops Ts) runs parallel = Ok r /\
        (is_intersection (map (fun x => snd (snd x)) l) r <->
           (forall x y, In x l -> In y l -> rounded (fst x) = rounded (fst y)) \/
           disjoint_sets (map (fun x => snd (snd x)) l)).
Proof.
  intros lw l Hn Hl.
  destruct (each_ok_spec _ _ (fun x => make_fitem (fst x) lw (snd x))
    (fun x t => exists T, repr lok_fast (bits (fst x) - lw) (S (bits (fst x) - lw)) (fast_ops t) T /\
       (lw <= 6 /\ lw <= bits (fst x) <= 48 /\ ((2 ^ N.of_nat lw < fst x)%N -> lw < bits (fst x))) /\
       sel (wmem lw) (bits (fst x) - lw + lw) T 0 = snd (snd x) /\ (f_enc (snd x) = false -> plain T)) l) as (Ts & E & HT).
  { eapply Forall_impl; [|exact Hl]. intros [u [[[jh je] e] s]] ((Hlw & Hu) & Hx). cbn [fst snd] in *.
    assert (H8 : (2 ^ N.of_nat 3 <= 2 ^ N.of_nat lw)%N).
    { apply N.pow_le_mono_r; [lia|]. cbn in Hlw. lia. }
    change (2 ^ N.of_nat 3)%N with 8%N in H8.
    destruct (height_of_spec u ltac:(lia)) as (h & Hh & H1 & Hp & H2 & Hk).
    assert (Eh := bits_height u h ltac:(lia) Hh). subst h.
    assert (Hlh : lw <= bits u).
    { destruct lw as [|lw]; [lia|]. change (2 ^ N.of_nat (S lw))%N with (pow2 (S lw)) in Hu.
      rewrite pow2_S in Hu. assert (lw < bits u) by (apply Hk; lia). lia. }
    assert (H6 : lw <= 6) by (cbn in Hlw; lia).
    destruct (fast_make_rep u (bits u) lw jh je e s Hh H6 Hlh ltac:(lia) Hp Hx) as (t & T & Et & R & S0 & P0 & _).
    exists t. split; auto. exists T. split; auto. split; [|split; auto]. split; auto. split; [lia|]. intros H0. apply Hk. auto. }
  exists Ts. split; auto. intros s1 s2 hc runs parallel Hhc Hr Hpar.
  assert (Ln : length Ts = length l) by (symmetry; eapply Forall2_length; eauto).
  assert (Hne : l <> []) by (destruct l; cbn in *; [lia|discriminate]).
  assert (HH : Forall2 (fun x T => t_height T = S (bits (fst x) - lw) /\ lw <= bits (fst x)) l (map fast_ops Ts)).
  { apply Forall2_map_r. eapply Forall2_impl; [|exact HT]. cbn. intros x t (T & (Hh & _) & ? & _). cbn in Hh. lia. }
  apply (mixed_outcome fst (fun x : N * fitem => snd (snd x))); auto.
  { eauto. }
  intros Hall. set (h := match l with x :: _ => bits (fst x) | [] => 0 end).
  assert (Hb : Forall (fun x => bits (fst x) = h) l).
  { apply Forall_forall. intros x Hx. destruct l as [|y l']; [congruence|]. apply bits_rounded. apply Hall; auto. left; auto. }
  apply (Forall2_cut _ _ _ _ _ _ HT) in Hb. set (d := h - lw).
  assert (HT2 : Forall2 (fun x t => exists T, repr lok_fast d (S d) (fast_ops t) T /\
       (lw <= 6 /\ d + lw <= 48 /\ ((2 ^ N.of_nat lw < fst x)%N -> 1 <= d)) /\
       sel (wmem lw) (d + lw) T 0 = snd (snd x) /\ (f_enc (snd x) = false -> plain T)) l Ts).
  { eapply Forall2_impl; [|exact Hb]. cbn. intros x t ((T & ? & (? & ? & H0) & ? & ?) & <-).
    exists T. split; auto. split; [|auto]. split; auto. unfold d. split; [lia|]. intros H5. apply H0 in H5. lia. }
  apply Forall2_split in HT2. destruct HT2 as (ts & HA & HB).
  assert (HR : Forall2 (repr lok_fast d (S d)) (map fast_ops Ts) ts).
  { apply Forall2_map_l. eapply Forall2_impl; [|exact HA]. cbn. intros t T (x & _ & ? & _). auto. }
  assert (HS : Forall2 (fun t s => sel (wmem lw) (d + lw) t 0 = s) ts (map (fun x => snd (snd x)) l)).
  { apply Forall2_map_r. eapply Forall2_impl; [|exact HB]. cbn. intros t x (y & _ & _ & ? & _). auto. }
  assert (HX : exists x, In x l /\ lw <= 6 /\ d + lw <= 48 /\ ((2 ^ N.of_nat lw < fst x)%N -> 1 <= d)).
  { assert (Lts := Forall2_length HB). destruct ts as [|T ts']; [destruct l; cbn in *; [lia|discriminate]|].
    destruct (Forall2_nth _ _ _ _ _ 0 T HB eq_refl) as (x & Ex & (t & _ & ? & _)). exists x. split; auto.
    eapply nth_error_In; eauto. }
  destruct HX as (x0 & Hx0 & H6 & H48 & H2).
  assert (Hpl : runs = false -> Forall plain ts).
  { intros H0. specialize (Hr H0). apply Forall_forall. intros T HT'. apply In_nth_error in HT'. destruct HT' as (i & Ei).
    destruct (Forall2_nth _ _ _ _ _ _ _ HB Ei) as (x & Ex & (t & _ & _ & _ & Hp)). apply Hp.
    rewrite Forall_forall in Hr. apply Hr. eapply nth_error_In; eauto. }
  assert (Hn' : 1 <= length (map fast_ops Ts) <= 16) by (rewrite map_length; lia).
  destruct (par_branch (S d) hc parallel) eqn:Hbr.
  - assert (parallel = true) by (unfold par_branch in Hbr; destruct parallel; auto; discriminate). subst parallel.
    destruct (Hpar eq_refl) as (-> & H16 & H3 & V1 & V2). rewrite Forall_forall in H3.
    destruct (fast_par lw d H6 H48 (map fast_ops Ts) ts _ Hn' HR HS false Hpl hc Hhc H16
                (or_introl (H2 (H3 _ Hx0))) s1 s2 true V1 V2 Hbr) as (r & m & Eo & _ & _ & Hf & _).
    exists r. unfold Intersect. rewrite Eo. split; auto. apply Hf.
    eapply Forall_impl; [|apply Hpl; auto]. intros. apply plain_noruns; auto.
  - destruct (fast_seq lw d H6 H48 (map fast_ops Ts) ts _ Hn' HR HS runs Hpl hc Hhc s1 s2 parallel Hbr) as (r & Er & Hi).
    exists r. unfold Intersect. rewrite Er. auto.
Qed.
