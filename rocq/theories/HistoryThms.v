(** Programs over several tries: proofs. *)

From Verif Require Import Base FlatTrie LevelTrie FastTrie ParallelFor Intersection Tries Serialize SerializeFacts Facts
  Spec SpecTries SpecFiles SpecHistory History ParForThms SerializeThms RoundTrip RoundTripFacts SerializeSound InterThms InterLaws ToolsFacts FastToolsThms.

(** * Any class that follows its rules step by step follows them in programs *)

Section Refinement.

Variables (K T O : Type) (I : interface K T) (R : rules K O) (rel : O -> T -> Prop).

(** What is known of the bytes stored for an object. *)
Definition chunk_ok (x : O) (b : list N) : Prop :=
  forall old o, may_load R old x -> rel old o -> forall rest,
    exists t, i_load I o (b ++ rest) = Ok (t, rest) /\ rel x t.

Hypothesis sim_new : forall k x, may_new R k x -> exists t, i_new I k = Ok t /\ rel x t.
Hypothesis sim_encode : forall x y t, may_encode R x y -> rel x t ->
  exists t', i_encodeRuns I t = Ok t' /\ rel y t'.
Hypothesis sim_decode : forall x s t, may_decode R x s -> rel x t ->
  exists v, i_decode I t = Ok v /\ is_intersection [s] v.
Hypothesis sim_store : forall n k x t, may_store R x -> rel x t ->
  exists b, i_serialize I n k t = Ok b /\ chunk_ok x b.
Hypothesis sim_meet : forall n xs runs parallel sets ts, may_meet R xs runs parallel sets ->
  Forall2 rel xs ts -> exists v, i_intersect I n ts runs parallel = Ok v /\ is_intersection sets v.

Definition objects_rel (a : nat -> option O) (m : nat -> option T) : Prop :=
  forall i x, a i = Some x -> exists t, m i = Some t /\ rel x t.

Definition files_rel (a : nat -> option (list O)) (m : nat -> option (list N)) : Prop :=
  forall f xs, a f = Some xs -> exists bs, m f = Some (concat bs) /\ Forall2 chunk_ok xs bs.

Lemma assign_rel : forall a m i x t, objects_rel a m -> rel x t ->
  objects_rel (assign a i (Some x)) (assign m i (Some t)).
Proof.
  intros a m i x t H Hx j y. unfold assign. destruct (j =? i).
  - intros E. injection E as <-. eauto.
  - apply H.
Qed.

Lemma delete_rel : forall a m i, objects_rel a m -> objects_rel (assign a i None) (assign m i None).
Proof. intros a m i H j y. unfold assign. destruct (j =? i); [discriminate|apply H]. Qed.

Lemma deref_all : forall a m is xs, objects_rel a m -> Forall2 (fun i x => a i = Some x) is xs ->
  exists ts, each_ok (deref m) is = Ok ts /\ Forall2 rel xs ts.
Proof.
  intros a m is xs H F. induction F as [|i x is xs E _ (ts & E1 & E2)]; cbn [each_ok]; [exists []; auto|].
  destruct (H i x E) as (t & Et & Hr). unfold deref at 1. rewrite Et. cbn [bind]. rewrite E1. cbn [bind]. eauto.
Qed.

Lemma store_all_ok : forall n xs ts k, Forall2 rel xs ts -> Forall (may_store R) xs ->
  exists bs, store_all I n k ts = Ok (concat bs) /\ Forall2 chunk_ok xs bs.
Proof.
  intros n xs ts k F. revert k. induction F as [|x t xs ts Hr _ IH]; intros k S; cbn [store_all].
  - exists []. auto.
  - inversion S; subst. destruct (sim_store n k x t) as (b & E & Hb); auto.
    destruct (IH (Datatypes.S k)) as (bs & E' & F'); auto. rewrite E. cbn [bind]. rewrite E'. cbn [bind].
    exists (b :: bs). auto.
Qed.

Lemma load_all_ok : forall a is xs a', ideal_load R a is xs a' -> forall m bs, objects_rel a m ->
  Forall2 chunk_ok xs bs -> exists m', load_all I m is (concat bs) = Ok m' /\ objects_rel a' m'.
Proof.
  induction 1 as [objects rest|objects i is old new rest objects' E L _ IH]; intros m bs Hm F; cbn [load_all]; eauto.
  inversion F as [|? b ? bs' Hb F']; subst. destruct (Hm i old E) as (o & Eo & Ho).
  unfold deref. rewrite Eo. cbn [bind concat]. destruct (Hb old o L Ho (concat bs')) as (t & Et & Ht).
  rewrite Et. cbn [bind]. apply IH; auto. apply assign_rel; auto.
Qed.

Lemma step_ok : forall a s a' shown, ideal_step R a s a' shown -> forall n p,
  objects_rel (fst a) (p_objects p) -> files_rel (snd a) (p_files p) ->
  exists p' vs, do_step I n p s = Ok (p', vs) /\ objects_rel (fst a') (p_objects p') /\
    files_rel (snd a') (p_files p') /\ Forall2 is_intersection shown vs.
Proof.
  intros a s a' shown H n p. destruct H as [objects files i k x H | objects files i x y E H
    | objects files i x v E H | objects files is f xs F H | objects files is f xs objects' E H
    | objects files is runs parallel xs sets F H | objects files i]; cbn [fst snd do_step]; intros Ho Hf.
  - destruct (sim_new k x H) as (t & Et & Hr). rewrite Et. cbn [bind].
    eexists. exists []. split; [reflexivity|]. cbn [p_objects p_files]. split; [apply assign_rel; auto|auto].
  - destruct (Ho i x E) as (t & Et & Hr). destruct (sim_encode x y t H Hr) as (t' & Et' & Hr').
    unfold deref. rewrite Et. cbn [bind]. rewrite Et'. cbn [bind].
    eexists. exists []. split; [reflexivity|]. cbn [p_objects p_files]. split; [apply assign_rel; auto|auto].
  - destruct (Ho i x E) as (t & Et & Hr). destruct (sim_decode x v t H Hr) as (r & Er & Hi).
    unfold deref. rewrite Et. cbn [bind]. rewrite Er. cbn [bind]. exists p, [r]. auto.
  - destruct (deref_all _ _ _ _ Ho F) as (ts & E1 & E2). rewrite E1. cbn [bind].
    destruct (store_all_ok n xs ts 0 E2 H) as (bs & E3 & E4). rewrite E3. cbn [bind].
    eexists. exists []. split; [reflexivity|]. cbn [p_objects p_files]. split; auto. split; auto.
    intros g ys. unfold assign. destruct (g =? f); [|apply Hf]. intros Eg. injection Eg as <-. eauto.
  - destruct (Hf f xs E) as (bs & E1 & E2). rewrite E1.
    destruct (load_all_ok _ _ _ _ H _ _ Ho E2) as (m' & E3 & E4). rewrite E3. cbn [bind].
    eexists. exists []. split; [reflexivity|]. cbn [p_objects p_files]. auto.
  - destruct (deref_all _ _ _ _ Ho F) as (ts & E1 & E2). rewrite E1. cbn [bind].
    destruct (sim_meet n xs runs parallel sets ts H E2) as (v & Ev & Hv). rewrite Ev. cbn [bind].
    exists p, [v]. auto.
  - eexists. exists []. split; [reflexivity|]. cbn [p_objects p_files]. split; [apply delete_rel; auto|auto].
Qed.

Lemma steps_ok : forall a steps shown, ideal_steps R a steps shown -> forall n p,
  objects_rel (fst a) (p_objects p) -> files_rel (snd a) (p_files p) ->
  exists p' vs, run_steps I n p steps = Ok (p', vs) /\ Forall2 is_intersection shown vs.
Proof.
  induction 1 as [a|a s a' steps shown more H _ IH]; intros n p Ho Hf; cbn [run_steps]; eauto.
  destruct (step_ok _ _ _ _ H n p Ho Hf) as (p1 & vs & E1 & Ho1 & Hf1 & F1). rewrite E1. cbn [bind].
  destruct (IH (S n) p1 Ho1 Hf1) as (p2 & vs' & E2 & F2). rewrite E2. cbn [bind].
  eexists. eexists. split; [reflexivity|]. apply Forall2_app; auto.
Qed.

Lemma program_ok : forall steps shown, ideal_program R steps shown ->
  exists vs, run_program I steps = Ok vs /\ Forall2 is_intersection shown vs.
Proof.
  intros steps shown H. unfold run_program.
  destruct (steps_ok _ _ _ H 0 (mkPool (fun _ => None) (fun _ => None))) as (p & vs & E & F).
  { intros i x E. discriminate. }
  { intros f xs E. discriminate. }
  rewrite E. cbn [bind]. eauto.
Qed.

End Refinement.

Lemma one_set : forall s, increasing s -> is_intersection [s] s.
Proof.
  intros s H. split; auto. intros x. split.
  - intros Hx. repeat constructor. auto.
  - intros F. inversion F; auto.
Qed.

(** * The classes derived from binaryTrie *)

Definition bin_rel (x : ideal_trie) (t : bin_trie) : Prop :=
  match x with
  | Empty v => has_class v t
  | Holds v u enc s =>
    (2 <= u <= 2 ^ 48)%N /\ plain_ok u v s /\ (enc = true -> stored_ok u v true s) /\ bin_make u v enc s = Ok t
  end.

Lemma bin_rel_class : forall x t, bin_rel x t -> has_class (class_of x) t.
Proof.
  intros [v|v u enc s] t H; cbn in *; auto. destruct H as (_ & _ & _ & H).
  apply (bin_make_sound _ _ _ _ _ H).
Qed.

Lemma rel_stored : forall u v enc s, plain_ok u v s -> (enc = true -> stored_ok u v true s) -> s <> [] ->
  stored_ok u v enc s.
Proof.
  intros u v enc s Hp He Hne. destruct enc; auto. split; auto. split; auto. destruct v; auto. discriminate.
Qed.

Lemma plain_built : forall u v s, (2 <= u <= 2 ^ 48)%N -> plain_ok u v s ->
  exists t, bin_build v s u = Ok t /\ bin_decode t [] = Ok s.
Proof.
  intros u v s Hu (Hs & Hb & Hv). destruct v as [il|il]; cbn [bin_build].
  - destruct Hv as (H3 & Hne & Hsh). destruct (flat_round_trip_set u s ltac:(lia) Hne Hs Hb Hsh) as (t & E & D).
    rewrite E. cbn [bind]. eexists. split; [reflexivity|exact D].
  - destruct (level_round_trip_set il u s Hu Hs Hb) as (t & E & D).
    rewrite E. cbn [bind]. eexists. split; [reflexivity|exact D].
Qed.

Lemma bin_meet_items : forall u runs xs sets ts,
  Forall2 (fun x s => exists v enc, x = Holds v u enc s /\
             (runs = false -> enc = false) /\ (runs = true -> s <> [])) xs sets ->
  Forall2 bin_rel xs ts ->
  exists l, each_ok (make_bitem u) l = Ok ts /\ map snd l = sets /\ length l = length xs /\
    Forall (fun x : bitem => plain_ok u (fst (fst x)) (snd x) /\ (runs = false -> snd (fst x) = false) /\
              (runs = true -> bitem_ok u x)) l /\
    (ts <> [] -> (2 <= u <= 2 ^ 48)%N).
Proof.
  intros u runs xs sets ts F. revert ts. induction F as [|x s xs sets (v & enc & -> & H1 & H2) _ IH]; intros ts G.
  - inversion G; subst. exists []. cbn. split; auto. split; auto. split; auto. split; auto. congruence.
  - inversion G as [|? t ? ts' Hr G']; subst. destruct (IH ts' G') as (l & E1 & E2 & E3 & E4 & E5).
    destruct Hr as (Hu & Hp & He & Hm). exists ((v, enc, s) :: l).
    cbn [each_ok make_bitem fst snd map length]. unfold make_bitem at 1. cbn [fst snd]. rewrite Hm. cbn [bind].
    rewrite E1. cbn [bind]. split; auto. split; [congruence|]. split; [congruence|]. split; auto.
    constructor; auto. cbn [fst snd]. split; auto. split; auto. intros Hr. unfold bitem_ok. cbn [fst snd].
    apply rel_stored; auto.
Qed.

Theorem bin_histories : forall c sched hc steps shown,
  codecs_ok c -> (1 <= hc)%N ->
  (forall n, valid_scheduler (fst (sched n)) /\ valid_scheduler (snd (sched n))) ->
  ideal_program (bin_rules hc) steps shown ->
  exists vs, run_program (bin_interface c sched hc) steps = Ok vs /\ Forall2 is_intersection shown vs.
Proof.
  intros c sched hc steps shown Hc Hhc Hs. apply (program_ok _ _ _ _ _ bin_rel).
  - intros [v s u|v] x; cbn [may_new bin_rules i_new bin_interface bin_construct].
    + intros (-> & Hu & Hp). destruct (plain_built u v s Hu Hp) as (t & E & D). exists t. split; auto.
      cbn [bin_rel]. split; auto. split; auto. split; [discriminate|]. unfold bin_make. rewrite E. reflexivity.
    + intros ->. destruct v; eexists; (split; [reflexivity|]); cbn; auto.
  - intros [v|v u [] s] y t; cbn [may_encode bin_rules]; try tauto. intros (-> & Ho) (Hu & Hp & _ & Hm).
    destruct (bin_made u v true s Hu Ho) as (t' & E & _). exists t'. cbn [i_encodeRuns bin_interface].
    destruct (bin_build v s u) as [t0| |] eqn:EB; unfold bin_make in Hm, E; rewrite EB in Hm, E; cbn [bind] in *;
      try discriminate.
    injection Hm as ->. split; auto. cbn [bin_rel]. split; auto. split; auto. split; auto.
    unfold bin_make. rewrite EB. exact E.
  - intros x s t (v & u & enc & ->) (Hu & Hp & He & Hm). cbn [i_decode bin_interface]. exists s.
    split; [|apply one_set; apply Hp]. destruct enc.
    + destruct (bin_made u v true s Hu (He eq_refl)) as (t' & E & _ & _ & _ & D). rewrite Hm in E. injection E as <-.
      apply (D []).
    + destruct (plain_built u v s Hu Hp) as (t' & E & D). unfold bin_make in Hm. rewrite E in Hm. cbn [bind] in Hm.
      injection Hm as <-. exact D.
  - intros n k x t (v & u & enc & s & -> & Hv & Hne) (Hu & Hp & He & Hm).
    assert (So := rel_stored u v enc s Hp He Hne).
    destruct (bin_made u v enc s Hu So) as (t' & E & Hfit & _ & Hcl & _). rewrite Hm in E. injection E as <-.
    assert (S1 : same_class t t) by (destruct t; cbn; auto).
    destruct (serialization_round_trip c u v enc s t t [] Hc Hv Hm Hfit S1) as (b & E1 & _).
    exists b. cbn [i_serialize bin_interface]. rewrite E1. cbn [bind]. split; auto.
    intros old o Hl Ho rest. cbn [may_load bin_rules] in Hl. cbn [class_of] in Hl.
    apply bin_rel_class in Ho. rewrite Hl in Ho.
    destruct (serialization_round_trip c u v enc s t o rest Hc Hv Hm Hfit) as (b' & E1' & E2).
    { clear - Hcl Ho. destruct v, t, o; cbn in *; try easy. congruence. }
    rewrite E1 in E1'. injection E1' as <-. exists t. cbn [i_load bin_interface]. split; auto.
    cbn [bin_rel]. auto.
  - intros n xs runs parallel sets ts (Hl & u & F & P1 & P2) G.
    destruct (bin_meet_items u runs xs sets ts F G) as (l & E1 & E2 & E3 & E4 & E5).
    assert (Hu : (2 <= u <= 2 ^ 48)%N).
    { apply E5. intros ->. inversion G; subst. cbn in Hl. lia. }
    cbn [i_intersect bin_interface]. destruct (Hs n) as (Hs1 & Hs2). destruct runs.
    + assert (B : Forall (bitem_ok u) l) by (eapply Forall_impl; [|exact E4]; intros x X; apply X; auto).
      destruct parallel.
      * destruct (P1 eq_refl) as (Hhc2 & [Hu3|(X & _)]); [|discriminate].
        destruct (bin_par_runs_exact u l hc (fst (sched n)) (snd (sched n))) as (Ts & r & M1 & M2 & M3); auto; try lia.
        { rewrite E2. auto. }
        rewrite E1 in M1. injection M1 as <-. rewrite E2 in M3. eauto.
      * destruct (bin_runs_seq u l Hu ltac:(lia) B) as (Ts & r & M1 & M2 & M3).
        rewrite E1 in M1. injection M1 as <-. rewrite E2 in M2. eauto.
    + set (l' := map (fun x : bitem => (fst (fst x), snd x)) l).
      assert (B : Forall (pitem_ok u) l').
      { unfold l'. clear - E4. induction E4 as [|x l (H & _) _ IH]; constructor; auto. }
      assert (Q : each_ok (make_pitem u) l' = Ok ts).
      { rewrite <- E1. unfold l'. rewrite each_ok_map. apply each_ok_ext. intros ((v & enc) & s) Hx.
        rewrite Forall_forall in E4. destruct (E4 _ Hx) as (_ & X & _). cbn [fst snd] in X. rewrite (X eq_refl).
        unfold make_pitem, make_bitem, bin_make. cbn [fst snd]. destruct (bin_build v s u); reflexivity. }
      assert (Q2 : map snd l' = sets) by (unfold l'; rewrite map_map; exact E2).
      assert (Q3 : 1 <= length l' <= 16) by (unfold l'; rewrite map_length; lia).
      destruct parallel.
      * destruct (P1 eq_refl) as (Hhc2 & Hu3).
        destruct (bin_parallel u l' Hu Q3 B) as (Ts & r & M1 & M2 & M3).
        rewrite Q in M1. injection M1 as <-. rewrite Q2 in M2. exists r. split; auto. apply M3; auto; try lia.
      * destruct (bin_plain_sequential u l' Hu Q3 B) as (Ts & r & M1 & M2 & M3).
        rewrite Q in M1. injection M1 as <-. rewrite Q2 in M2. exists r. split; auto.
Qed.

(** * fastBinaryTrie *)

Definition fast_rel (lw : nat) (x : ideal_fast) (t : fast) : Prop :=
  match x with
  | FastEmpty => x_lw t = lw /\ x_lastLevel t = []
  | FastHolds u clear enc s =>
    fast_universe u lw /\ fast_ok u s /\ u16_member (x_height_with_runs t) /\
    exists jh je t0, u16_member jh /\ (clear = true -> je = Some false) /\
      fast_make u lw jh je enc s = Ok t0 /\ refines t0 t
  end.

Lemma refines_refl : forall t, refines t t.
Proof. intros. repeat split; auto. Qed.

Lemma refines_trans : forall a b c, refines a b -> refines b c -> refines a c.
Proof.
  intros a b c (A1 & A2 & A3 & A4 & A5 & A6 & A7 & A8 & A9) (B1 & B2 & B3 & B4 & B5 & B6 & B7 & B8 & B9).
  repeat split; try congruence; intros; auto.
Qed.

(** encodeRuns() does not look at the members that may be unset. *)
Lemma writeCompress_refines : forall t t', refines t t' -> forall fuel st ws lev id its,
  fast_writeCompress fuel t' st ws lev id its = fast_writeCompress fuel t st ws lev id its.
Proof.
  intros t t' R. destruct t as [a1 a2 a3 a4 a5 a6 a7 a8 a9], t' as [b1 b2 b3 b4 b5 b6 b7 b8 b9].
  destruct R as (E1 & E2 & E3 & E4 & E5 & E6 & E7 & _).
  cbn in *. subst. induction fuel; intros; cbn [fast_writeCompress x_height x_lw x_height_u]; [reflexivity|].
  destruct (S lev =? a2); [reflexivity|]. apply bind_congr; [reflexivity|]. intros node.
  apply bind_congr; [reflexivity|]. intros _.
  destruct (N.eqb node 3); [|destruct (N.eqb node 2); [|destruct (N.eqb node 1); [|reflexivity]]].
  - apply bind_congr; [reflexivity|]. intros lc. rewrite IHfuel. apply bind_congr; [reflexivity|].
    intros ((st1 & ws1) & i1). rewrite IHfuel. reflexivity.
  - apply bind_congr; [reflexivity|]. intros lc. apply bind_congr; [reflexivity|]. intros p.
    apply bind_congr; [reflexivity|]. intros st1. rewrite IHfuel. reflexivity.
  - apply bind_congr; [reflexivity|]. intros st1. apply bind_congr; [reflexivity|]. intros rc.
    apply bind_congr; [reflexivity|]. intros p. apply bind_congr; [reflexivity|]. intros st2.
    rewrite IHfuel. reflexivity.
Qed.

Lemma encodeRuns_refines : forall t t' r, refines t t' -> fast_encodeRuns t = Ok r ->
  exists r', fast_encodeRuns t' = Ok r' /\ refines r r' /\ x_height_with_runs r' = x_height_with_runs r.
Proof.
  intros t t' r Rf E. assert (W := writeCompress_refines t t' Rf).
  destruct Rf as (E1 & E2 & E3 & E4 & E5 & E6 & E7 & E8 & E9).
  unfold fast_encodeRuns in *. rewrite E2, W.
  apply bind_inv in E. destruct E as (((st & ws) & b) & Ew & E). rewrite Ew. cbn [bind].
  unfold fast_writeOnes in *. destruct st as (ones & pos). rewrite E2.
  apply bind_inv in E. destruct E as ((bn & ll) & Ec & E). rewrite Ec. cbn [bind].
  apply bind_inv in E. destruct E as ((bt & g) & Ef & E). rewrite Ef. cbn [bind].
  injection E as <-. eexists. split; [reflexivity|]. split; [|reflexivity].
  unfold refines. cbn. repeat split; auto; congruence.
Qed.

Lemma fast_rel_sound : forall lw u clear enc s t, fast_rel lw (FastHolds u clear enc s) t ->
  fast_sound t /\ fast_fits t /\ x_lw t = lw /\ ((enc = true -> clear = true) -> fast_decode t [] = Ok s).
Proof.
  intros lw u clear enc s t (Hu & Hs & Hh & jh & je & t0 & Hj & Hc & Hm & Rf).
  destruct (fast_made u lw jh je enc s Hu Hs Hj) as (t1 & M1 & M2 & M3 & M4 & M5).
  rewrite Hm in M1. injection M1 as <-.
  split; [|split; [|split]].
  - destruct Rf as (E1 & E2 & E3 & E4 & E5 & E6 & E7 & _). destruct M3 as (S1 & S2 & S3 & S4 & S5 & S6).
    unfold fast_sound. rewrite E1, E2, E3, E5, E6, E7. auto 10.
  - destruct Rf as (E1 & E2 & E3 & E4 & E5 & E6 & E7 & _). unfold fast_fits. rewrite E5, E6. exact M2.
  - destruct Rf as (E1 & _). congruence.
  - intros He. eapply fast_decode_refines; [exact Rf|]. apply (M5 (fun H => Hc (He H)) []).
Qed.

Lemma fast_meet_items : forall lw u runs xs sets ts,
  Forall2 (fun x s => exists clear enc, x = FastHolds u clear enc s /\ (runs = false -> enc = false)) xs sets ->
  Forall2 (fast_rel lw) xs ts ->
  exists l fresh, each_ok (make_fitem u lw) l = Ok fresh /\ map fast_ops ts = map fast_ops fresh /\
    map snd l = sets /\ length l = length xs /\ Forall (fitem_ok u) l /\
    (runs = false -> Forall (fun x => f_enc x = false) l) /\ (ts <> [] -> fast_universe u lw).
Proof.
  intros lw u runs xs sets ts F. revert ts. induction F as [|x s xs sets (clear & enc & -> & H1) _ IH]; intros ts G.
  - inversion G; subst. exists [], []. cbn. do 6 (split; auto). congruence.
  - inversion G as [|? t ? ts' Hr G']; subst. destruct (IH ts' G') as (l & fresh & E1 & E2 & E3 & E4 & E5 & E6 & E7).
    destruct Hr as (Hu & Hs & Hh & jh & je & t0 & Hj & Hc & Hm & Rf).
    exists ((jh, je, enc, s) :: l), (t0 :: fresh).
    split. { cbn [each_ok]. unfold make_fitem at 1. cbn [fst snd f_enc]. rewrite Hm. cbn [bind]. rewrite E1. reflexivity. }
    split. { cbn [map]. rewrite E2, (fast_ops_refines _ _ Rf). reflexivity. }
    split. { cbn [map snd]. congruence. }
    split. { cbn [length]. congruence. }
    split. { constructor; auto. }
    split; auto.
Qed.

Theorem fast_histories : forall c lw junk sched hc steps shown,
  codecs_ok c -> (1 <= hc)%N ->
  (forall n k, (fst (junk n k) < 2 ^ 16)%N /\ (snd (junk n k) < 256)%N) ->
  (forall n, valid_scheduler (fst (sched n)) /\ valid_scheduler (snd (sched n))) ->
  ideal_program (fast_rules lw hc) steps shown ->
  exists vs, run_program (fast_interface c lw junk sched hc) steps = Ok vs /\ Forall2 is_intersection shown vs.
Proof.
  intros c lw junk sched hc steps shown Hc Hhc Hj Hs. apply (program_ok _ _ _ _ _ (fast_rel lw)).
  - intros [s u jh je|h hu jh r je] x; cbn [may_new fast_rules i_new fast_interface fast_construct].
    + intros (clear & -> & H1 & Hu & Ho & H2).
      destruct (fast_made u lw jh je false s Hu Ho H2) as (t & E & _ & Sd & _ & _).
      assert (EB : fast_build lw jh je s u = Ok t).
      { unfold fast_make in E. destruct (fast_build lw jh je s u); cbn [bind] in E; congruence. }
      exists t. split; auto. cbn [fast_rel]. split; auto. split; auto. split; [apply Sd|].
      exists jh, je, t. do 3 (split; auto). apply refines_refl.
    + intros ->. eexists. split; [reflexivity|]. cbn. auto.
  - intros [|u clear [] s] y t; cbn [may_encode fast_rules]; try tauto.
    intros -> (Hu & Ho & Hh & jh & je & t0 & H1 & H2 & Hm & Rf).
    destruct (fast_made u lw jh je true s Hu Ho H1) as (t1 & E & _ & Sd & _ & _).
    assert (EB : fast_encodeRuns t0 = Ok t1).
    { unfold fast_make in Hm, E. destruct (fast_build lw jh je s u); cbn [bind] in *; congruence. }
    destruct (encodeRuns_refines t0 t t1 Rf EB) as (t' & E' & Rf' & Ehr). exists t'.
    cbn [i_encodeRuns fast_interface]. split; auto. cbn [fast_rel]. split; auto. split; auto.
    split; [rewrite Ehr; apply Sd|]. exists jh, je, t1. auto.
  - intros x s t (u & clear & enc & -> & He) Hr. cbn [i_decode fast_interface]. exists s.
    destruct (fast_rel_sound _ _ _ _ _ _ Hr) as (_ & _ & _ & D). split; auto. apply one_set.
    destruct Hr as (_ & Ho & _). apply Ho.
  - intros n k x t (u & clear & enc & s & ->) Hr. cbn [i_serialize fast_interface].
    eexists. split; [reflexivity|]. destruct (fast_rel_sound _ _ _ _ _ _ Hr) as (Sd & Ft & El & _).
    destruct (Hj n k) as (J1 & J2). intros old o Hl Ho rest. cbn [may_load fast_rules] in Hl. subst old.
    destruct Ho as (O1 & O2). cbn [i_load fast_interface].
    eexists. split; [apply fast_load_serialize; auto; congruence|].
    assert (Rf2 := fast_restored_refines (fst (junk n k)) (snd (junk n k)) o t O2).
    destruct Hr as (Hu & Ho & Hh & jh & je & t0 & H1 & H2 & Hm & Rf).
    cbn [fast_rel]. split; auto. split; auto. split.
    + intros h. cbn [fast_restored x_height_with_runs]. intros X. injection X as <-.
      destruct (x_height_with_runs t) as [h|] eqn:E; [apply Hh; auto|]. rewrite N2Nat.id. auto.
    + exists jh, je, t0. do 3 (split; auto). eapply refines_trans; eauto.
  - intros n xs runs parallel sets ts (Hl & u & F & P1 & P2) G.
    destruct (fast_meet_items lw u runs xs sets ts F G) as (l & fresh & E1 & E2 & E3 & E4 & E5 & E6 & E7).
    assert (Hu : fast_universe u lw).
    { apply E7. intros ->. inversion G; subst. cbn in Hl. lia. }
    cbn [i_intersect fast_interface]. rewrite E2. destruct (Hs n) as (Hs1 & Hs2). destruct parallel.
    + destruct (P1 eq_refl) as (Hhc2 & Hw). destruct runs.
      * destruct Hw as [Hw|(X & _)]; [|discriminate].
        destruct (fast_par_runs_exact u lw l hc (fst (sched n)) (snd (sched n))) as (Ts & r & M1 & M2 & M3); auto; try lia.
        { rewrite E3. auto. }
        rewrite E1 in M1. injection M1 as <-. rewrite E3 in M3. eauto.
      * destruct (fast_parallel u lw l Hu ltac:(lia) E5 (E6 eq_refl)) as (Ts & r & M1 & M2 & M3).
        rewrite E1 in M1. injection M1 as <-. rewrite E3 in M2. exists r. split; auto. apply M3; auto.
        destruct Hw as [|(_ & ?)]; auto.
    + destruct (fast_seq_result u lw l runs Hu ltac:(lia) E5 E6) as (Ts & r & M1 & M2 & M3).
      rewrite E1 in M1. injection M1 as <-. rewrite E3 in M2. exists r. split; auto.
Qed.
