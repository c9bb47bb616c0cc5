(** Files that end too early. *)

From Verif Require Import Base FlatTrie LevelTrie FastTrie ParallelFor Intersection Tries Serialize
  Tools Cut Facts Spec SpecTries SpecFiles SpecTools SpecCut SerializeFacts SerializeSound SerializeThms
  InterThms InterLaws InterRefute InterMain ParForThms ToolsFacts ToolsThms FastToolsThms.

(** * Agreement with the reading of whole files *)

Lemma whole_ok : forall A (R : list N -> result (A * list N)) w e a rest,
  R w = Ok (a, rest) -> whole R (w, e) = Ok (a, (rest, e)).
Proof. intros A R w e a rest H. unfold whole. cbn [fst snd]. rewrite H. reflexivity. Qed.

Lemma part_ok : forall k load w e v rest,
  load w = Ok (v, rest) -> part k load (w, e) = Ok (v, (rest, e)).
Proof. intros k load w e v rest H. unfold part. cbn [fst snd]. rewrite H. reflexivity. Qed.

Lemma flat_load_ok : forall k c old w e t rest, flat_load c old w = Ok (t, rest) ->
  flat_load_cut k c (w, e) = Ok (t, (rest, e)).
Proof.
  intros k c old w e t rest H. unfold flat_load in H. unfold flat_load_cut.
  apply bind_inv in H. destruct H as (([[[h hwr] e0] r] & w1) & E1 & H).
  rewrite (whole_ok _ _ _ _ _ _ E1). cbn [bind].
  apply bind_inv in H. destruct H as ((bt & w2) & E2 & H). unfold bv_cut. rewrite (part_ok _ _ _ _ _ _ E2). cbn [bind].
  apply bind_inv in H. destruct H as ((ll & w3) & E3 & H). rewrite (part_ok _ _ _ _ _ _ E3). cbn [bind].
  apply bind_inv in H. destruct H as ((rk & w4) & E4 & H). unfold rank_cut.
  rewrite (part_ok (fun b => k_rank k b bt) (fun b => rk_load (c_rank c) b bt) _ _ _ _ E4). cbn [bind].
  injection H as <- <-. reflexivity.
Qed.

Lemma load_bvs_ok : forall k c n w e vs rest, load_bvs c n w = Ok (vs, rest) ->
  load_bvs_cut k c n (w, e) = Ok (vs, (rest, e)).
Proof.
  induction n; intros w e vs rest H; cbn [load_bvs] in H; cbn [load_bvs_cut].
  - injection H as <- <-. reflexivity.
  - apply bind_inv in H. destruct H as ((v & w1) & E1 & H). unfold bv_cut. rewrite (part_ok _ _ _ _ _ _ E1). cbn [bind].
    apply bind_inv in H. destruct H as ((vs' & w2) & E2 & H). rewrite (IHn _ _ _ _ E2). cbn [bind].
    injection H as <- <-. reflexivity.
Qed.

Lemma load_ranks_ok : forall k c vs w e rs rest, load_ranks c vs w = Ok (rs, rest) ->
  load_ranks_cut k c vs (w, e) = Ok (rs, (rest, e)).
Proof.
  induction vs as [|v vs IH]; intros w e rs rest H; cbn [load_ranks] in H; cbn [load_ranks_cut].
  - injection H as <- <-. reflexivity.
  - apply bind_inv in H. destruct H as ((r & w1) & E1 & H). unfold rank_cut.
    rewrite (part_ok (fun b => k_rank k b v) (fun b => rk_load c b v) _ _ _ _ E1). cbn [bind].
    apply bind_inv in H. destruct H as ((rs' & w2) & E2 & H). rewrite (IH _ _ _ _ E2). cbn [bind].
    injection H as <- <-. reflexivity.
Qed.

Lemma load_il_ok : forall k c n w e vs rest, load_il c n w = Ok (vs, rest) ->
  load_il_cut k c n (w, e) = Ok (vs, (rest, e)).
Proof.
  induction n; intros w e vs rest H; cbn [load_il] in H; cbn [load_il_cut].
  - injection H as <- <-. reflexivity.
  - apply bind_inv in H. destruct H as ((v & w1) & E1 & H). unfold bv_cut at 1. rewrite (part_ok _ _ _ _ _ _ E1). cbn [bind].
    apply bind_inv in H. destruct H as (w2 & E2 & H). destruct (n =? 0).
    + injection E2 as <-. cbn [bind].
      apply bind_inv in H. destruct H as ((vs' & w3) & E3 & H). rewrite (IHn _ _ _ _ E3). cbn [bind].
      injection H as <- <-. reflexivity.
    + apply bind_inv in E2. destruct E2 as ((r & w2') & E2 & E2'). injection E2' as <-. unfold rank_cut at 1.
      rewrite (part_ok (fun b => k_rank k b v) (fun b => rk_load (c_rank c) b v) _ _ _ _ E2). cbn [bind].
      apply bind_inv in H. destruct H as ((vs' & w3) & E3 & H). rewrite (IHn _ _ _ _ E3). cbn [bind].
      injection H as <- <-. reflexivity.
Qed.

Lemma level_load_ok : forall k c old w e t rest, level_load c old w = Ok (t, rest) ->
  level_load_cut k c (l_il old) (w, e) = Ok (t, (rest, e)).
Proof.
  intros k c old w e t rest H. unfold level_load in H. unfold level_load_cut.
  apply bind_inv in H. destruct H as (([[[h hwr] e0] r] & w1) & E1 & H).
  rewrite (whole_ok _ _ _ _ _ _ E1). cbn [bind]. destruct (h =? 0); [discriminate|]. destruct (l_il old).
  - apply bind_inv in H. destruct H as ((bts & w2) & E2 & H). rewrite (load_il_ok _ _ _ _ _ _ _ E2). cbn [bind].
    injection H as <- <-. reflexivity.
  - apply bind_inv in H. destruct H as ((bts & w2) & E2 & H). rewrite (load_bvs_ok _ _ _ _ _ _ _ E2). cbn [bind].
    apply bind_inv in H. destruct H as ((rks & w3) & E3 & H). rewrite (load_ranks_ok _ _ _ _ _ _ _ E3). cbn [bind].
    injection H as <- <-. reflexivity.
Qed.

Lemma bin_load_ok : forall k c old w e t rest, bin_load c old w = Ok (t, rest) ->
  bin_load_cut k c old (w, e) = Ok (t, (rest, e)).
Proof.
  intros k c [old|old] w e t rest H; cbn [bin_load] in H; cbn [bin_load_cut];
    apply bind_inv in H; destruct H as ((t' & w1) & E1 & H).
  - rewrite (flat_load_ok k _ _ _ e _ _ E1). cbn [bind]. injection H as <- <-. reflexivity.
  - rewrite (level_load_ok k _ _ _ e _ _ E1). cbn [bind]. injection H as <- <-. reflexivity.
Qed.

Lemma load_sequences_ok : forall k n obj w ts rest, load_sequences n obj w = Ok (ts, rest) ->
  load_sequences_cut k n obj (w, false) = Ok ts.
Proof.
  induction n; intros obj w ts rest H; cbn [load_sequences] in H; cbn [load_sequences_cut snd].
  - injection H as <- <-. reflexivity.
  - apply bind_inv in H. destruct H as ((c & old) & -> & H). cbn [bind].
    apply bind_inv in H. destruct H as ((t & w1) & E1 & H). rewrite (bin_load_ok k _ _ _ _ _ _ E1). cbn [bind].
    apply bind_inv in H. destruct H as ((ts' & w2) & E2 & H). rewrite (IHn _ _ _ _ E2). cbn [bind].
    injection H as <- <-. reflexivity.
Qed.

Theorem load_collection_ok : forall fm k file r, load_collection fm file = Ok r ->
  load_collection_cut fm k file = Ok r.
Proof.
  intros fm k file r H. unfold load_collection in H. unfold load_collection_cut.
  apply bind_inv in H. destruct H as ((rank & w1) & E1 & H). rewrite (whole_ok _ _ _ _ _ _ E1). cbn [bind].
  apply bind_inv in H. destruct H as ((block & w2) & E2 & H).
  assert (E2' : (if N.eqb rank 1 then whole (read_le 4) (w1, false) else @Ok (N * stream) (512%N, (w1, false)))
                = Ok (block, (w2, false))).
  { destruct (N.eqb rank 1); [apply whole_ok; auto|]. injection E2 as <- <-. reflexivity. }
  match goal with |- bind ?m _ = _ => replace m with (@Ok (N * stream) (block, (w2, false))) by (symmetry; exact E2') end.
  cbn [bind].
  apply bind_inv in H. destruct H as ((runs & w3) & E3 & H). rewrite (whole_ok _ _ _ _ _ _ E3). cbn [bind].
  apply bind_inv in H. destruct H as ((lw & w4) & E4 & H). rewrite (whole_ok _ _ _ _ _ _ E4). cbn [bind].
  apply bind_inv in H. destruct H as ((n & w5) & E5 & H). rewrite (whole_ok _ _ _ _ _ _ E5). cbn [bind].
  apply bind_inv in H. destruct H as ((one & w6) & E6 & H). rewrite (whole_ok _ _ _ _ _ _ E6). cbn [bind].
  apply bind_inv in H. destruct H as ((u & w7) & E7 & H). rewrite (whole_ok _ _ _ _ _ _ E7). cbn [bind].
  apply bind_inv in H. destruct H as ((ts & w8) & E8 & H). rewrite (load_sequences_ok k _ _ _ _ _ E8). cbn [bind].
  exact H.
Qed.

Theorem query_log_ok : forall fm k sched hc parallel file queries rs,
  query_log fm sched hc parallel file queries = Ok rs ->
  query_log_cut fm k sched hc parallel file queries = Ok rs.
Proof.
  intros fm k sched hc parallel file queries rs H. unfold query_log in H. unfold query_log_cut.
  apply bind_inv in H. destruct H as ((runs & seqs) & E & H). rewrite (load_collection_ok _ k _ _ E). exact H.
Qed.

Lemma fast_load_ok : forall k c old w e t rest, fast_load c old w = Ok (t, rest) ->
  fast_load_cut k c old (w, e) = Ok (t, (rest, e)).
Proof.
  intros k c old w e t rest H. unfold fast_load in H. unfold fast_load_cut.
  apply bind_inv in H. destruct H as ((h & w1) & E1 & H). rewrite (whole_ok _ _ _ _ _ _ E1). cbn [bind].
  apply bind_inv in H. destruct H as ((hwr & w2) & E2 & H). rewrite (whole_ok _ _ _ _ _ _ E2). cbn [bind].
  apply bind_inv in H. destruct H as ((e0 & w3) & E3 & H). rewrite (whole_ok _ _ _ _ _ _ E3). cbn [bind].
  apply bind_inv in H. destruct H as ((r & w4) & E4 & H). rewrite (whole_ok _ _ _ _ _ _ E4). cbn [bind].
  apply bind_inv in H. destruct H as ((bt & w5) & E5 & H). unfold bv_cut. rewrite (part_ok _ _ _ _ _ _ E5). cbn [bind].
  apply bind_inv in H. destruct H as ((rk & w6) & E6 & H). unfold rank_cut.
  rewrite (part_ok (fun b => k_rank k b bt) (fun b => rk_load (c_rank c) b bt) _ _ _ _ E6). cbn [bind].
  apply bind_inv in H. destruct H as ((n & w7) & E7 & H). rewrite (whole_ok _ _ _ _ _ _ E7). cbn [bind fst].
  destruct (N.ltb (N.of_nat (length w7)) n); [discriminate|].
  apply bind_inv in H. destruct H as ((ws & w8) & E8 & H). rewrite (whole_ok _ _ _ _ _ _ E8). cbn [bind].
  injection H as <- <-. reflexivity.
Qed.

Lemma load_tries_loop_ok : forall k c blank n i ids np w acc r,
  load_tries_loop c blank n i ids np w acc = Ok r ->
  load_tries_loop_cut k c blank n i ids np (w, false) acc = Ok r.
Proof.
  induction n; intros i ids np w acc r H; cbn [load_tries_loop] in H; cbn [load_tries_loop_cut]; auto.
  apply bind_inv in H. destruct H as ((t & w1) & E1 & H). rewrite (fast_load_ok k _ _ _ _ _ _ E1). cbn [bind].
  apply bind_inv in H. destruct H as (id & E2 & H). rewrite E2. cbn [bind].
  destruct (N.eqb i id); auto. destruct (S np =? length ids); auto.
Qed.

Theorem fast_query_log_ok : forall fm k blank sched hc parallel file queries rs,
  fast_query_log fm blank sched hc parallel file queries = Ok rs ->
  fast_query_log_cut fm k blank sched hc parallel file queries = Ok rs.
Proof.
  intros fm k blank sched hc parallel file queries rs H. unfold fast_query_log in H. unfold fast_query_log_cut.
  apply bind_inv in H. destruct H as (([[[rank runs] levelwise] wsize] & w) & E1 & H).
  rewrite (whole_ok _ _ _ _ _ _ E1). cbn [bind].
  apply bind_inv in H. destruct H as (rn & E2 & H). rewrite E2. cbn [bind].
  apply bind_inv in H. destruct H as (tries & E3 & H).
  assert (E : load_tries_cut k (fast_codecs fm rank) (blank (word_log wsize)) queries (w, false) = Ok tries).
  { unfold load_tries in E3. unfold load_tries_cut.
    apply bind_inv in E3. destruct E3 as ((n & w1) & F1 & E3). rewrite (whole_ok _ _ _ _ _ _ F1). cbn [bind].
    apply bind_inv in E3. destruct E3 as ((one & w2) & F2 & E3). rewrite (whole_ok _ _ _ _ _ _ F2). cbn [bind].
    apply bind_inv in E3. destruct E3 as ((u & w3) & F3 & E3). rewrite (whole_ok _ _ _ _ _ _ F3). cbn [bind].
    apply load_tries_loop_ok. auto. }
  rewrite E. exact H.
Qed.

(** * Proper prefixes *)

(** [P] holds of the outcome of [F] on every proper prefix of [w]. *)
Definition on_cuts {B} (w : list N) (F : stream -> result B) (P : result B -> Prop) : Prop :=
  forall p q, w = p ++ q -> q <> [] -> P (F (p, false)).

Lemma prefix_cases : forall (w1 w2 p q : list N), w1 ++ w2 = p ++ q ->
  (exists q1, q1 <> [] /\ w1 = p ++ q1) \/ (exists p2, p = w1 ++ p2 /\ w2 = p2 ++ q).
Proof.
  induction w1 as [|x w1 IH]; intros w2 p q H; cbn [app] in *.
  - right. eauto.
  - destruct p as [|y p]; cbn [app] in *.
    + left. exists (x :: w1). split; [discriminate|auto].
    + injection H as <- H. destruct (IH _ _ _ H) as [(q1 & Hq & ->)|(p2 & -> & ->)]; [left; eauto|right; eauto].
Qed.

Lemma on_cuts_nil : forall B (F : stream -> result B) P, on_cuts [] F P.
Proof. intros B F P p q H Hq. destruct p, q; discriminate || easy. Qed.

Definition needs {A} (R : list N -> result (A * list N)) (n : nat) : Prop :=
  forall p, length p < n -> forall x, R p <> Ok x.

Lemma cut_whole : forall A B (R : list N -> result (A * list N)) (K : A * stream -> result B) w1 w2 a (P : result B -> Prop),
  (forall rest, R (w1 ++ rest) = Ok (a, rest)) -> needs R (length w1) -> P (UB Indeterminate) ->
  on_cuts w2 (fun s => K (a, s)) P ->
  on_cuts (w1 ++ w2) (fun s => bind (whole R s) K) P.
Proof.
  intros A B R K w1 w2 a P HR HN HU H p q E Hq.
  destruct (prefix_cases _ _ _ _ E) as [(q1 & Hq1 & ->)|(p2 & -> & ->)].
  - assert (X : whole R (p, false) = UB Indeterminate).
    { unfold whole. cbn [fst snd]. destruct (R p) as [(a' & r')| |] eqn:Ep; auto. exfalso. eapply (HN p); [|exact Ep].
      rewrite app_length. destruct q1; [easy|]. cbn [length]. lia. }
    rewrite X. exact HU.
  - rewrite (whole_ok _ _ _ _ _ _ (HR p2)). cbn [bind]. eapply H; eauto.
Qed.

Lemma cut_part : forall B k load (K : list bool * stream -> result B) w1 w2 v (P : result B -> Prop),
  (forall rest, load (w1 ++ rest) = Ok (v, rest)) ->
  (forall p q, w1 = p ++ q -> q <> [] -> forall x, load p <> Ok x) -> P (UB Indeterminate) ->
  (forall v', P (K (v', ([], true)))) ->
  on_cuts w2 (fun s => K (v, s)) P ->
  on_cuts (w1 ++ w2) (fun s => bind (part k load s) K) P.
Proof.
  intros B k load K w1 w2 v P HR HN HU HE H p q E Hq.
  destruct (prefix_cases _ _ _ _ E) as [(q1 & Hq1 & ->)|(p2 & -> & ->)].
  - assert (X : part k load (p, false) = UB Indeterminate \/ exists v', part k load (p, false) = Ok (v', ([], true))).
    { unfold part. cbn [fst snd]. destruct (load p) as [(a' & r')| |] eqn:Ep.
      - exfalso. eapply HN; eauto.
      - destruct (length p <? 8); auto. destruct (k p); eauto.
      - destruct (length p <? 8); auto. destruct (k p); eauto. }
    destruct X as [X|(v' & X)]; rewrite X; [exact HU|]. cbn [bind]. apply HE.
  - rewrite (part_ok _ _ _ _ _ _ (HR p2)). cbn [bind]. eapply H; eauto.
Qed.

Lemma read_bytes_needs : forall n, needs (read_bytes n) n.
Proof.
  induction n; intros p Hp x E; [lia|]. cbn [read_bytes] in E. destruct p as [|b p]; [discriminate|].
  apply bind_inv in E. destruct E as ((l & r) & E & _). eapply IHn; eauto. cbn [length] in Hp. lia.
Qed.

Lemma read_le_needs : forall n, needs (read_le n) n.
Proof.
  intros n p Hp x E. unfold read_le in E. apply bind_inv in E. destruct E as (y & E & _). eapply read_bytes_needs; eauto.
Qed.

Lemma read_obool_needs : needs read_obool 1.
Proof. intros p Hp x E. unfold read_obool in E. apply bind_inv in E. destruct E as (y & E & _). eapply read_le_needs; eauto. Qed.

Lemma read_bool_needs : needs read_bool 1.
Proof. intros p Hp x E. unfold read_bool in E. apply bind_inv in E. destruct E as (y & E & _). eapply read_obool_needs; eauto. Qed.

Lemma read_bytes_rest : forall n p l rest, read_bytes n p = Ok (l, rest) -> length p = n + length rest.
Proof.
  induction n; intros p l rest H; cbn [read_bytes] in H.
  - injection H as <- <-. auto.
  - destruct p as [|b p]; [discriminate|]. apply bind_inv in H. destruct H as ((l' & r) & E & H).
    injection H as <- <-. apply IHn in E. cbn [length]. lia.
Qed.

Lemma read_le_rest : forall n p x rest, read_le n p = Ok (x, rest) -> length p = n + length rest.
Proof.
  intros n p x rest H. unfold read_le in H. apply bind_inv in H. destruct H as ((l & r) & E & H).
  injection H as _ <-. eapply read_bytes_rest; eauto.
Qed.

Lemma read_bool_rest : forall p x rest, read_bool p = Ok (x, rest) -> length p = 1 + length rest.
Proof.
  intros p x rest H. unfold read_bool in H. apply bind_inv in H. destruct H as ((o & r) & E & H).
  unfold read_obool in E. apply bind_inv in E. destruct E as ((y & r') & E & E'). injection E' as _ <-.
  apply bind_inv in H. destruct H as (b & _ & H). injection H as _ <-. eapply read_le_rest; eauto.
Qed.

Lemma scalars_need : needs load_scalars 6.
Proof.
  intros p Hp x E. unfold load_scalars in E.
  apply bind_inv in E. destruct E as ((h & w1) & E1 & E). apply read_le_rest in E1.
  apply bind_inv in E. destruct E as ((hw & w2) & E2 & E). apply read_le_rest in E2.
  apply bind_inv in E. destruct E as ((b & w3) & E3 & E). apply read_bool_rest in E3.
  apply bind_inv in E. destruct E as ((r & w4) & E4 & E). apply read_bool_rest in E4. lia.
Qed.

(** Nothing more can be read: undefined, or only structures that store nothing. *)
Definition starved {A} (r : result (A * stream)) : Prop :=
  r = UB Indeterminate \/ exists a, r = Ok (a, ([], true)).

Lemma bv_dry : forall k c, bv_needs_all c -> bv_cut k c ([], true) = UB Indeterminate.
Proof.
  intros k c (_ & H). unfold bv_cut, part. cbn [fst snd length Nat.ltb Nat.leb].
  destruct (bv_load c []) eqn:E; auto. exfalso. eapply H; eauto.
Qed.

Lemma rank_dry : forall k c v, rank_needs_all c -> starved (rank_cut k c v ([], true)).
Proof.
  intros k c v (_ & H). unfold rank_cut, part, starved. cbn [fst snd length Nat.ltb Nat.leb].
  destruct (rk_load c [] v) as [(r & rest)| |] eqn:E; auto. apply H in E. subst. eauto.
Qed.

Lemma starved_bind : forall A B (m : result (A * stream)) (f : A * stream -> result (B * stream)),
  starved m -> (forall a, starved (f (a, ([], true)))) -> starved (bind m f).
Proof. intros A B m f [-> | (a & ->)] H; [left; reflexivity|]. cbn [bind]. apply H. Qed.

Lemma flat_cuts : forall k c t, codecs_ok c -> codecs_need_all c -> flat_sound t ->
  bv_fits (f_bTrie t) -> bv_fits (f_lastLevel t) ->
  on_cuts (fst (flat_serialize c t)) (flat_load_cut k c) starved.
Proof.
  intros k c t (C1 & C2 & C3) (N1 & N2 & N3) (S1 & S2 & S3) F1 F2. unfold flat_load_cut, flat_serialize. cbn [fst].
  rewrite S3. assert (HU : forall A, starved (A := A) (UB Indeterminate)) by (left; reflexivity).
  eapply cut_whole; [intros; apply scalars_app; auto|rewrite scalars_length; apply scalars_need|apply HU|].
  eapply cut_part; [intros; apply C1; auto|intros ? ? E0 Q0; exact (proj1 N1 _ _ _ F1 E0 Q0)|apply HU| |].
  { intros v'. rewrite (bv_dry k _ N2). left. reflexivity. }
  eapply cut_part; [intros; apply C2; auto|intros ? ? E0 Q0; exact (proj1 N2 _ _ _ F2 E0 Q0)|apply HU| |].
  { intros v'. apply starved_bind; [apply rank_dry; auto|]. intros a. right. eauto. }
  rewrite <- (app_nil_r (rk_ser (c_rank c) (f_bTrie t))).
  eapply (cut_part _ (fun b => k_rank k b (f_bTrie t)) (fun b => rk_load (c_rank c) b (f_bTrie t)));
    [intros; apply C3; auto|intros ? ? E0 Q0; exact (proj1 N3 _ _ _ F1 E0 Q0)|apply HU| |apply on_cuts_nil].
  intros v'. right. eauto.
Qed.

Lemma load_bvs_cuts : forall B k c vs w2 (K : list (list bool) * stream -> result B) (P : result B -> Prop),
  bv_codec_ok c -> bv_needs_all c -> Forall bv_fits vs -> P (UB Indeterminate) ->
  (forall vs', P (K (vs', ([], true)))) ->
  on_cuts w2 (fun s => K (vs, s)) P ->
  on_cuts (concat (map (bv_ser c) vs) ++ w2) (fun s => bind (load_bvs_cut k c (length vs) s) K) P.
Proof.
  intros B k c vs w2 K P C N F HU. revert K. induction F as [|v vs Hv _ IH]; intros K HE H; cbn [map concat length load_bvs_cut].
  - exact H.
  - rewrite <- app_assoc. intros p q E Hq.
    assert (X : on_cuts (bv_ser c v ++ concat (map (bv_ser c) vs) ++ w2)
      (fun s => bind (bv_cut k c s) (fun vs1 => bind (load_bvs_cut k c (length vs) (snd vs1))
                  (fun vss => K (fst vs1 :: fst vss, snd vss)))) P).
    { eapply cut_part; [intros; apply C; auto|intros ? ? E0 Q0; exact (proj1 N _ _ _ Hv E0 Q0)|exact HU| |].
      - intros v'. cbn [fst snd]. destruct vs as [|v1 vs]; cbn [length load_bvs_cut].
        + cbn [bind fst snd]. apply HE.
        + rewrite (bv_dry k _ N). cbn [bind]. exact HU.
      - cbn [fst snd]. apply IH; auto. }
    specialize (X p q E Hq). cbv beta in X.
    destruct (bv_cut k c (p, false)) as [(v1 & s1)| |]; cbn [bind fst snd] in *; auto.
    destruct (load_bvs_cut k c (length vs) s1) as [(vs1 & s2)| |]; cbn [bind fst snd] in *; auto.
Qed.

Lemma load_ranks_dry : forall k c vs, rank_needs_all c -> starved (load_ranks_cut k c vs ([], true)).
Proof.
  intros k c vs N. induction vs as [|v vs IH]; cbn [load_ranks_cut].
  - right. eauto.
  - apply starved_bind; [apply rank_dry; auto|]. intros r. apply starved_bind; auto. intros rs. right. eauto.
Qed.

Lemma load_ranks_cuts : forall k c vs, rank_codec_ok c -> rank_needs_all c -> Forall bv_fits vs ->
  on_cuts (concat (map (rk_ser c) vs)) (load_ranks_cut k c vs) starved.
Proof.
  intros k c vs C N F. assert (HU : forall A, starved (A := A) (UB Indeterminate)) by (left; reflexivity).
  induction F as [|v vs Hv _ IH]; cbn [map concat load_ranks_cut].
  - apply on_cuts_nil.
  - eapply (cut_part _ (fun b => k_rank k b v) (fun b => rk_load c b v));
      [intros; apply C; auto|intros ? ? E0 Q0; exact (proj1 N _ _ _ Hv E0 Q0)|apply HU| |].
    + intros v'. apply starved_bind; [apply load_ranks_dry; auto|]. intros a. right. eauto.
    + intros p q E Hq. apply starved_bind; [eapply IH; eauto|]. intros a. right. eauto.
Qed.

Lemma level_cuts : forall k c t bytes n, codecs_ok c -> codecs_need_all c -> level_sound t ->
  l_il t = false -> Forall bv_fits (l_bTrie t) -> level_serialize c t = Ok (bytes, n) ->
  on_cuts bytes (level_load_cut k c false) starved.
Proof.
  intros k c t bytes n (C1 & C2 & C3) (N1 & N2 & N3) (S0 & S1 & S2 & S3) E Fb H.
  unfold level_serialize in H. rewrite E in H.
  apply (f_equal (fun r => match r with Ok (b, _) => b | _ => [] end)) in H. cbv beta iota in H. subst bytes.
  unfold level_load_cut.
  assert (HU : forall A, starved (A := A) (UB Indeterminate)) by (left; reflexivity).
  eapply cut_whole; [intros; apply scalars_app; auto|rewrite scalars_length; apply scalars_need|apply HU|].
  cbv beta iota. destruct (length (l_bTrie t) =? 0) eqn:H0.
  { apply Nat.eqb_eq in H0. destruct (l_bTrie t); [easy|discriminate]. }
  apply load_bvs_cuts; auto.
  - intros vs'. apply starved_bind; [apply load_ranks_dry; auto|]. intros a. right. eauto.
  - rewrite S3, firstn_firstn, Nat.min_id. intros p q Ep Hq.
    apply starved_bind; [eapply load_ranks_cuts; eauto; apply Forall_firstn; auto|]. intros a. right. eauto.
Qed.

Lemma bin_cuts : forall k c u v enc s t old bytes n, codecs_ok c -> codecs_need_all c ->
  bin_make u v enc s = Ok t -> fits t -> same_class t old -> bin_serialize c t = Ok (bytes, n) ->
  on_cuts bytes (bin_load_cut k c old) starved.
Proof.
  intros k c u v enc s t old bytes n C N M F K H. destruct (bin_make_sound _ _ _ _ _ M) as (S & Hc).
  destruct t as [t|t], old as [old|old]; cbn in K, F, S, H; try easy; unfold bin_load_cut.
  - destruct F as (F1 & F2). assert (X := flat_cuts k c t C N S F1 F2). 
    apply (f_equal (fun r => match r with Ok (b, _) => b | _ => [] end)) in H. cbv beta iota in H.
    replace bytes with (fst (flat_serialize c t)) by (rewrite <- H; destruct (flat_serialize c t); reflexivity).
    intros p q E Hq. apply starved_bind; [eapply X; eauto|]. intros a. right. eauto.
  - destruct (l_il t) eqn:Ei.
    { unfold level_serialize in H. rewrite Ei in H. discriminate. }
    rewrite <- K. intros p q E Hq. apply starved_bind; [eapply (level_cuts k c t); eauto|]. intros a. right. eauto.
Qed.

(** * Collections *)

Lemma load_sequences_cuts : forall k c old ts bs,
  Forall2 (fun t b => (forall rest, bin_load c old (b ++ rest) = Ok (t, rest)) /\
                      on_cuts b (bin_load_cut k c old) starved) ts bs ->
  on_cuts (concat bs) (load_sequences_cut k (length ts) (Ok (c, old)))
    (fun r => r = UB Indeterminate \/ exists i x, i < length ts /\ r = Ok (firstn i ts ++ [x])).
Proof.
  intros k c old ts bs H. induction H as [|t b ts bs (H1 & H2) _ IH]; cbn [concat length].
  - apply on_cuts_nil.
  - intros p q E Hq. cbn [load_sequences_cut snd bind].
    destruct (prefix_cases _ _ _ _ E) as [(q1 & Hq1 & ->)|(p2 & -> & E2)].
    + destruct (H2 p q1 eq_refl Hq1) as [-> | (x & ->)]; [left; reflexivity|]. right. exists 0, x. split; [lia|].
      cbn [bind]. destruct ts as [|t1 ts]; reflexivity.
    + rewrite (bin_load_ok k _ _ _ _ _ _ (H1 p2)). cbn [bind].
      destruct (IH p2 q E2 Hq) as [-> | (i & x & Hi & ->)]; [left; reflexivity|].
      right. exists (S i), x. split; [lia|]. reflexivity.
Qed.

Lemma built_codecs_need : forall fm rank block, formats_need_all fm -> codecs_need_all (built_codecs fm rank block).
Proof.
  intros fm rank block (H1 & H2 & H3). unfold built_codecs. destruct (N.eqb rank 0); auto. destruct (N.eqb rank 1); auto.
Qed.

Lemma cut_prefix : forall p (file : list N), p < length file -> exists q, file = cut_at p file ++ q /\ q <> [].
Proof.
  intros p file H. exists (skipn p file). unfold cut_at. rewrite firstn_skipn. split; auto.
  intros E. assert (X := skipn_length p file). rewrite E in X. cbn in X. lia.
Qed.

Theorem collection_cut : forall fm k a b rank block runs levelwise one u lists,
  formats_ok fm -> formats_need_all fm -> collection_ok one u lists -> (2 <= u)%N ->
  loadable_options rank block levelwise ->
  Forall (stored_ok u (built_variant rank levelwise) runs) (kept_lists a b lists) ->
  exists file ts,
    build_tries fm a b rank block runs levelwise (collection_file one u lists) = Ok file /\
    load_collection fm file = Ok (runs, ts) /\
    each_ok (bin_make u (built_variant rank levelwise) runs) (kept_lists a b lists) = Ok ts /\
    forall p, p < length file ->
      load_collection_cut fm k (cut_at p file) = UB Indeterminate \/
      exists i x, i < length (kept_lists a b lists) /\
        load_collection_cut fm k (cut_at p file) = Ok (runs, firstn i ts ++ [x]).
Proof.
  intros fm k a b rank block runs levelwise one u lists F FN C Hu2 O K.
  assert (Hu : (2 <= u <= 2 ^ 48)%N).
  { split; auto. destruct C as (_ & C & _). apply N.lt_le_incl. eapply N.lt_trans; [exact C|reflexivity]. }
  destruct (collection_round_trip fm a b rank block runs levelwise one u lists F C Hu2 O K)
    as (file & ts & E1 & E2 & E3 & _).
  exists file, ts. split; [auto|split; [auto|split; [auto|]]]. intros p Hp.
  destruct (loaded_object_spec fm rank block levelwise F O) as (old & Eo & Hold & Hc & Hv).
  assert (Hn := built_codecs_need fm rank block FN).
  set (v := built_variant rank levelwise) in *. set (c := built_codecs fm rank block) in *.
  assert (L := each_ok_length _ _ _ _ _ E3).
  assert (B : exists bs, Forall2 (fun t bt => bin_serialize c t = Ok (bt, N.of_nat (length bt)) /\
                (forall rest, bin_load c old (bt ++ rest) = Ok (t, rest)) /\
                on_cuts bt (bin_load_cut k c old) starved) ts bs).
  { clear - E3 K Hu Hc Hn Hv Hold. revert ts E3. induction K as [|l kept Hl _ IH]; intros ts E; cbn [each_ok] in E.
    - injection E as <-. exists []. constructor.
    - apply bind_inv in E; destruct E as (t0 & H & E); apply bind_inv in E; destruct E as (ts0 & Hts & E). injection E as <-.
      destruct (IH _ Hts) as (bs & IH').
      destruct (bin_made u v runs l Hu Hl) as (t & H1 & H2 & H3 & H4 & H5). rewrite H in H1. injection H1 as <-.
      assert (SC : same_class t0 old) by (destruct v, t0, old; cbn in *; try easy; congruence).
      destruct (serialization_round_trip c u v runs l t0 old [] Hc Hv H H2 SC) as (bt & B1 & _).
      exists (bt :: bs). constructor; auto. split; auto. split.
      + intros rest. destruct (serialization_round_trip c u v runs l t0 old rest Hc Hv H H2 SC) as (bt' & B1' & B2').
        rewrite B1 in B1'. injection B1' as <-. auto.
      + eapply bin_cuts; eauto. }
  destruct B as (bs & B).
  assert (S : each_ok (fun p : nat * list N =>
                (fun u (_ : nat) il => let* t := bin_make u v runs il in
                   let* (bytes, _) := bin_serialize c t in Ok bytes) u (fst p) (snd p)) (indexed 0 (kept_lists a b lists)) = Ok bs).
  { clear - E3 B. revert ts bs E3 B. generalize 0 as n.
    induction (kept_lists a b lists) as [|l kept IH]; intros n ts bs E F; cbn [each_ok indexed] in *.
    - injection E as <-. inversion F. auto.
    - apply bind_inv in E; destruct E as (t0 & H & E); apply bind_inv in E; destruct E as (ts0 & Hts & E). injection E as <-. inversion F as [|t1 b1 ts' bs' Eb F']; subst. cbn [fst snd].
      rewrite H. cbn [bind]. destruct Eb as (Eb & _). rewrite Eb. cbn [bind]. erewrite IH; eauto. reflexivity. }
  unfold build_tries in E1. rewrite build_file_spec in E1 by eauto. fold v c in E1.
  cbv beta in S. rewrite S in E1. cbn [bind] in E1.
  apply (f_equal (fun r => match r with Ok x => x | _ => [] end)) in E1. cbv beta iota in E1.
  destruct (cut_prefix p file Hp) as (q & Eq & Hq). rewrite <- E1 in Eq at 1.
  assert (Kc := kept_count a b one u lists C). destruct C as (C1 & C2 & _). destruct O as (O1 & Hb & _).
  set (P := fun r : result (bool * list bin_trie) => r = UB Indeterminate \/
      exists i x, i < length (kept_lists a b lists) /\ r = Ok (runs, firstn i ts ++ [x])).
  revert Eq Hq. generalize (cut_at p file). intros p' Eq Hq. change (P (load_collection_cut fm k p')).
  assert (HU : P (UB Indeterminate)) by (left; reflexivity).
  rewrite <- !app_assoc in Eq. revert p' q Eq Hq. 
  change (on_cuts (le_bytes 4 rank ++ (if N.eqb rank 1 then le_bytes 4 block else []) ++ [bool_byte runs] ++ [bool_byte levelwise] ++
           le_bytes 4 (N.of_nat (length (kept_lists a b lists))) ++ le_bytes 4 one ++ le_bytes 4 u ++ concat bs)
           (fun s => 
  let* (rank_type, s) := whole (read_le 4) s in
  let* (block, s) := (if N.eqb rank_type 1 then whole (read_le 4) s else Ok (512%N, s)) in
  let* (runs, s) := whole read_bool s in
  let* (levelwise, s) := whole read_bool s in
  let* (n, s) := whole (read_le 4) s in
  let* (one, s) := whole (read_le 4) s in
  let* (u, s) := whole (read_le 4) s in
  let* ts := load_sequences_cut k (N.to_nat n) (loaded_object fm rank_type block levelwise) s in
  Ok (runs, ts)) P).
  eapply cut_whole; [intros; apply read_le_app; auto|rewrite le_bytes_length; apply read_le_needs|auto|]. cbv beta iota.
  assert (X : on_cuts ([bool_byte runs] ++ [bool_byte levelwise] ++
           le_bytes 4 (N.of_nat (length (kept_lists a b lists))) ++ le_bytes 4 one ++ le_bytes 4 u ++ concat bs)
      (fun s => let* (runs, s) := whole read_bool s in
                let* (levelwise, s) := whole read_bool s in
                let* (n, s) := whole (read_le 4) s in
                let* (one, s) := whole (read_le 4) s in
                let* (u, s) := whole (read_le 4) s in
                let* ts := load_sequences_cut k (N.to_nat n) (loaded_object fm rank (if N.eqb rank 1 then block else 512%N) levelwise) s in
                Ok (runs, ts)) P).
  { eapply cut_whole; [intros; apply read_bool_app|apply read_bool_needs|auto|]. cbv beta iota.
    eapply cut_whole; [intros; apply read_bool_app|apply read_bool_needs|auto|]. cbv beta iota.
    eapply cut_whole; [intros; apply read_le_app; auto|rewrite le_bytes_length; apply read_le_needs|auto|]. cbv beta iota.
    eapply cut_whole; [intros; apply read_le_app; auto|rewrite le_bytes_length; apply read_le_needs|auto|]. cbv beta iota.
    eapply cut_whole; [intros; apply read_le_app; auto|rewrite le_bytes_length; apply read_le_needs|auto|]. cbv beta iota.
    rewrite Eo, Nat2N.id, <- L. intros p' q' Eq' Hq'.
    destruct (load_sequences_cuts k c old ts bs) with (p := p') (q := q') as [Y | (i & x & Hi & Y)]; auto.
    - eapply Forall2_impl; [|exact B]. cbn. tauto.
    - rewrite Y. left. reflexivity.
    - rewrite Y. right. exists i, x. split; [lia|reflexivity]. }
  destruct (N.eqb rank 1) eqn:Er.
  - eapply cut_whole; [intros; apply read_le_app; auto|rewrite le_bytes_length; apply read_le_needs|auto|]. exact X.
  - exact X.
Qed.

(** * Queries on what was loaded *)

Lemma repeat_query_inv : forall (f : nat -> result (list N)) r, repeat_query f = Ok r -> exists rep, f rep = Ok r.
Proof.
  intros f r H. unfold repeat_query in H.
  assert (X : forall n i s r, for_loop n i (fun rep _ => f rep) s = Ok r -> n <> 0 -> exists rep, f rep = Ok r).
  { clear. induction n; intros i s r H Hn; [easy|]. cbn [for_loop] in H. apply bind_inv in H. destruct H as (s' & E & H).
    destruct n as [|n].
    - cbn [for_loop] in H. injection H as <-. eauto.
    - eapply IHn; eauto. }
  eapply X; eauto.
Qed.

Lemma run_queries_inv : forall T (pick : N -> result T) answer qs nq rs,
  run_queries pick answer nq qs = Ok rs ->
  Forall2 (fun q a => exists ts, each_ok pick q = Ok ts /\
             match a with
             | None => 16 < length q
             | Some r => length q <= 16 /\ exists nq rep, answer nq rep ts = Ok r
             end) qs rs.
Proof.
  intros T pick answer. induction qs as [|q qs IH]; intros nq rs H; cbn [run_queries] in H.
  - injection H as <-. constructor.
  - apply bind_inv in H. destruct H as (ts & E & H). apply bind_inv in H. destruct H as (a & Ea & H).
    apply bind_inv in H. destruct H as (rs' & Er & H). injection H as <-. assert (L := each_ok_length _ _ _ _ _ E).
    constructor; [|eauto]. exists ts. split; auto. destruct (length ts <=? 16) eqn:K.
    + apply Nat.leb_le in K. apply bind_inv in Ea. destruct Ea as (r & Ea & X). injection X as <-. split; [lia|].
      apply repeat_query_inv in Ea. destruct Ea as (rep & Ea). eauto.
    + apply Nat.leb_gt in K. injection Ea as <-. lia.
Qed.

Lemma vgetN_bound : forall A (l : list A) i x, vgetN l i = Ok x -> (i < N.of_nat (length l))%N.
Proof. intros A l i x H. unfold vgetN in H. destruct (N.ltb_spec i (N.of_nat (length l))); [auto|discriminate]. Qed.

Lemma pick_bound : forall A (l : list A) q ts, each_ok (fun i => vgetN l i) q = Ok ts ->
  Forall (fun i => (i < N.of_nat (length l))%N) q.
Proof.
  intros A l. induction q as [|i q IH]; intros ts H; [constructor|]. cbn [each_ok] in H.
  apply bind_inv in H. destruct H as (x & E & H). apply bind_inv in H. destruct H as (xs & E' & _).
  constructor; [eapply vgetN_bound; eauto|eauto].
Qed.

Lemma vgetN_nth : forall A (l : list A) i x, vgetN l i = Ok x <-> nth_error l (N.to_nat i) = Some x.
Proof.
  intros A l i x. unfold vgetN. split; intros H.
  - destruct (N.ltb_spec i (N.of_nat (length l))); [|discriminate]. unfold vget in H.
    destruct (nth_error l (N.to_nat i)); congruence.
  - assert (N.to_nat i < length l) by (apply nth_error_Some; congruence).
    destruct (N.ltb_spec i (N.of_nat (length l))); [|lia]. apply vget_nth. auto.
Qed.

Lemma pick_firstn : forall A (l : list A) n x q, n <= length l -> Forall (fun i => (i < N.of_nat n)%N) q ->
  each_ok (fun i => vgetN (firstn n l ++ [x]) i) q = each_ok (fun i => vgetN l i) q.
Proof.
  intros A l n x q Hn H. induction H as [|i q Hi _ IH]; auto. cbn [each_ok].
  assert (E : exists y, nth_error l (N.to_nat i) = Some y).
  { destruct (nth_error l (N.to_nat i)) eqn:E; eauto. apply nth_error_None in E. lia. }
  destruct E as (y & E).
  assert (E' : nth_error (firstn n l ++ [x]) (N.to_nat i) = Some y).
  { rewrite nth_error_app1 by (rewrite firstn_length; lia). rewrite <- E. rewrite <- (firstn_skipn n l) at 2.
    rewrite nth_error_app1; auto. rewrite firstn_length. lia. }
  apply vgetN_nth in E, E'. rewrite E, E', IH. reflexivity.
Qed.

Theorem queries_cut : forall fm k a b rank block runs levelwise one u lists,
  formats_ok fm -> formats_need_all fm -> collection_ok one u lists -> (2 <= u)%N ->
  loadable_options rank block levelwise ->
  Forall (stored_ok u (built_variant rank levelwise) runs) (kept_lists a b lists) ->
  exists file,
    build_tries fm a b rank block runs levelwise (collection_file one u lists) = Ok file /\
    forall p, p < length file ->
      load_collection_cut fm k (cut_at p file) = UB Indeterminate \/
      exists i, (i < N.of_nat (length (kept_lists a b lists)))%N /\
        forall hc parallel sched queries rs, exact_mode u runs parallel hc sched (kept_lists a b lists) ->
          Forall (fun q => q <> []) queries ->
          query_log_cut fm k sched hc parallel (cut_at p file) queries = Ok rs ->
          Forall2 (fun q r => Forall (fun x => (x <= i)%N) q /\
                     (Forall (fun x => (x < i)%N) q -> answers (kept_lists a b lists) q r)) queries rs.
Proof.
  intros fm k a b rank block runs levelwise one u lists F FN C Hu2 O K.
  assert (Hu : (2 <= u <= 2 ^ 48)%N).
  { split; auto. destruct C as (_ & C & _). apply N.lt_le_incl. eapply N.lt_trans; [exact C|reflexivity]. }
  destruct (collection_cut fm k a b rank block runs levelwise one u lists F FN C Hu2 O K)
    as (file & ts & E1 & E2 & E3 & H).
  exists file. split; auto. intros p Hp. assert (L := each_ok_length _ _ _ _ _ E3).
  destruct (H p Hp) as [Y | (i & x & Hi & Y)]; auto. right. exists (N.of_nat i). split; [lia|].
  intros hc parallel sched queries rs M Q R. unfold query_log_cut in R. rewrite Y in R. cbn [bind] in R.
  apply run_queries_inv in R. revert Q. 
  induction R as [|q r queries rs (qs & Eq & Er) _ IH]; intros Q; constructor.
  2:{ apply IH. inversion Q; auto. }
  assert (Hb := pick_bound _ _ _ _ Eq). rewrite app_length, firstn_length in Hb. cbn [length] in Hb. split.
  { eapply Forall_impl; [|exact Hb]. cbn. intros. lia. }
  intros Hlt. rewrite pick_firstn in Eq by (auto; lia).
  destruct (pick_spec _ _ _ _ q E3) as (qs' & P1 & P2).
  { eapply Forall_impl; [|exact Hlt]. cbn. intros. lia. }
  assert (qs' = qs) by congruence. subst qs'. unfold answers. destruct r as [r|]; auto.
  destruct Er as (Hl & nq & rep & Er). split; auto.
  destruct (bin_answer u (built_variant rank levelwise) runs parallel hc sched (kept_lists a b lists) q qs) with (nq := nq) (rep := rep)
    as (r' & A1 & A2); auto.
  { split; [inversion Q; auto|]. eapply Forall_impl; [|exact Hlt]. cbn. intros. lia. }
  rewrite Er in A1. injection A1 as ->. auto.
Qed.

(** * Fast tries *)

Lemma load_words_needs : forall k n, needs (load_words k n) (n * k).
Proof.
  intros k. induction n; intros p Hp x E; [cbn in Hp; lia|]. cbn [load_words] in E.
  apply bind_inv in E. destruct E as ((y & w1) & E1 & E). apply read_le_rest in E1.
  apply bind_inv in E. destruct E as (ys & E2 & _). eapply IHn; [|exact E2]. cbn [Nat.mul] in Hp. lia.
Qed.

Lemma fast_cuts : forall k c jh je t old, codecs_ok c -> codecs_need_all c -> fast_sound t -> fast_fits t ->
  x_lw old = x_lw t -> (jh < 2 ^ 16)%N -> (je < 256)%N ->
  on_cuts (fst (fast_serialize c jh je t)) (fast_load_cut k c old) (fun r => r = UB Indeterminate).
Proof.
  intros k c jh je t old (C1 & C2 & C3) (N1 & N2 & N3) (S0 & S1 & S2 & S3 & S4 & S5) (F1 & F2) El Hjh Hje.
  unfold fast_load_cut, fast_serialize. cbn [fst]. rewrite S4.
  eapply cut_whole; [intros; apply read_le_app; auto|rewrite le_bytes_length; apply read_le_needs|auto|]. cbv beta iota.
  eapply cut_whole; [|rewrite le_bytes_length; apply read_le_needs|auto|]; cbv beta iota.
  { intros. apply read_le_app. destruct (x_height_with_runs t) eqn:E; auto. }
  eapply cut_whole; [|rewrite le_bytes_length; apply read_obool_needs|auto|]; cbv beta iota.
  { intros. unfold read_obool. rewrite read_le_app; [reflexivity|]. destruct (x_empty_trie t) as [[]|]; auto; reflexivity. }
  eapply cut_whole; [intros; apply read_bool_app|apply read_bool_needs|auto|]. cbv beta iota.
  eapply cut_part; [intros; apply C1; auto|intros ? ? E0 Q0; exact (proj1 N1 _ _ _ F1 E0 Q0)|auto| |]; cbv beta iota.
  { intros v'. destruct (rank_dry k (c_rank c) v' N3) as [-> | (a & ->)]; reflexivity. }
  eapply (cut_part _ (fun b => k_rank k b (x_bTrie t)) (fun b => rk_load (c_rank c) b (x_bTrie t)));
    [intros; apply C3; auto|intros ? ? E0 Q0; exact (proj1 N3 _ _ _ F1 E0 Q0)|auto| |]; cbv beta iota.
  { intros v'. reflexivity. }
  eapply cut_whole; [intros; apply read_le_app; auto|rewrite le_bytes_length; apply read_le_needs|auto|]. cbv beta iota.
  intros p q E Hq. cbn [fst]. destruct (N.ltb (N.of_nat (length p)) (N.of_nat (length (x_lastLevel t)))); auto.
  rewrite Nat2N.id. unfold whole at 1. cbn [fst snd].
  destruct (load_words (wbytes (x_lw old)) (length (x_lastLevel t)) p) eqn:Ew; auto. exfalso.
  eapply load_words_needs; [|exact Ew]. assert (X := concat_bytes_length (wbytes (x_lw t)) (x_lastLevel t)).
  rewrite E, app_length in X. rewrite El. destruct q; [easy|]. cbn [length] in X. lia.
Qed.

Lemma load_tries_loop_cuts : forall k c blank ids ts bs,
  Forall2 (fun t b => (forall rest, fast_load c blank (b ++ rest) = Ok (t, rest)) /\
                      on_cuts b (fast_load_cut k c blank) (fun r => r = UB Indeterminate)) ts bs ->
  forall i np acc, np < length ids ->
  exists w tail r, concat bs = w ++ tail /\
    (forall rest, load_tries_loop_cut k c blank (length ts) i ids np (w ++ rest, false) acc = Ok r) /\
    on_cuts w (fun s => load_tries_loop_cut k c blank (length ts) i ids np s acc) (fun r => r = UB Indeterminate).
Proof.
  intros k c blank ids ts bs H. induction H as [|t b ts bs (H1 & H2) _ IH]; intros i np acc Hnp.
  - exists [], [], acc. split; auto. split; [reflexivity|]. apply on_cuts_nil.
  - assert (V : exists id, vget ids np = Ok id).
    { destruct (nth_error ids np) eqn:E; [|apply nth_error_None in E; lia]. eexists. apply vget_nth. eauto. }
    destruct V as (id & V). cbn [length concat].
    assert (Step : forall w' r (K : fast * stream -> result (list (N * fast))),
      (forall rest, K (t, (w' ++ rest, false)) = Ok r) ->
      on_cuts w' (fun s => K (t, s)) (fun r => r = UB Indeterminate) ->
      (forall rest, bind (fast_load_cut k c blank ((b ++ w') ++ rest, false)) K = Ok r) /\
      on_cuts (b ++ w') (fun s => bind (fast_load_cut k c blank s) K) (fun r => r = UB Indeterminate)).
    { intros w' r K K1 K2. split.
      - intros rest. rewrite <- app_assoc. rewrite (fast_load_ok k _ _ _ _ _ _ (H1 (w' ++ rest))). cbn [bind]. auto.
      - intros p q E Hq. destruct (prefix_cases _ _ _ _ E) as [(q1 & Hq1 & ->)|(p2 & -> & E2)].
        + rewrite (H2 p q1 eq_refl Hq1). reflexivity.
        + rewrite (fast_load_ok k _ _ _ _ _ _ (H1 p2)). cbn [bind]. eapply K2; eauto. }
    destruct (N.eqb i id) eqn:Ei.
    + destruct (S np =? length ids) eqn:En.
      * exists b, (concat bs), (acc ++ [(i, t)]). split; auto.
        destruct (Step [] (acc ++ [(i, t)]) (fun ts0 => let '(t, s) := ts0 in
          let* id := vget ids np in
          if N.eqb i id then
            if S np =? length ids then Ok (acc ++ [(i, t)])
            else load_tries_loop_cut k c blank (length ts) (i + 1) ids (S np) s (acc ++ [(i, t)])
          else load_tries_loop_cut k c blank (length ts) (i + 1) ids np s acc)) as (A1 & A2).
        { intros rest. rewrite V. cbn [bind]. rewrite Ei, En. reflexivity. }
        { apply on_cuts_nil. }
        rewrite app_nil_r in A1, A2. split; [exact A1|exact A2].
      * apply Nat.eqb_neq in En. destruct (IH (i + 1)%N (S np) (acc ++ [(i, t)]) ltac:(lia)) as (w & tail & r & E1 & E2 & E3).
        apply Nat.eqb_neq in En.
        exists (b ++ w), tail, r. split; [rewrite E1; apply app_assoc|].
        apply (Step w r (fun ts0 => let '(t, s) := ts0 in
          let* id := vget ids np in
          if N.eqb i id then
            if S np =? length ids then Ok (acc ++ [(i, t)])
            else load_tries_loop_cut k c blank (length ts) (i + 1) ids (S np) s (acc ++ [(i, t)])
          else load_tries_loop_cut k c blank (length ts) (i + 1) ids np s acc)).
        -- intros rest. rewrite V. cbn [bind]. rewrite Ei, En. auto.
        -- intros p q E Hq. rewrite V. cbn [bind]. rewrite Ei, En. eapply E3; eauto.
    + destruct (IH (i + 1)%N np acc Hnp) as (w & tail & r & E1 & E2 & E3).
      exists (b ++ w), tail, r. split; [rewrite E1; apply app_assoc|].
      apply (Step w r (fun ts0 => let '(t, s) := ts0 in
          let* id := vget ids np in
          if N.eqb i id then
            if S np =? length ids then Ok (acc ++ [(i, t)])
            else load_tries_loop_cut k c blank (length ts) (i + 1) ids (S np) s (acc ++ [(i, t)])
          else load_tries_loop_cut k c blank (length ts) (i + 1) ids np s acc)).
      -- intros rest. rewrite V. cbn [bind]. rewrite Ei. auto.
      -- intros p q E Hq. rewrite V. cbn [bind]. rewrite Ei. eapply E3; eauto.
Qed.

Lemma read_fast_header_needs : forall rank, (rank < 2 ^ 32)%N -> rank <> 1%N ->
  forall p q w, le_bytes 4 rank ++ w = p ++ q -> length p < 8 -> forall x, read_fast_header p <> Ok x.
Proof.
  intros rank Hr H1 p q w E Hp x X. unfold read_fast_header in X.
  apply bind_inv in X. destruct X as ((r0 & w1) & E1 & X). assert (L1 := read_le_rest _ _ _ _ E1).
  assert (R : r0 = rank).
  { destruct (prefix_cases _ _ _ _ E) as [(q1 & Hq1 & E2)|(p2 & -> & _)].
    - exfalso. apply (f_equal (@length N)) in E2. rewrite le_bytes_length, app_length in E2. destruct q1; [easy|]. cbn [length] in E2. lia.
    - rewrite read_le_app in E1 by auto. congruence. }
  subst r0. destruct (N.eqb_spec rank 1); [easy|]. cbn [bind] in X.
  apply bind_inv in X. destruct X as ((b1 & w2) & E2 & X).
  apply bind_inv in X. destruct X as ((b2 & w3) & E3 & X).
  apply bind_inv in X. destruct X as ((ws & w4) & E4 & X). apply read_le_rest in E4.
  unfold read_obool in E2, E3. apply bind_inv in E2, E3. destruct E2 as ((y2 & v2) & E2 & E2'), E3 as ((y3 & v3) & E3 & E3').
  injection E2' as _ <-. injection E3' as _ <-. apply read_le_rest in E2, E3. lia.
Qed.

Lemma cut_app : forall (w1 w2 : list N) p, length w1 <= p -> exists p2, cut_at p (w1 ++ w2) = w1 ++ p2.
Proof.
  intros w1 w2 p H. unfold cut_at. rewrite firstn_app, firstn_all2 by auto. eauto.
Qed.

Theorem fast_queries_cut : forall fm k junk a b rank runs levelwise lw one u lists blank hc parallel sched queries,
  formats_ok fm -> formats_need_all fm -> collection_ok one u lists -> fast_universe u lw ->
  (rank < 2 ^ 32)%N -> rank <> 1%N ->
  junk_ok junk -> blank_ok blank -> Forall (fast_ok u) (kept_lists a b lists) ->
  fast_exact_mode u lw runs parallel hc sched (kept_lists a b lists) ->
  queries <> [] -> Forall (query_ok (kept_lists a b lists)) queries ->
  exists file e rs,
    build_fast_tries fm junk a b rank runs levelwise lw (collection_file one u lists) = Ok file /\
    e <= length file /\ Forall2 (answers (kept_lists a b lists)) queries rs /\
    (forall p, e <= p ->
       fast_query_log_cut fm k blank sched hc parallel (cut_at p file) queries = Ok rs) /\
    (forall p, p < e ->
       fast_query_log_cut fm k blank sched hc parallel (cut_at p file) queries = UB Indeterminate).
Proof.
  intros fm k junk a b rank runs levelwise lw one u lists blank hc parallel sched queries
    F FN C Hu Hr H1 J B K M Qne Q.
  destruct (fast_end_to_end fm junk a b rank runs levelwise lw one u lists blank hc parallel sched queries
    F C Hu Hr H1 J B K M Qne Q) as (file & rs & E1 & E2 & E3).
  assert (E2' := fast_query_log_ok fm k _ _ _ _ _ _ _ E2).
  assert (Hc := fast_codecs_ok fm rank F).
  assert (Hn : codecs_need_all (fast_codecs fm rank)).
  { destruct FN as (X1 & X2 & _). unfold fast_codecs. destruct (N.eqb rank 0); auto. }
  destruct (all_made u lw runs junk (fast_codecs fm rank) _ 0 Hu J K) as (ts & Ets & bs & Ebs).
  assert (Kc := kept_count a b one u lists C). assert (C' := C). destruct C' as (C1 & C2 & _).
  destruct (B lw) as (B1 & B2). set (c := fast_codecs fm rank) in *.
  set (kept := kept_lists a b lists) in *.
  assert (FF : exists ts', length ts' = length kept /\
     Forall2 (fun t bt => (forall rest, fast_load c (blank lw) (bt ++ rest) = Ok (t, rest)) /\
                     on_cuts bt (fast_load_cut k c (blank lw)) (fun r => r = UB Indeterminate)) ts' bs).
  { clear - Ets Ebs K Hu J Hc Hn B1 B2. revert Ets Ebs. revert ts bs. generalize 0 as i.
    induction K as [|l kept Hl _ IH]; intros i ts bs Em Es; cbn [indexed each_ok] in Em, Es.
    - injection Es as <-. exists []. split; auto.
    - apply bind_inv in Em. destruct Em as (t & Et & Em).
      apply bind_inv in Em. destruct Em as (ts1 & Ets & Em).
      apply bind_inv in Es. destruct Es as (b0 & Eb' & Es).
      apply bind_inv in Es. destruct Es as (bs1 & Ebs & Es). injection Es as <-.
      destruct (IH _ _ _ Ets Ebs) as (ts' & L & FF).
      unfold stored in Eb'. rewrite Et in Eb'. cbn [bind] in Eb'. cbn [fst snd] in Eb'.
      apply (f_equal (fun r => match r with Ok x => x | _ => [] end)) in Eb'. cbv beta iota in Eb'. subst b0.
      destruct (J i) as (J1 & J2 & J3).
      assert (Et' : fast_make u lw (j_hwr (junk i)) (j_empty (junk i)) runs l = Ok t) by exact Et.
      destruct (fast_made u lw (j_hwr (junk i)) (j_empty (junk i)) runs l Hu Hl J1) as (t1 & M1 & M2 & M3 & M4 & _).
      rewrite Et' in M1. injection M1 as <-.
      exists (fast_restored (j_hwr_bytes (junk i)) (j_empty_byte (junk i)) (blank lw) t :: ts'). cbn [length].
      split; [lia|]. constructor; auto. split.
      + intros rest. apply fast_load_serialize; auto. congruence.
      + apply fast_cuts; auto. congruence. }
  destruct FF as (ts' & L & FF).
  assert (Sne : set_indexes queries <> []).
  { destruct (set_indexes_spec queries) as (_ & S2). destruct queries as [|q0 qs]; [easy|].
    inversion Q as [|? ? (Qn & _) _]; subst. destruct q0 as [|x q0]; [easy|]. intros E.
    assert (X := proj2 (S2 x)). rewrite E in X. apply X. cbn. auto. }
  destruct (load_tries_loop_cuts k c (blank lw) (set_indexes queries) ts' bs FF 0%N 0 []) as (w & tail & r & W1 & W2 & W3).
  { destruct (set_indexes queries); [easy|]. cbn [length]. lia. }
  rewrite fast_build_spec in E1 by auto. fold c kept in E1. rewrite Ebs in E1. cbn [bind] in E1.
  apply (f_equal (fun r => match r with Ok x => x | _ => [] end)) in E1. cbv beta iota in E1.
  set (hd := le_bytes 4 rank ++ [bool_byte runs] ++ [bool_byte levelwise] ++ le_bytes 2 (wbits lw)) in *.
  set (sc := le_bytes 4 (N.of_nat (length kept)) ++ le_bytes 4 one ++ le_bytes 4 u).
  assert (Ef : file = (hd ++ sc ++ w) ++ tail).
  { rewrite <- E1, W1. unfold sc. rewrite <- !app_assoc. reflexivity. }
  set (KQ := fun tries => map_queries tries
    (fun nq rep ts =>
       Intersect (Fast lw) (fst (sched nq rep)) (snd (sched nq rep)) hc (map fast_ops ts) runs parallel) queries).
  assert (G1 : forall rest, fast_query_log_cut fm k blank sched hc parallel ((hd ++ sc ++ w) ++ rest) queries = KQ r).
  { intros rest. unfold fast_query_log_cut. rewrite <- app_assoc.
    rewrite (whole_ok _ _ _ _ _ _ (fast_header rank runs levelwise lw _ Hr H1 (proj1 Hu))). cbn [bind oget].
    rewrite word_log_wbits by apply Hu. unfold load_tries_cut, sc. rewrite <- !app_assoc.
    rewrite (whole_ok _ _ _ _ _ _ (read_le_app 4 _ _ Kc)). cbn [bind].
    rewrite (whole_ok _ _ _ _ _ _ (read_le_app 4 _ _ C1)). cbn [bind].
    rewrite (whole_ok _ _ _ _ _ _ (read_le_app 4 _ _ C2)). cbn [bind].
    rewrite Nat2N.id, <- L, W2. reflexivity. }
  assert (Kr : KQ r = Ok rs) by (rewrite <- (G1 tail), <- Ef; auto).
  exists file, (length (hd ++ sc ++ w)), rs. split.
  { rewrite fast_build_spec by auto. fold c kept hd. rewrite Ebs. cbn [bind]. rewrite <- E1. reflexivity. }
  split; [rewrite Ef, (app_length _ tail); lia|]. split; auto. split.
  - intros p Hp. rewrite Ef. destruct (cut_app (hd ++ sc ++ w) tail p Hp) as (p2 & ->). rewrite G1. auto.
  - intros p Hp.
    assert (X : exists q, hd ++ sc ++ w = cut_at p file ++ q /\ q <> []).
    { destruct (cut_prefix p (hd ++ sc ++ w) Hp) as (q & Eq & Hq). exists q. split; auto.
      rewrite Eq at 1. f_equal. rewrite Ef. unfold cut_at. rewrite (firstn_app p (hd ++ sc ++ w) tail).
      replace (p - length (hd ++ sc ++ w)) with 0 by lia. cbn [firstn]. rewrite app_nil_r. reflexivity. }
    destruct X as (q & Eq & Hq). revert Eq. generalize (cut_at p file). intros p' Eq.
    unfold fast_query_log_cut.
    destruct (prefix_cases _ _ _ _ Eq) as [(q1 & Hq1 & Eh)|(p2 & -> & Eq2)].
    + assert (Y : whole read_fast_header (p', false) = UB Indeterminate).
      { unfold whole. cbn [fst]. destruct (read_fast_header p') eqn:E; auto. exfalso.
        unfold hd in Eh. eapply (read_fast_header_needs rank Hr H1 p' q1); [exact Eh| |exact E].
        apply (f_equal (@length N)) in Eh. rewrite !app_length, !le_bytes_length in Eh. cbn [length] in Eh.
        destruct q1; [easy|]. cbn [length] in Eh. lia. }
      rewrite Y. reflexivity.
    + rewrite (whole_ok _ _ _ _ _ _ (fast_header rank runs levelwise lw _ Hr H1 (proj1 Hu))). cbn [bind oget].
      rewrite word_log_wbits by apply Hu.
      assert (Y : load_tries_cut k (fast_codecs fm rank) (blank lw) queries (p2, false) = UB Indeterminate).
      { unfold sc in Eq2. rewrite <- !app_assoc in Eq2. revert p2 q Eq2 Hq Eq. 
        assert (Z : on_cuts (le_bytes 4 (N.of_nat (length kept)) ++ le_bytes 4 one ++ le_bytes 4 u ++ w)
           (load_tries_cut k (fast_codecs fm rank) (blank lw) queries) (fun r => r = UB Indeterminate)).
        { unfold load_tries_cut.
          eapply cut_whole; [intros; apply read_le_app; auto|rewrite le_bytes_length; apply read_le_needs|auto|]. cbv beta iota.
          eapply cut_whole; [intros; apply read_le_app; auto|rewrite le_bytes_length; apply read_le_needs|auto|]. cbv beta iota.
          eapply cut_whole; [intros; apply read_le_app; auto|rewrite le_bytes_length; apply read_le_needs|auto|]. cbv beta iota.
          rewrite Nat2N.id, <- L. exact W3. }
        intros p2 q Eq2 Hq _. eapply Z; eauto. }
      rewrite Y. reflexivity.
Qed.

(** * Formats *)

Lemma load_bits_length : forall f v fuel p x, load_bits fuel (N.of_nat (length v)) p = Ok x ->
  length (bits_bytes f v) <= length p.
Proof.
  induction f; intros v fuel p x H; cbn [bits_bytes]; [cbn; lia|].
  destruct v as [|b v]; [cbn; lia|]. destruct (N.eqb_spec (N.of_nat (length (b :: v))) 0) as [E|E]; [cbn [length] in E; lia|].
  apply N.eqb_neq in E. destruct fuel as [|fuel]; cbn [load_bits] in H; rewrite E in H; [discriminate|].
  apply bind_inv in H. destruct H as ((y & p1) & E1 & H). apply read_le_rest in E1.
  apply bind_inv in H. destruct H as ((v1 & p2) & E2 & _).
  replace (N.of_nat (length (b :: v)) - N.min 64 (N.of_nat (length (b :: v))))%N
    with (N.of_nat (length (skipn 64 (b :: v)))) in E2 by (rewrite skipn_length; lia).
  apply (IHf (skipn 64 (b :: v))) in E2. rewrite app_length, le_bytes_length. lia.
Qed.

Lemma sdsl_bv_needs_all : bv_needs_all sdsl_bv.
Proof.
  split; [|discriminate]. intros v p q Hv E Hq x X. cbn [sdsl_bv bv_ser bv_load] in *.
  apply bind_inv in X. destruct X as ((n & p1) & E1 & X).
  destruct (prefix_cases _ _ _ _ E) as [(q1 & Hq1 & E2)|(p2 & -> & E2)].
  - apply read_le_rest in E1. apply (f_equal (@length N)) in E2. rewrite le_bytes_length, app_length in E2.
    destruct q1; [easy|]. cbn [length] in E2. lia.
  - rewrite read_le_app in E1 by auto. assert (n = N.of_nat (length v)) by congruence. assert (p1 = p2) by congruence. subst.
    apply (load_bits_length (length v)) in X. apply (f_equal (@length N)) in E2. rewrite app_length in E2.
    destruct q; [easy|]. cbn [length] in E2. lia.
Qed.

Lemma strip_length : forall d p rest, strip d p = Ok rest -> length p = length d + length rest.
Proof.
  induction d as [|x d IH]; intros p rest H; cbn [strip] in H.
  - injection H as <-. auto.
  - destruct p as [|y p]; [discriminate|]. destruct (N.eqb x y); [|discriminate]. apply IH in H. cbn [length]. lia.
Qed.

Lemma dir_rank_needs_all : rank_needs_all dir_rank.
Proof.
  split.
  - intros v p q Hv E Hq x X. cbn [dir_rank rk_ser rk_load] in *. apply bind_inv in X. destruct X as (r & X & _).
    apply strip_length in X. apply (f_equal (@length N)) in E. rewrite app_length in E. destruct q; [easy|]. cbn [length] in E. lia.
  - intros v r rest X. cbn [dir_rank rk_load] in X. apply bind_inv in X. destruct X as (r' & X & Y).
    injection Y as _ <-. apply strip_length in X. cbn [length] in X. destruct r'; [auto|cbn [length] in X; lia].
Qed.

Lemma plain_codecs_need_all : codecs_need_all plain_codecs.
Proof. split; [|split]; [apply sdsl_bv_needs_all|apply sdsl_bv_needs_all|apply dir_rank_needs_all]. Qed.

(** Formats with a rank structure that stores nothing for the interleaved classes. *)
Definition no_rank : rank_codec := mkRankCodec (fun _ => []) (fun input v => Ok (v, input)).

Definition il_formats : formats :=
  mkFormats plain_codecs plain_codecs (fun _ => mkCodecs sdsl_bv sdsl_bv no_rank).

Lemma il_formats_ok : formats_ok il_formats.
Proof.
  split; [apply plain_codecs_ok|]. split; [apply plain_codecs_ok|]. intros b. destruct plain_codecs_ok as (H1 & H2 & _).
  split; [exact H1|]. split; [exact H2|]. intros v rest _. reflexivity.
Qed.

Lemma il_formats_need_all : formats_need_all il_formats.
Proof.
  split; [apply plain_codecs_need_all|]. split; [apply plain_codecs_need_all|]. intros b.
  split; [apply sdsl_bv_needs_all|]. split; [apply sdsl_bv_needs_all|]. split.
  - intros v p q _ E Hq. cbn in E. destruct p, q; discriminate || easy.
  - intros v r rest E. cbn in E. congruence.
Qed.

(** Memory that happens to hold zeros. *)
Definition zeros : cuts := mkCuts
  (fun bytes => match read_le 8 bytes with Ok (n, _) => Some (repeat false (N.to_nat n)) | _ => None end)
  (fun _ v => Some (repeat false (length v))).

Theorem cut_unnoticed :
  ~ (forall fm k a b rank block runs levelwise one u lists file hc parallel sched queries rs p,
       formats_ok fm -> formats_need_all fm -> collection_ok one u lists -> (2 <= u)%N ->
       loadable_options rank block levelwise ->
       Forall (stored_ok u (built_variant rank levelwise) runs) (kept_lists a b lists) ->
       exact_mode u runs parallel hc sched (kept_lists a b lists) ->
       Forall (query_ok (kept_lists a b lists)) queries ->
       build_tries fm a b rank block runs levelwise (collection_file one u lists) = Ok file ->
       p < length file ->
       query_log_cut fm k sched hc parallel (cut_at p file) queries = Ok rs ->
       Forall2 (answers (kept_lists a b lists)) queries rs).
Proof.
  intros H.
  set (lists := [[1; 2; 3; 9]; [2; 3; 9]; [0; 2; 3; 8]]%N).
  set (file := match build_tries il_formats 1 100 1 256 false false (collection_file 1 50 lists) with
               | Ok f => f | _ => [] end).
  assert (X := H il_formats zeros 1%N 100%N 1%N 256%N false false 1%N 50%N lists file 1%N false
    (fun _ _ => (in_order, in_order)) [[0; 2]]%N [Some []] 130).
  assert (A : Forall2 (answers (kept_lists 1 100 lists)) [[0; 2]]%N [Some []]).
  { apply X.
    - apply il_formats_ok.
    - apply il_formats_need_all.
    - split; [reflexivity|split; [reflexivity|split; [reflexivity|split; repeat constructor]]].
    - discriminate.
    - split; [reflexivity|split; [reflexivity|intros _; cbn; auto]].
    - constructor; [|constructor; [|constructor; [|constructor]]]; sets_ok.
    - split; [discriminate|discriminate].
    - constructor; [|constructor]. split; [discriminate|repeat constructor].
    - vm_compute. reflexivity.
    - apply Nat.ltb_lt. vm_compute. reflexivity.
    - vm_compute. reflexivity. }
  inversion A as [|? ? ? ? A1 _]; subst. cbn [answers] in A1. destruct A1 as (_ & _ & A2).
  apply (proj2 (A2 2%N)). change (lists_at (kept_lists 1 100 lists) [0; 2]%N) with [[1; 2; 3; 9]; [0; 2; 3; 8]]%N.
  constructor; [|constructor; [|constructor]]; cbn; auto.
Qed.
