(** The programs that build tries and compare what they decode to with the lists. *)

From Verif Require Import Base FlatTrie LevelTrie FastTrie Tries Serialize Facts Spec SpecTries SpecOrder
  SpecFiles Tools SpecTools SerializeFacts SerializeThms ToolsFacts ToolsThms RoundTrip RunsThms KeepOrder KeepThms KeepSet
  InterThms Checker SpecChecker CheckerThms.
From Coq Require Import Sorted.

(** * Tries of any list *)

Lemma kept_same_iff : forall lw u l r, (exists d, rounded u = 2 ^ (d + lw))%N ->
  kept_set (2 ^ lw) (rounded u) l r -> (r = l <-> increasing l /\ below (rounded u) l).
Proof.
  intros lw u l r (d & Ed) (s & K & I). split.
  - intros ->. assert (Hi : increasing l) by apply I. split; auto.
    apply (outside lw d (rounded u) l s l); auto.
  - intros (Hi & Hb). apply (outside lw d (rounded u) l s r); auto.
Qed.

Lemma bin_same_iff : forall u l r, kept_set 1 (rounded u) l r ->
  (r = l <-> increasing l /\ below (rounded u) l).
Proof.
  intros u l r K. apply (kept_same_iff 0); auto. exists (N.log2_up u). rewrite N.add_0_r. reflexivity.
Qed.

Lemma fast_same_iff : forall u lw l r, fast_universe u lw -> kept_set (2 ^ N.of_nat lw) (rounded u) l r ->
  (r = l <-> increasing l /\ below (rounded u) l).
Proof.
  intros u lw l r Hu K. apply (kept_same_iff (N.of_nat lw)); auto.
  destruct (rounded_split u lw Hu) as (d & ->). eauto.
Qed.

(** * The loop over the lists *)

Fixpoint failed_at (i : nat) (oks : list bool) : list nat :=
  match oks with
  | [] => []
  | b :: oks' => (if b then [] else [i]) ++ failed_at (S i) oks'
  end.

Lemma failed_In : forall oks i k, In k (failed_at i oks) <-> i <= k /\ nth_error oks (k - i) = Some false.
Proof.
  induction oks as [|b oks IH]; intros i k; cbn [failed_at].
  - destruct (k - i); cbn; intuition discriminate.
  - rewrite in_app_iff, IH. split.
    + intros [H|(H1 & H2)].
      * destruct b; [destruct H|]. destruct H as [<-|[]]. rewrite Nat.sub_diag. auto.
      * split; [lia|]. replace (k - i) with (S (k - S i)) by lia. auto.
    + intros (H1 & H2). destruct (Nat.eq_dec k i) as [->|Hk].
      * rewrite Nat.sub_diag in H2. cbn in H2. inversion H2. left. left. auto.
      * right. split; [lia|]. replace (k - i) with (S (k - S i)) in H2 by lia. auto.
Qed.

Lemma failed_sorted : forall oks i, StronglySorted lt (failed_at i oks).
Proof.
  induction oks as [|b oks IH]; intros i; cbn [failed_at]; [constructor|].
  destruct b; cbn [app]; auto. constructor; auto.
  apply Forall_forall. intros k Hk. apply failed_In in Hk. lia.
Qed.

Lemma longer_cons : forall m l lists, longer_than m (l :: lists) =
  if (m <? N.of_nat (length l))%N then l :: longer_than m lists else longer_than m lists.
Proof. reflexivity. Qed.

Lemma total_cons : forall l lists, total_values (l :: lists) = (N.of_nat (length l) + total_values lists)%N.
Proof. reflexivity. Qed.

Lemma verify_loop_spec : forall m verify lists fuel i total bad, length lists <= fuel ->
  Forall (shorter 30) lists -> Forall (below (2 ^ 32)) lists ->
  verify_loop fuel m verify (concat (map list_bytes lists)) i total bad
  = (let* oks := each_ok (fun p => verify (fst p) (snd p)) (indexed i (longer_than m lists)) in
     Ok (bad ++ failed_at i oks, i + length (longer_than m lists),
         (total + total_values (longer_than m lists))%N)).
Proof.
  intros m verify lists. induction lists as [|l lists IH]; intros fuel i total bad Hf Hs Hb.
  - assert (E : read_eof 4 (concat (map list_bytes [])) = None) by reflexivity.
    destruct fuel; cbn [verify_loop]; rewrite E; cbn; rewrite app_nil_r, Nat.add_0_r, N.add_0_r; reflexivity.
  - apply Forall_cons_iff in Hs. apply Forall_cons_iff in Hb. destruct Hs as (Hs1 & Hs), Hb as (Hb1 & Hb).
    cbn [length] in Hf. destruct fuel as [|fuel]; [lia|].
    cbn [map concat]. unfold list_bytes at 1. rewrite <- !app_assoc.
    cbn [verify_loop]. rewrite read_eof_app by (apply shorter_len; auto).
    rewrite longer_cons. destruct (m <? N.of_nat (length l))%N.
    + rewrite Nat2N.id, read_inv_list_app by auto. cbn [bind indexed each_ok fst snd].
      destruct (verify i l) as [ok|e|]; cbn [bind]; auto.
      rewrite IH by (auto; lia). rewrite bind_assoc. cbn [bind].
      destruct (each_ok (fun p => verify (fst p) (snd p)) (indexed (S i) (longer_than m lists))); cbn [bind]; auto.
      f_equal. cbn [failed_at length]. rewrite total_cons. f_equal; [f_equal|].
      * destruct ok; cbn [app]; auto. rewrite <- app_assoc. reflexivity.
      * lia.
      * lia.
    + rewrite seek_list_app by auto. apply IH; auto. lia.
Qed.

Theorem verify_file_spec : forall m verify one u lists, collection_ok one u lists ->
  verify_file m verify (collection_file one u lists)
  = (let* oks := each_ok (fun p => verify u (fst p) (snd p)) (indexed 0 (longer_than m lists)) in
     Ok (failed_at 0 oks, length (longer_than m lists), total_values (longer_than m lists))).
Proof.
  intros m verify one u lists (H1 & H2 & H3 & H4 & H5). unfold verify_file, collection_file.
  rewrite read_le_app by auto. cbn [bind]. rewrite read_le_app by auto. cbn [bind].
  rewrite verify_loop_spec; auto. apply lists_fuel.
Qed.

Lemma nth_indexed : forall A (l : list A) i k, nth_error (indexed i l) k = option_map (pair (i + k)) (nth_error l k).
Proof.
  induction l as [|x l IH]; intros i [|k]; cbn [indexed nth_error option_map]; auto.
  - rewrite Nat.add_0_r. auto.
  - rewrite IH. rewrite Nat.add_succ_comm. auto.
Qed.

Lemma In_indexed : forall A (l : list A) i p, In p (indexed i l) -> In (snd p) l.
Proof.
  induction l as [|x l IH]; intros i p; cbn [indexed]; [intros []|].
  intros [<-|H]; [left; auto|right; eauto].
Qed.

(** Every list is judged. *)
Lemma reports_all : forall (ok : list N -> Prop) (f : nat * list N -> result bool) lists,
  (forall p, In p (indexed 0 lists) -> exists b, f p = Ok b /\ (b = true <-> ok (snd p))) ->
  exists oks, each_ok f (indexed 0 lists) = Ok oks /\ reports ok lists (failed_at 0 oks).
Proof.
  intros ok f lists H.
  destruct (each_ok_Forall _ _ f (fun p b => b = true <-> ok (snd p)) (indexed 0 lists)) as (oks & E & F).
  { apply Forall_forall. auto. }
  exists oks. split; auto. split; [apply failed_sorted|]. intros i. rewrite failed_In, Nat.sub_0_r.
  assert (L := each_ok_length _ _ _ _ _ E).
  assert (G : forall i p b, nth_error (indexed 0 lists) i = Some p -> nth_error oks i = Some b ->
                (b = true <-> ok (snd p))).
  { clear - F. induction F; intros [|i] p b; cbn; try discriminate; eauto.
    intros Q1 Q2. inversion Q1; inversion Q2; subst. auto. }
  split.
  - intros (_ & Hi). assert (Q : nth_error (indexed 0 lists) i <> None).
    { apply nth_error_Some. rewrite <- L. apply nth_error_Some. congruence. }
    destruct (nth_error (indexed 0 lists) i) as [p|] eqn:Ei; [|congruence].
    assert (Q1 := G i p false Ei Hi). rewrite nth_indexed in Ei.
    destruct (nth_error lists i) as [l|] eqn:El; [|discriminate]. exists l. split; auto.
    inversion Ei; subst p. cbn [snd] in Q1. intros O. apply Q1 in O. discriminate.
  - intros (l & El & No). split; [lia|].
    assert (Ei : nth_error (indexed 0 lists) i = Some (i, l)) by (rewrite nth_indexed, El; reflexivity).
    assert (Q : nth_error oks i <> None).
    { apply nth_error_Some. rewrite L. apply nth_error_Some. congruence. }
    destruct (nth_error oks i) as [[|]|] eqn:Eo; auto; [|congruence].
    assert (Q1 := G i _ _ Ei Eo). cbn [snd] in Q1. exfalso. apply No, Q1. auto.
Qed.

(** The first list that cannot be judged ends the program. *)
Lemma stops : forall e (f : nat * list N -> result bool) l p,
  (forall q, In q l -> (exists b, f q = Ok b) \/ f q = UB e) -> In p l -> f p = UB e ->
  each_ok f l = UB e.
Proof.
  intros e f l p H Hp Ep. induction l as [|q l IH]; [destruct Hp|].
  cbn [each_ok]. destruct (H q (or_introl eq_refl)) as [(b & Eb)|Eb].
  - rewrite Eb. cbn [bind]. destruct Hp as [->|Hp]; [congruence|].
    rewrite IH; auto. intros. apply H. right. auto.
  - rewrite Eb. reflexivity.
Qed.

Lemma longer_ok : forall m one u lists l, collection_ok one u lists -> In l (longer_than m lists) ->
  l <> [] /\ shorter 32 l.
Proof.
  intros m one u lists l (_ & _ & _ & H & _) I. apply filter_In in I. destruct I as (I & L).
  apply N.ltb_lt in L. split.
  - intros ->. cbn in L. lia.
  - rewrite Forall_forall in H. apply H in I. unfold shorter in *. eapply N.lt_trans; [exact I|reflexivity].
Qed.

Lemma mixed_block_dec : forall s, mixed_block s \/ ~ mixed_block s.
Proof.
  intros s.
  set (f := fun x : N => existsb (fun y => if in_dec N.eq_dec y s then false else true)
              [x / 4 * 4; x / 4 * 4 + 1; x / 4 * 4 + 2; x / 4 * 4 + 3]%N).
  destruct (existsb f s) eqn:E.
  - left. apply existsb_exists in E. destruct E as (x & Hx & E). apply existsb_exists in E.
    destruct E as (y & Hy & E). exists x, y. split; [auto|].
    destruct (in_dec N.eq_dec y s); [discriminate|]. split; [auto|].
    assert (Q : exists j, (j < 4)%N /\ y = (j + x / 4 * 4)%N).
    { cbn [In] in Hy. destruct Hy as [<-|[<-|[<-|[<-|[]]]]].
      - exists 0%N. lia.
      - exists 1%N. lia.
      - exists 2%N. lia.
      - exists 3%N. lia. }
    destruct Q as (j & Hj & ->). rewrite N.div_add by discriminate. rewrite (N.div_small j) by auto. lia.
  - right. intros (x & y & Hx & Hy & E4).
    assert (existsb f s = true); [|congruence]. apply existsb_exists. exists x. split; auto.
    apply existsb_exists. exists y. split.
    + rewrite E4. assert (D := N.div_mod y 4 ltac:(discriminate)).
      assert (L := N.mod_lt y 4 ltac:(discriminate)). set (q := (y / 4)%N) in *. set (m := (y mod 4)%N) in *.
      cbn [In]. lia.
    + destruct (in_dec N.eq_dec y s); [contradiction|auto].
Qed.

(** * Flat and level-wise tries *)

Definition encode_check (u : N) (v : variant) (runs : bool) (l : list N) : result bool :=
  let* t := bin_make u v runs l in
  let* decoded := bin_decode t [] in
  Ok (same_values decoded l).

Lemma verify_encode_check : forall m rank runs lw one u lists, collection_ok one u lists ->
  verify_encode m rank runs lw (collection_file one u lists)
  = (let* oks := each_ok (fun p => encode_check u (built_variant (if (rank =? 0)%N then 0 else 1) lw) runs (snd p))
                         (indexed 0 (longer_than (u32 m) lists)) in
     Ok (failed_at 0 oks, length (longer_than (u32 m) lists), total_values (longer_than (u32 m) lists))).
Proof. intros. unfold verify_encode. rewrite verify_file_spec by auto. reflexivity. Qed.

Lemma same_iff : forall a b, same_values a b = true <-> a = b.
Proof. intros. apply same_values_spec. Qed.

(** What becomes of one list. *)
Lemma encode_check_spec : forall u v runs l r, variant_universe u v -> l <> [] -> shorter 32 l ->
  kept_set 1 (rounded u) l r ->
  ((match v with VFlat _ => runs = true -> mixed_block r | VLevel _ => True end) ->
   exists b, encode_check u v runs l = Ok b /\ (b = true <-> increasing l /\ below (rounded u) l)) /\
  ((exists il, v = VFlat il) -> runs = true -> ~ mixed_block r -> encode_check u v runs l = UB OutOfBounds).
Proof.
  intros u v runs l r Hu Hne Hl K.
  destruct (bin_any_set u v l Hu Hne Hl) as (r' & K' & Rne & Rok & E).
  assert (r' = r) by (eapply kept_set_unique; eauto). subst r'.
  assert (Hr : (2 <= rounded u <= 2 ^ 48)%N).
  { destruct Hu as (Hu & _). split; [assert (Q := rounded_ge u ltac:(lia)); lia|].
    unfold rounded. apply N.pow_le_mono_r; [lia|].
    assert (Q : (N.log2_up u <= N.log2_up (2 ^ 48))%N) by (apply N.log2_up_le_mono; lia).
    rewrite N.log2_up_pow2 in Q by lia. exact Q. }
  unfold encode_check. rewrite E. split.
  - intros Hm. destruct (bin_made (rounded u) v runs r Hr) as (t & Et & _ & _ & _ & D).
    { split; [auto|]. split; auto. }
    rewrite Et. cbn [bind]. rewrite D. cbn [bind app]. eexists. split; [reflexivity|].
    rewrite same_iff. apply bin_same_iff. auto.
  - intros (il & ->) -> Hm. destruct Rok as (R1 & R2 & R3 & _ & R5).
    destruct (flat_runs_lost (rounded u) r [] ltac:(lia) Rne R1 R2 R5 Hm) as (t & t' & E1 & E2 & E3).
    unfold bin_make, bin_build. rewrite E1. cbn [bind bin_encodeRuns]. rewrite E2. cbn [bind bin_decode].
    rewrite E3. reflexivity.
Qed.

(** The class under test: rank 0 gives the classes with separate rank structures, any other
    rank the interleaved ones. *)
Definition tested (rank : N) (levelwise : bool) : variant :=
  if levelwise then VLevel (negb (N.eqb rank 0)) else VFlat (negb (N.eqb rank 0)).

Lemma tested_variant : forall rank lw, built_variant (if (rank =? 0)%N then 0 else 1) lw = tested rank lw.
Proof. intros. unfold built_variant, tested. destruct (rank =? 0)%N, lw; reflexivity. Qed.

Theorem encode_reports : forall m rank runs (levelwise : bool) one u lists,
  collection_ok one u lists -> (if levelwise then 2 <= u else 3 <= u)%N ->
  (runs = true -> levelwise = false -> forall l, In l (longer_than (u32 m) lists) ->
     exists r, kept_set 1 (rounded u) l r /\ mixed_block r) ->
  exists bad,
    verify_encode m rank runs levelwise (collection_file one u lists)
    = Ok (bad, length (longer_than (u32 m) lists), total_values (longer_than (u32 m) lists)) /\
    reports (fun l => increasing l /\ below (rounded u) l) (longer_than (u32 m) lists) bad.
Proof.
  intros m rank runs lw one u lists C Hu Hm. rewrite verify_encode_check by auto. rewrite tested_variant.
  assert (U : variant_universe u (tested rank lw)).
  { destruct C as (_ & C & _). split.
    - split; [destruct lw; lia|]. eapply N.le_trans; [apply N.lt_le_incl; exact C|]. discriminate.
    - unfold tested. destruct lw; auto. }
  destruct (reports_all (fun l => increasing l /\ below (rounded u) l)
              (fun p => encode_check u (tested rank lw) runs (snd p)) (longer_than (u32 m) lists))
    as (oks & E & R).
  { intros p Hp. apply In_indexed in Hp. destruct (longer_ok _ _ _ _ _ C Hp) as (Hne & Hl).
    destruct (bin_any_set u _ _ U Hne Hl) as (r & K & _).
    destruct (encode_check_spec u _ runs _ r U Hne Hl K) as (Q & _). apply Q.
    unfold tested. destruct lw; auto. intros Hr. destruct (Hm Hr eq_refl _ Hp) as (r' & K' & M).
    assert (r = r') by (eapply kept_set_unique; eauto). subst. auto. }
  rewrite E. cbn [bind]. eexists. split; [reflexivity|auto].
Qed.

Theorem encode_stops : forall m rank one u lists l r,
  collection_ok one u lists -> (3 <= u)%N ->
  In l (longer_than (u32 m) lists) -> kept_set 1 (rounded u) l r -> ~ mixed_block r ->
  verify_encode m rank true false (collection_file one u lists) = UB OutOfBounds.
Proof.
  intros m rank one u lists l r C Hu I K M. rewrite verify_encode_check by auto. rewrite tested_variant.
  assert (U : variant_universe u (tested rank false)).
  { destruct C as (_ & C & _). split.
    - split; [lia|]. eapply N.le_trans; [apply N.lt_le_incl; exact C|]. discriminate.
    - unfold tested. auto. }
  destruct (In_nth_error _ _ I) as (i & Ei).
  rewrite (stops OutOfBounds _ _ (i, l)); auto.
  - intros q Hq. apply In_indexed in Hq. destruct (longer_ok _ _ _ _ _ C Hq) as (Hne & Hl).
    destruct (bin_any_set u _ _ U Hne Hl) as (r' & K' & _).
    destruct (encode_check_spec u _ true _ r' U Hne Hl K') as (Q1 & Q2).
    destruct (mixed_block_dec r') as [Mx|Mx].
    + left. destruct Q1 as (b & Eb & _); eauto. unfold tested. auto.
    + right. apply Q2; auto. unfold tested. eauto.
  - assert (Q := nth_indexed _ (longer_than (u32 m) lists) 0 i). rewrite Ei in Q. cbn in Q.
    eapply nth_error_In; eauto.
  - cbn [snd]. destruct (longer_ok _ _ _ _ _ C I) as (Hne & Hl).
    destruct (encode_check_spec u _ true _ r U Hne Hl K) as (_ & Q2). apply Q2; auto. unfold tested. eauto.
Qed.

(** All that matters of the rank is whether it is 0. *)
Theorem encode_rank : forall m rank rank' runs levelwise input, (rank =? 0)%N = (rank' =? 0)%N ->
  verify_encode m rank runs levelwise input = verify_encode m rank' runs levelwise input.
Proof. intros m rank rank' runs lw input E. unfold verify_encode. rewrite E. reflexivity. Qed.

(** * Fast tries *)

Lemma show_ten_spec : forall l,
  show_ten l = if 10 <=? length l then Ok tt else UB OutOfBounds.
Proof.
  intros l. destruct (Nat.leb_spec 10 (length l)) as [H|H].
  - do 10 (destruct l as [|? l]; [cbn in H; lia|]). reflexivity.
  - do 10 (destruct l as [|? l]; [reflexivity|]). cbn [length] in H. lia.
Qed.

Lemma kept_length : forall w p l s, kept w p l s -> length s = length l.
Proof. induction 1; cbn [length]; auto. Qed.

Lemma kept_set_length : forall w r l s, kept_set w r l s -> length s <= length l.
Proof.
  intros w r l s (k & K & Hi & Hin). apply kept_length in K. unfold wrapped in K. rewrite map_length in K.
  rewrite <- K. apply NoDup_incl_length.
  - clear - Hi. induction Hi; constructor; auto. intros I. rewrite Forall_forall in H. apply H in I. lia.
  - intros x. apply Hin.
Qed.

Definition fast_check (junk : nat -> fast_junk) (rank : N) (runs : bool) (lw : nat) (u : N) (i : nat)
           (l : list N) : result bool :=
  let* t := fast_make u lw (j_hwr (junk i)) (j_empty (junk i)) runs l in
  let* decoded := fast_decode t [] in
  if same_values decoded l then Ok true
  else if N.eqb rank 0 then
    let* _ := show_ten l in
    let* _ := show_ten decoded in
    Ok false
  else Ok false.

Lemma verify_fast_check : forall junk m rank runs lw one u lists, collection_ok one u lists ->
  verify_fast junk m rank runs lw (collection_file one u lists)
  = (let* oks := each_ok (fun p => fast_check junk rank runs lw u (fst p) (snd p))
                         (indexed 0 (longer_than (u32 m) lists)) in
     Ok (failed_at 0 oks, length (longer_than (u32 m) lists), total_values (longer_than (u32 m) lists))).
Proof. intros. unfold verify_fast. rewrite verify_file_spec by auto. reflexivity. Qed.

Lemma fast_check_spec : forall junk rank runs lw u i l r, fast_universe u lw -> l <> [] -> shorter 32 l ->
  u16_member (j_hwr (junk i)) -> (runs = true -> j_empty (junk i) = Some false) ->
  kept_set (2 ^ N.of_nat lw) (rounded u) l r ->
  (rank <> 0%N \/ 10 <= length r \/ (increasing l /\ below (rounded u) l) ->
   exists b, fast_check junk rank runs lw u i l = Ok b /\ (b = true <-> increasing l /\ below (rounded u) l)) /\
  (rank = 0%N -> length r < 10 -> ~ (increasing l /\ below (rounded u) l) ->
   fast_check junk rank runs lw u i l = UB OutOfBounds).
Proof.
  intros junk rank runs lw u i l r Hu Hne Hl Hj Hje K.
  destruct (fast_any_kept u lw l Hu Hne Hl) as (r' & K' & Ru & Rok & E).
  assert (r' = r) by (eapply kept_set_unique; eauto). subst r'.
  destruct (fast_made (rounded u) lw (j_hwr (junk i)) (j_empty (junk i)) runs r Ru Rok Hj)
    as (t & Et & _ & _ & _ & D).
  assert (S1 := fast_same_iff u lw l r Hu K). assert (Len := kept_set_length _ _ _ _ K).
  unfold fast_check. rewrite E, Et. cbn [bind]. rewrite (D Hje). cbn [bind app].
  assert (S2 := same_iff r l). destruct (same_values r l) eqn:Es.
  - split.
    + intros _. exists true. split; auto. split; auto. intros _. apply S1, S2. auto.
    + intros _ _ No. exfalso. apply No, S1, S2. auto.
  - assert (No : ~ (increasing l /\ below (rounded u) l)).
    { intros Q. apply S1 in Q. apply S2 in Q. discriminate. }
    rewrite !show_ten_spec. split.
    + intros Q. exists false. split; [|split; [discriminate|tauto]].
      destruct (N.eqb_spec rank 0) as [->|]; auto.
      destruct Q as [Q|[Q|Q]]; [congruence| |tauto].
      destruct (Nat.leb_spec 10 (length l)); [|lia]. destruct (Nat.leb_spec 10 (length r)); [|lia]. reflexivity.
    + intros -> Hr _. rewrite N.eqb_refl.
      destruct (Nat.leb_spec 10 (length l)); auto. destruct (Nat.leb_spec 10 (length r)); [lia|]. reflexivity.
Qed.

Theorem fast_encode_reports : forall junk m rank runs lw one u lists,
  collection_ok one u lists -> fast_universe u lw ->
  (forall i, u16_member (j_hwr (junk i))) ->
  (runs = true -> forall i, j_empty (junk i) = Some false) ->
  (rank = 0%N -> forall l, In l (longer_than (u32 m) lists) ->
     (increasing l /\ below (rounded u) l) \/
     exists r, kept_set (2 ^ N.of_nat lw) (rounded u) l r /\ 10 <= length r) ->
  exists bad,
    verify_fast junk m rank runs lw (collection_file one u lists)
    = Ok (bad, length (longer_than (u32 m) lists), total_values (longer_than (u32 m) lists)) /\
    reports (fun l => increasing l /\ below (rounded u) l) (longer_than (u32 m) lists) bad.
Proof.
  intros junk m rank runs lw one u lists C Hu Hj Hje Hten. rewrite verify_fast_check by auto.
  destruct (reports_all (fun l => increasing l /\ below (rounded u) l)
              (fun p => fast_check junk rank runs lw u (fst p) (snd p)) (longer_than (u32 m) lists))
    as (oks & E & R).
  { intros p Hp. apply In_indexed in Hp. destruct (longer_ok _ _ _ _ _ C Hp) as (Hne & Hl).
    destruct (fast_any_kept u lw _ Hu Hne Hl) as (r & K & _).
    destruct (fast_check_spec junk rank runs lw u (fst p) (snd p) r) as (Q & _); auto. apply Q.
    destruct (N.eq_dec rank 0) as [->|]; auto. right.
    destruct (Hten eq_refl _ Hp) as [T|(r' & K' & T)]; auto. left.
    assert (r = r') by (eapply kept_set_unique; eauto). subst. auto. }
  rewrite E. cbn [bind]. eexists. split; [reflexivity|auto].
Qed.

Lemma good_dec : forall u l r lw, fast_universe u lw -> kept_set (2 ^ N.of_nat lw) (rounded u) l r ->
  (increasing l /\ below (rounded u) l) \/ ~ (increasing l /\ below (rounded u) l).
Proof.
  intros u l r lw Hu K. assert (S1 := fast_same_iff u lw l r Hu K).
  destruct (list_eq_dec N.eq_dec r l); [left|right]; tauto.
Qed.

Theorem fast_encode_stops : forall junk m runs lw one u lists l r,
  collection_ok one u lists -> fast_universe u lw ->
  (forall i, u16_member (j_hwr (junk i))) ->
  (runs = true -> forall i, j_empty (junk i) = Some false) ->
  In l (longer_than (u32 m) lists) -> ~ (increasing l /\ below (rounded u) l) ->
  kept_set (2 ^ N.of_nat lw) (rounded u) l r -> length r < 10 ->
  verify_fast junk m 0 runs lw (collection_file one u lists) = UB OutOfBounds.
Proof.
  intros junk m runs lw one u lists l r C Hu Hj Hje I No K Ten. rewrite verify_fast_check by auto.
  destruct (In_nth_error _ _ I) as (i & Ei).
  rewrite (stops OutOfBounds _ _ (i, l)); auto.
  - intros q Hq. apply In_indexed in Hq. destruct (longer_ok _ _ _ _ _ C Hq) as (Hne & Hl).
    destruct (fast_any_kept u lw _ Hu Hne Hl) as (r' & K' & _).
    destruct (fast_check_spec junk 0 runs lw u (fst q) (snd q) r') as (Q1 & Q2); auto.
    destruct (good_dec _ _ _ _ Hu K') as [G|G].
    + left. destruct Q1 as (b & Eb & _); eauto.
    + destruct (Nat.le_gt_cases 10 (length r')).
      * left. destruct Q1 as (b & Eb & _); eauto.
      * right. apply Q2; auto.
  - assert (Q := nth_indexed _ (longer_than (u32 m) lists) 0 i). rewrite Ei in Q. cbn in Q.
    eapply nth_error_In; eauto.
  - cbn [fst snd]. destruct (longer_ok _ _ _ _ _ C I) as (Hne & Hl).
    destruct (fast_check_spec junk 0 runs lw u i l r) as (_ & Q2); auto.
Qed.

(** With run encoding the member that is never initialised decides. *)
Theorem fast_encode_indeterminate : forall junk m rank lw one u lists,
  collection_ok one u lists -> fast_universe u lw -> longer_than (u32 m) lists <> [] ->
  j_empty (junk 0) = None ->
  verify_fast junk m rank true lw (collection_file one u lists) = UB Indeterminate.
Proof.
  intros junk m rank lw one u lists C Hu Hne0 Hj. rewrite verify_fast_check by auto.
  destruct (longer_than (u32 m) lists) as [|l ls] eqn:El; [congruence|].
  assert (I : In l (longer_than (u32 m) lists)) by (rewrite El; left; auto).
  destruct (longer_ok _ _ _ _ _ C I) as (Hne & Hl).
  destruct (fast_any_kept u lw l Hu Hne Hl) as (r & K & (Rl & Ru) & (R1 & R2 & R3 & R4) & E).
  cbn [indexed each_ok fst snd]. unfold fast_check. rewrite Hj, E.
  destruct (fast_runs_indeterminate lw (j_hwr (junk 0)) (rounded u) r [] Rl Ru R1 R2 R3 R4)
    as (t & t' & E1 & E2 & E3).
  unfold fast_make. rewrite E1. cbn [bind]. rewrite E2. cbn [bind]. rewrite E3. reflexivity.
Qed.

Theorem fast_encode_rejects : forall junk m rank lw one u lists,
  collection_ok one u lists -> fast_universe u lw -> (rank <> 0)%N ->
  (forall i, j_empty (junk i) = Some true) ->
  exists bad,
    verify_fast junk m rank true lw (collection_file one u lists)
    = Ok (bad, length (longer_than (u32 m) lists), total_values (longer_than (u32 m) lists)) /\
    reports (fun _ => False) (longer_than (u32 m) lists) bad.
Proof.
  intros junk m rank lw one u lists C Hu Hrank Hj. rewrite verify_fast_check by auto.
  destruct (reports_all (fun _ => False)
              (fun p => fast_check junk rank true lw u (fst p) (snd p)) (longer_than (u32 m) lists))
    as (oks & E & R).
  { intros p Hp. apply In_indexed in Hp. destruct (longer_ok _ _ _ _ _ C Hp) as (Hne & Hl).
    destruct (fast_any_kept u lw _ Hu Hne Hl) as (r & K & (Rl & Ru) & (R1 & R2 & R3 & R4) & E).
    unfold fast_check. rewrite Hj, E.
    destruct (fast_runs_vanish lw (j_hwr (junk (fst p))) (rounded u) r [] Rl Ru R1 R2 R3 R4)
      as (t & t' & E1 & E2 & E3).
    unfold fast_make. rewrite E1. cbn [bind]. rewrite E2. cbn [bind]. rewrite E3. cbn [bind].
    exists false. split; [|split; [discriminate|tauto]].
    destruct (same_values [] (snd p)) eqn:Es; [apply same_iff in Es; congruence|].
    apply N.eqb_neq in Hrank. rewrite Hrank. reflexivity. }
  rewrite E. cbn [bind]. eexists. split; [reflexivity|auto].
Qed.
