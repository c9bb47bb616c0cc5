(** Proofs about tools/measures.cpp. *)

From Verif Require Import Base FlatTrie Serialize Tools Measures Stats Facts Spec SpecTools
  SpecMeasures SpecStats SerializeFacts ToolsFacts MeasureThms StatsThms StatsTools.

Lemma fresh_values_app : forall l acc rest, below (2 ^ 32) l ->
  in_fresh_values (length l) (mkIn (concat (map (le_bytes 4) l) ++ rest) false false) acc
  = Ok (acc ++ l, mkIn rest false false).
Proof.
  intros l. induction l as [|y l IH]; intros acc rest H; cbn [length map concat in_fresh_values app].
  - rewrite app_nil_r. reflexivity.
  - inversion H; subst. rewrite <- app_assoc. rewrite in_read4_app by auto. cbn [oget bind].
    rewrite IH by auto. rewrite <- app_assoc. reflexivity.
Qed.

(** * Rle is defined *)

Lemma rle_loop_ok : forall v x r acc, increasing (x :: v) -> below (2 ^ 48) (x :: v) ->
  (0 < r)%N -> (r + N.of_nat (length v) <= 2 ^ 48)%N -> exists z, rle_loop v x r acc = Ok z.
Proof.
  induction v as [|y v IH]; intros x r acc Hs Hb Hr Hl; cbn [rle_loop].
  - eexists; reflexivity.
  - inversion Hs as [|? ? Hs' Hx]; subst. inversion Hx; subst. inversion Hb as [|? ? B0 Hb']; subst.
    inversion Hb'; subst. cbn [length] in Hl. rewrite Nat2N.inj_succ in Hl.
    assert (D : sub64 y x = (y - x)%N).
    { apply sub64_ge. assert (2 ^ 48 < 2 ^ 64)%N by reflexivity. lia. }
    rewrite D. destruct (N.eqb_spec (y - x) 1) as [E|E].
    + apply IH; auto; lia.
    + assert (P : (2 ^ 48 < 2 ^ 64)%N) by reflexivity.
      rewrite (sub64_ge (y - x) 1) by lia. rewrite (sub64_ge (y - x - 1) 1) by lia.
      rewrite (sub64_ge r 1) by lia.
      rewrite floor_log2_ok by (apply nz_pos; lia). cbn [bind].
      rewrite floor_log2_ok by (apply nz_pos; lia). cbn [bind].
      apply IH; auto; lia.
Qed.

Lemma rle_ok : forall v, v <> [] -> increasing v -> below (2 ^ 32) v -> shorter 30 v -> exists z, Rle v = Ok z.
Proof.
  intros [|x v] N0 Hs Hb Hl; [congruence|]. unfold Rle.
  assert (B : below (2 ^ 48) (x :: v)).
  { eapply Forall_impl; [|exact Hb]. cbn. intros a K. eapply N.lt_trans; [exact K|reflexivity]. }
  unfold shorter in Hl. assert (P : (2 ^ 30 + 2 < 2 ^ 48)%N) by reflexivity.
  destruct (N.eqb_spec x 0) as [->|E].
  - apply rle_loop_ok; auto. cbn [length] in Hl. rewrite Nat2N.inj_succ in Hl. lia.
  - apply rle_loop_ok; try lia.
    + constructor; auto. apply Forall_forall. intros y I. destruct I as [<-|I]; [lia|].
      inversion Hs as [|? ? ? Hx]; subst. rewrite Forall_forall in Hx. apply Hx in I. lia.
    + constructor; [reflexivity|auto].
Qed.

(** * One list *)

Lemma delta_first : forall u first, floor_log2 (list_delta u first 0) = Ok 31%N.
Proof. reflexivity. Qed.

Lemma delta_next : forall u first last, (0 < last < u)%N -> (first < u)%N -> (u < 2 ^ 32)%N ->
  exists d, floor_log2 (list_delta u first last) = Ok d /\
    (d + 1 = width ((u - last + first - 1) mod 2 ^ 32))%N.
Proof.
  intros u first last H1 H2 H3. unfold list_delta.
  assert (Z : (last =? 0)%N = false) by (apply N.eqb_neq; lia). rewrite Z.
  assert (P : (2 ^ 32 + 2 ^ 32 < 2 ^ 64)%N) by reflexivity.
  rewrite (sub64_ge u last) by lia. rewrite (N.mod_small (u - last + first) (2 ^ 64)) by lia.
  rewrite (sub64_ge (u - last + first) 1) by lia.
  set (g := ((u - last + first - 1) mod 2 ^ 32)%N).
  assert (G : (g < 2 ^ 32)%N) by (apply N.mod_lt; discriminate).
  assert (Q : (2 ^ 32 < 2 ^ 48)%N) by reflexivity.
  exists (N.log2 (if N.eqb g 0 then 1 else g)%N). split; [|symmetry; apply width_log2].
  replace (if (g <=? 0)%N then 1%N else g) with (if N.eqb g 0 then 1%N else g).
  - apply floor_log2_ok. apply nz_pos. lia.
  - destruct (N.eqb_spec g 0), (N.leb_spec g 0); auto; lia.
Qed.

(** What is added for the start of each list, when [last] is the end of the previous
    one. *)
Fixpoint charged (u last : N) (lists : list (list N)) : N :=
  match lists with
  | [] => 0%N
  | l :: lists' =>
    ((if N.eqb last 0 then 32 else width ((u - last + hd 0 l - 1) mod 2 ^ 32))
     + charged u (List.last l 0%N) lists')%N
  end.

Lemma charged_joint : forall u l lists, charged u 0 (l :: lists) = (32 + joint_charges u (l :: lists))%N.
Proof.
  intros u l lists. cbn [charged]. change (0 =? 0)%N with true. f_equal.
  revert l. induction lists as [|l' lists IH]; intros l; auto.
  cbn [charged joint_charges]. rewrite IH. reflexivity.
Qed.

Lemma vget_last : forall (l : list N), l <> [] -> vget l (length l - 1) = Ok (last l 0%N).
Proof.
  intros l N0. destruct (exists_last N0) as (l' & x & ->). rewrite last_last, app_length.
  cbn [length]. unfold vget. rewrite nth_error_app2 by lia.
  replace (length l' + 1 - 1 - length l') with 0 by lia. reflexivity.
Qed.

Lemma vget_first : forall (l : list N), l <> [] -> vget l 0 = Ok (hd 0%N l).
Proof. intros [|x l] H; [congruence|reflexivity]. Qed.

Definition list_ok (u : N) (l : list N) : Prop := increasing l /\ below u l.

Lemma measures_end : forall f m u last acc, 0 < f ->
  measures_loop f m u last (mkIn [] false false) acc = Ok acc.
Proof. intros [|f] m u last acc H; [lia|reflexivity]. Qed.

Lemma mk_measured : forall a b c d e f a' b' c' d' e' f',
  a = a' -> b = b' -> c = c' -> d = d' -> e = e' -> f = f' ->
  mkMeasured a b c d e f = mkMeasured a' b' c' d' e' f'.
Proof. intros. congruence. Qed.

Lemma measures_loop_spec : forall m u lists f last acc,
  (3 <= u < 2 ^ 32)%N -> (last < u)%N -> lists_fit lists ->
  Forall (list_ok u) (long_lists m lists) -> length lists < f ->
  let K := long_lists m lists in
  exists rs ts trs, Forall2 (fun l r => Rle l = Ok r) K rs /\
    Forall2 (prefix_total prefix_of_member u) K ts /\
    Forall2 (prefix_total prefix_outside_runs u) K trs /\
    measures_loop f m (Some u) last (mkIn (concat (map list_bytes lists)) false false) acc
    = Ok (mkMeasured (m_ints acc + total_length K) (m_sets acc + N.of_nat (length K))
            (m_gap acc + gap_bits K + charged u last K) (m_rle acc + sumN rs)
            (m_trie acc + N.of_nat (list_sum ts)) (m_trie_run acc + N.of_nat (list_sum trs))).
Proof.
  intros m u lists. induction lists as [|l lists IH]; intros f last acc Hu Hlast (Hs & Hb) Hk L K.
  - exists [], [], []. split; [constructor|]. split; [constructor|]. split; [constructor|].
    cbn [map concat]. rewrite measures_end by (cbn in L; lia). f_equal.
    destruct acc as [a1 a2 a3 a4 a5 a6].
    apply mk_measured; cbn; lia.
  - inversion Hs as [|? ? Sh Hs']; subst. inversion Hb as [|? ? Bl Hb']; subst.
    cbn [length] in L. destruct f as [|f]; [lia|].
    cbn [map concat]. cbn [measures_loop]. unfold list_bytes at 1. rewrite <- app_assoc.
    rewrite in_read4_app by (apply shorter_len; auto). cbn [in_eof oget bind].
    subst K. rewrite long_cons in *.
    destruct (N.ltb_spec m (N.of_nat (length l))) as [C|C].
    + inversion Hk as [|? ? (Hi & Hbu) Hk']; subst. assert (N0 : l <> []) by (eapply long_ne; eauto).
      rewrite Nat2N.id, fresh_values_app by auto. cbn [bind app].
      rewrite vget_first, vget_last by auto. cbn [bind].
      assert (B48 : below (2 ^ 48) l).
      { eapply Forall_impl; [|exact Bl]. cbn. intros a Ka. eapply N.lt_trans; [exact Ka|reflexivity]. }
      rewrite gap_spec by auto. cbn [bind].
      assert (Hhd : (hd 0 l < u)%N) by (destruct Hbu; [congruence|auto]).
      assert (Hd : exists d, floor_log2 (list_delta u (hd 0%N l) last) = Ok d /\
        (d + 1 = if N.eqb last 0 then 32 else width ((u - last + hd 0 l - 1) mod 2 ^ 32))%N).
      { destruct (N.eqb_spec last 0) as [->|Z].
        - exists 31%N. split; [apply delta_first|reflexivity].
        - apply delta_next; lia. }
      destruct Hd as (d & Ed & Hd). rewrite Ed. cbn [bind].
      destruct (rle_ok l) as (r & Er); auto. rewrite Er. cbn [bind].
      assert (Hl : (last < u)%N) by auto.
      assert (Hlu : (List.last l 0 < u)%N).
      { unfold below in Hbu. rewrite Forall_forall in Hbu. apply Hbu. apply last_In; auto. }
      destruct (trie_measure_spec u l) as ((n1 & E1 & F1) & (n2 & E2 & F2)); auto.
      { split; [lia|]. eapply N.lt_le_incl, N.lt_trans; [apply Hu|reflexivity]. }
      { unfold shorter in *. eapply N.lt_trans; [exact Sh|reflexivity]. }
      rewrite E1. cbn [bind]. rewrite E2. cbn [bind].
      destruct (IH f (List.last l 0%N)
        (mkMeasured (m_ints acc + N.of_nat (length l)) (m_sets acc + 1)
           (m_gap acc + sumN (map width (gaps l)) + (d + 1)) (m_rle acc + r)
           (m_trie acc + N.of_nat (list_sum n1)) (m_trie_run acc + N.of_nat (list_sum n2))))
        as (rs & ts & trs & G1 & G2 & G3 & E); auto; [split; auto|lia|].
      exists (r :: rs), (list_sum n1 :: ts), (list_sum n2 :: trs).
      split; [constructor; auto|]. split; [constructor; auto; exists n1; auto|].
      split; [constructor; auto; exists n2; auto|].
      rewrite E. f_equal. cbn [m_ints m_sets m_gap m_rle m_trie m_trie_run].
      apply mk_measured.
      * unfold total_length. cbn [map]. rewrite sumN_cons. lia.
      * cbn [length]. lia.
      * unfold gap_bits. cbn [map charged]. rewrite sumN_cons. rewrite Hd. lia.
      * rewrite sumN_cons. lia.
      * cbn [list_sum fold_right]. unfold list_sum. lia.
      * cbn [list_sum fold_right]. unfold list_sum. lia.
    + unfold in_skip. cbn [in_fail in_bytes]. rewrite seek_list_app by auto.
      apply IH; auto; [split; auto|lia].
Qed.

Theorem measures_spec : forall m one u lists f,
  collection_ok one u lists -> (3 <= u)%N ->
  Forall (fun l => increasing l /\ below u l) (long_lists m lists) -> length lists < f ->
  let K := long_lists m lists in
  exists rs ts trs, Forall2 (fun l r => Rle l = Ok r) K rs /\
    Forall2 (prefix_total prefix_of_member u) K ts /\
    Forall2 (prefix_total prefix_outside_runs u) K trs /\
    measures f m (Some (collection_file one u lists))
    = Ok (mkMeasured (total_length K) (N.of_nat (length K))
            (gap_bits K + (if length K =? 0 then 0 else 32 + joint_charges u K)) (sumN rs)
            (N.of_nat (list_sum ts)) (N.of_nat (list_sum trs))).
Proof.
  intros m one u lists f H Hu Hk L K. assert (F := ok_fit _ _ _ H). destruct H as (H1 & H2 & _).
  destruct (measures_loop_spec m u lists f 0%N (mkMeasured 0 0 0 0 0 0)) as (rs & ts & trs & G1 & G2 & G3 & E);
    auto; try lia.
  exists rs, ts, trs. split; auto. split; auto. split; auto.
  unfold measures, collection_file, in_open. rewrite in_read4_app by auto. rewrite in_read4_app by auto.
  cbn [oget bind]. rewrite E. f_equal. cbn [m_ints m_sets m_gap m_rle m_trie m_trie_run].
  fold K. rewrite !N.add_0_l. apply mk_measured; auto. destruct K as [|l K']; [reflexivity|].
  rewrite charged_joint. cbn [length Nat.eqb]. lia.
Qed.

(** The charges are the intended costs when no counted list but the last ends in 0. *)
Lemma charges_costs : forall u lists, Forall (fun l => last l 0%N <> 0%N) (removelast lists) ->
  joint_charges u lists = joint_costs u lists.
Proof.
  intros u lists. induction lists as [|l lists IH]; intros H; auto. destruct lists as [|l' lists]; auto.
  cbn [joint_charges joint_costs]. change (removelast (l :: l' :: lists)) with (l :: removelast (l' :: lists)) in H.
  inversion H; subst. destruct (N.eqb_spec (last l 0%N) 0); [congruence|]. f_equal. apply IH. auto.
Qed.

Theorem measures_missing : forall m f, measures f m None = UB Indeterminate.
Proof. reflexivity. Qed.

Lemma measures_more : forall m u f f' last i acc r, f <= f' ->
  measures_loop f m u last i acc = Ok r -> measures_loop f' m u last i acc = Ok r.
Proof.
  intros m u. induction f as [|f IH]; intros f' last i acc r L E; [discriminate|].
  destruct f' as [|f']; [lia|]. cbn [measures_loop] in *.
  destruct (in_read4 None i) as (n & i1). destruct (in_eof i1); auto.
  destruct (oget n) as [nv|e|]; cbn [bind] in *; try discriminate.
  destruct (m <? nv)%N.
  - repeat match type of E with
    | bind (A := _ * _) ?x _ = Ok _ => destruct x as [(? & ?)|?|]; cbn [bind] in *; try discriminate
    | bind ?x _ = Ok _ => destruct x as [?|?|]; cbn [bind] in *; try discriminate
    end.
    eapply IH; [|exact E]. lia.
  - eapply IH; [|exact E]. lia.
Qed.

Theorem measures_gap_wrong : forall m one u lists f r,
  collection_ok one u lists -> (3 <= u)%N ->
  Forall (fun l => increasing l /\ below u l) (long_lists m lists) -> long_lists m lists <> [] ->
  Forall (fun l => last l 0%N <> 0%N) (long_lists m lists) ->
  measures f m (Some (collection_file one u lists)) = Ok r ->
  m_gap r <> (gap_bits (long_lists m lists) + joint_costs u (long_lists m lists))%N.
Proof.
  intros m one u lists f r H Hu Hk N0 Hz E.
  destruct (measures_spec m one u lists (f + S (length lists))) as (rs & ts & trs & _ & _ & _ & E'); auto; [lia|].
  assert (E2 : measures (f + S (length lists)) m (Some (collection_file one u lists)) = Ok r).
  { unfold measures in *. destruct H as (H1 & H2 & _). unfold collection_file, in_open in *.
    rewrite in_read4_app in * by auto. rewrite in_read4_app in * by auto. cbn [oget bind] in *.
    eapply measures_more; [|exact E]. lia. }
  assert (Q : forall a b : measured, Ok a = Ok b -> m_gap a = m_gap b) by (intros; congruence).
  rewrite E2 in E'. apply Q in E'. cbn [m_gap] in E'. rewrite E'.
  rewrite charges_costs.
  - destruct (long_lists m lists); [congruence|]. cbn [length Nat.eqb]. lia.
  - clear - Hz. rewrite Forall_forall in *. intros l I. apply Hz.
    destruct (long_lists m lists) as [|x k] eqn:K; [destruct I|].
    rewrite (app_removelast_last [] (l := x :: k)) by discriminate. apply in_or_app. auto.
Qed.

Example measures_example :
  let lists := [[1; 2; 9]; [4]; [3; 12]]%N in
  collection_ok 1 16 lists /\
  Forall (fun l => increasing l /\ below 16 l) (long_lists 1 lists) /\
  long_lists 1 lists = [[1; 2; 9]; [3; 12]]%N /\
  (gap_bits [[1; 2; 9]; [3; 12]] = 5 + 6 /\ joint_costs 16 [[1; 2; 9]; [3; 12]] = 4)%N /\
  measures 4 1 (Some (collection_file 1 16 lists))
  = Ok (mkMeasured 5 2 (11 + 32 + 4) (5 + 6) (10 + 8) (10 + 8)).
Proof.
  cbv zeta. split; [repeat constructor|]. split; [repeat constructor|]. split; [reflexivity|].
  split; [split; reflexivity|]. vm_compute. reflexivity.
Qed.

Example coders_example :
  let lists := [[5; 7; 12]; [1; 2]]%N in
  let size := fun l : list N => N.of_nat (length l) in
  collection_ok 1 16 lists /\
  long_lists 0 lists ++ [last_repeated [1; 2]%N] = [[5; 7; 12]; [1; 2]; [2; 2]]%N /\
  classic_coders 9 size size size 0 (Some (collection_file 1 16 lists)) = Ok (mkTotals 7 3 [7; 7; 7])%N /\
  pom 9 size size size 0 (Some (collection_file 1 16 lists)) = Ok (mkTotals 7 3 [7; 7; 7; 15 + 4 + 6])%N /\
  classic_coders 900 size size size 2 (Some (collection_file 1 16 lists)) = OutOfFuel.
Proof. cbv zeta. split; [repeat constructor|]. vm_compute. auto. Qed.

Example cbv_example :
  let ones := fun v : list bool => N.of_nat (count_true v) in
  collection_ok 1 16 [[5; 7; 12]; [1]; [1; 2; 3]]%N /\
  cbv_coding 9 ones 1 (Some (collection_file 1 16 [[5; 7; 12]; [1]; [1; 2; 3]]%N)) = Ok (mkTotals 3 1 [0; 0; 3])%N /\
  cbv_coding 9 ones 0 (Some (collection_file 1 16 [[5; 7; 12]; [1; 2; 3]]%N)) = Ok (mkTotals 9 3 [0; 0; 3 + 3 + 1])%N.
Proof. cbv zeta. split; [repeat constructor|]. vm_compute. auto. Qed.
