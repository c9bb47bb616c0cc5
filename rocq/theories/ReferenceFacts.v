(** Proofs about the reference intersections. *)

From Coq Require Import Permutation Sorted.
From Verif Require Import Base Facts Spec Reference.

(** ** std::set_intersection *)

Lemma set_intersection_eq : forall a b,
  set_intersection a b =
  match a, b with
  | [], _ => []
  | _, [] => []
  | x :: a', y :: b' =>
    if N.ltb x y then set_intersection a' b
    else if N.ltb y x then set_intersection a b'
    else x :: set_intersection a' b'
  end.
Proof. intros [|x a] [|y b]; reflexivity. Qed.

Lemma incr_head : forall x l y, increasing (x :: l) -> In y l -> (x < y)%N.
Proof. intros x l y H Hy. inversion H; subst. rewrite Forall_forall in H3. auto. Qed.

Lemma incr_tail : forall x l, increasing (x :: l) -> increasing l.
Proof. intros x l H. inversion H; auto. Qed.

Lemma set_intersection_in : forall a b, increasing a -> increasing b ->
  forall z, In z (set_intersection a b) <-> In z a /\ In z b.
Proof.
  induction a as [|x a IH]; intros b Ha Hb z; [cbn; tauto|].
  induction b as [|y b IHb]; [cbn; tauto|].
  rewrite set_intersection_eq.
  destruct (N.ltb_spec x y).
  - rewrite IH; eauto using incr_tail. split; intros [H1 H2]; split; auto; [right; auto|].
    destruct H1 as [<-|H1]; auto. exfalso. destruct H2 as [<-|H2]; [lia|].
    pose proof (incr_head _ _ _ Hb H2). lia.
  - destruct (N.ltb_spec y x).
    + rewrite IHb by eauto using incr_tail. split; intros [H1 H2]; split; auto; [right; auto|].
      destruct H2 as [<-|H2]; auto. exfalso. destruct H1 as [<-|H1]; [lia|].
      pose proof (incr_head _ _ _ Ha H1). lia.
    + assert (x = y) by lia. subst y. cbn [In]. rewrite IH by eauto using incr_tail.
      split; [tauto|]. intros [[<-|H1] [H2|H2]]; auto.
Qed.

Lemma set_intersection_incr : forall a b, increasing a -> increasing b ->
  increasing (set_intersection a b).
Proof.
  induction a as [|x a IH]; intros b Ha Hb; [constructor|].
  induction b as [|y b IHb]; [constructor|].
  rewrite set_intersection_eq.
  destruct (N.ltb x y); [apply IH; eauto using incr_tail|].
  destruct (N.ltb y x); [apply IHb; eauto using incr_tail|].
  constructor; [apply IH; eauto using incr_tail|].
  apply Forall_forall. intros z Hz.
  apply set_intersection_in in Hz; eauto using incr_tail. destruct Hz as [Hz _].
  eapply incr_head; eauto.
Qed.

Lemma fold_intersection : forall l a, increasing a -> Forall increasing l ->
  increasing (fold_left set_intersection l a) /\
  forall x, In x (fold_left set_intersection l a) <-> In x a /\ Forall (fun s => In x s) l.
Proof.
  induction l as [|b l IH]; intros a Ha Hl; cbn.
  - split; auto. intros x; split; [auto|tauto].
  - inversion Hl; subst.
    destruct (IH (set_intersection a b)) as [I1 I2]; auto using set_intersection_incr.
    split; auto. intros x. rewrite I2, set_intersection_in by auto.
    rewrite Forall_cons_iff. tauto.
Qed.

Lemma force_brute_ok : forall sort S, valid_sort sort ->
  S <> [] -> (N.of_nat (length S) < 65536)%N -> Forall increasing S ->
  exists r S', forceBruteIntersection sort S = Ok (r, S') /\
    is_intersection S r /\ Permutation S S'.
Proof.
  intros sort S V NE LT Inc. destruct (V S) as [P _].
  unfold forceBruteIntersection.
  assert (Inc' : Forall increasing (sort S)).
  { rewrite Forall_forall in *. intros s Hs. apply Inc.
    eapply Permutation_in; [apply Permutation_sym|]; eauto. }
  pose proof (Permutation_length P) as PL.
  destruct (sort S) as [|a l] eqn:E.
  { apply Permutation_sym, Permutation_nil in P. contradiction. }
  cbn [vget nth_error bind tl]. rewrite <- PL.
  destruct (N.leb_spec 65536 (N.of_nat (length S))); [lia|].
  exists (fold_left set_intersection l a), (a :: l).
  split; [reflexivity|]. split; auto. inversion Inc'; subst.
  destruct (fold_intersection l a) as [I1 I2]; auto. split; auto.
  intros x. rewrite I2. rewrite <- (Forall_cons_iff (fun s => In x s)).
  rewrite !Forall_forall. split; intros HF s Hs; apply HF.
  - eapply Permutation_in; eauto.
  - eapply Permutation_in; [apply Permutation_sym|]; eauto.
Qed.

(** ** A size-sorted order exists *)

Fixpoint insert_by_size (a : list N) (l : list (list N)) : list (list N) :=
  match l with
  | [] => [a]
  | b :: l' => if length a <=? length b then a :: l else b :: insert_by_size a l'
  end.

Definition size_sort (l : list (list N)) : list (list N) := fold_right insert_by_size [] l.

Lemma insert_perm : forall a l, Permutation (a :: l) (insert_by_size a l).
Proof.
  induction l as [|b l IH]; cbn; auto.
  destruct (length a <=? length b); auto.
  eapply perm_trans; [apply perm_swap|]. auto.
Qed.

Lemma insert_sorted : forall a l,
  StronglySorted (fun a b : list N => length a <= length b) l ->
  StronglySorted (fun a b : list N => length a <= length b) (insert_by_size a l).
Proof.
  intros a l H. induction H as [|b l Hl IH Hb]; cbn; [repeat constructor|].
  destruct (Nat.leb_spec (length a) (length b)).
  - constructor; [constructor; auto|]. constructor; auto.
    rewrite Forall_forall in *. intros c Hc. specialize (Hb c Hc). lia.
  - constructor; auto. rewrite Forall_forall in *. intros c Hc.
    eapply Permutation_in in Hc; [|apply Permutation_sym, insert_perm].
    destruct Hc as [<-|Hc]; auto. lia.
Qed.

Lemma size_sort_valid : valid_sort size_sort.
Proof.
  intros S. induction S as [|a l [IP IS]]; cbn.
  - split; auto. constructor.
  - split; [|apply insert_sorted; auto].
    eapply perm_trans; [apply perm_skip, IP|]. apply insert_perm.
Qed.

(** ** Barbay-Kenyon returns only common values *)

Lemma vgetN_in : forall (l : list N) i v, vgetN l i = Ok v -> In v l.
Proof.
  unfold vgetN. intros l i v H. destruct (N.ltb i _); [|discriminate].
  apply vget_inv in H. eapply nth_error_In; eauto.
Qed.

(** The value is in the [occr] sets before set [i], cyclically. *)
Definition recent (sets : list (list N)) (i occr : nat) (e : N) : Prop :=
  forall j, 1 <= j <= occr -> exists s,
    nth_error sets ((i + length sets - j) mod length sets) = Some s /\ In e s.

Lemma recent_one : forall sets i s e, i < length sets ->
  nth_error sets i = Some s -> In e s ->
  recent sets ((i + 1) mod length sets) 1 e.
Proof.
  intros sets i s e Hi Hs He j Hj. assert (j = 1) by lia. subst j. exists s.
  split; auto. rewrite <- Hs. f_equal.
  destruct (Nat.eq_dec (i + 1) (length sets)) as [E|E].
  - rewrite E, Nat.mod_same by lia. rewrite Nat.mod_small by lia. lia.
  - rewrite (Nat.mod_small (i + 1)) by lia.
    replace (i + 1 + length sets - 1) with (i + 1 * length sets) by lia.
    rewrite Nat.mod_add by lia. apply Nat.mod_small; lia.
Qed.

Lemma recent_step : forall sets i s occr e, i < length sets -> occr < length sets ->
  recent sets i occr e -> nth_error sets i = Some s -> In e s ->
  recent sets ((i + 1) mod length sets) (S occr) e.
Proof.
  intros sets i s occr e Hi Ho R Hs He j Hj.
  destruct (Nat.eq_dec j 1) as [->|Nj].
  - eapply recent_one; eauto.
  - destruct (R (j - 1)) as (t & Ht & Hin); [lia|]. exists t. split; auto.
    rewrite <- Ht. f_equal.
    destruct (Nat.eq_dec (i + 1) (length sets)) as [E|E].
    + rewrite E, Nat.mod_same by lia.
      replace (i + length sets - (j - 1)) with (0 + length sets - j + 1 * length sets) by lia.
      rewrite Nat.mod_add by lia. reflexivity.
    + rewrite (Nat.mod_small (i + 1)) by lia. f_equal. lia.
Qed.

Lemma recent_all : forall sets i e, i < length sets -> recent sets i (length sets) e ->
  Forall (fun s => In e s) sets.
Proof.
  intros sets i e Hi R. apply Forall_forall. intros s Hs.
  apply In_nth_error in Hs. destruct Hs as [m Hm].
  assert (m < length sets) by (apply nth_error_Some; congruence).
  assert (exists j, 1 <= j <= length sets /\ (i + length sets - j) mod length sets = m)
    as (j & Hj & Ej).
  { destruct (Nat.lt_ge_cases m i).
    - exists (i - m). split; [lia|].
      replace (i + length sets - (i - m)) with (m + 1 * length sets) by lia.
      rewrite Nat.mod_add by lia. apply Nat.mod_small; lia.
    - exists (i + length sets - m). split; [lia|].
      replace (i + length sets - (i + length sets - m)) with m by lia.
      apply Nat.mod_small; lia. }
  destruct (R j Hj) as (t & Ht & Hin). rewrite Ej in Ht. congruence.
Qed.

Lemma bk_loop_sound : forall fuel sets positions e i occr out r,
  2 <= length sets -> i < length sets -> occr < length sets -> recent sets i occr e ->
  bk_loop fuel sets (length sets) positions e i occr out = Ok r ->
  exists new, r = out ++ new /\ forall x, In x new -> Forall (fun s => In x s) sets.
Proof.
  induction fuel as [|fuel IH]; intros sets positions e i occr out r K Hi Ho R H.
  { cbn [bk_loop] in H. destruct (N.eqb e (2 ^ 64 - 1)); inversion H; subst.
    exists []. rewrite app_nil_r. split; auto. intros x []. }
  cbn [bk_loop] in H. destruct (N.eqb e (2 ^ 64 - 1)).
  { inversion H; subst. exists []. rewrite app_nil_r. split; auto. intros x []. }
  apply bind_inv in H. destruct H as (s & Hs & H). apply vget_inv in Hs.
  apply bind_inv in H. destruct H as (p & _ & H).
  apply bind_inv in H. destruct H as (pos & _ & H).
  apply bind_inv in H. destruct H as (v & Hv & H). apply vgetN_in in Hv.
  assert (Hm : (i + 1) mod length sets < length sets) by (apply Nat.mod_upper_bound; lia).
  destruct (N.eqb_spec v e) as [->|NE].
  - apply bind_inv in H. destruct H as (positions' & _ & H).
    pose proof (recent_step _ _ _ _ _ Hi Ho R Hs Hv) as R'.
    destruct (Nat.eqb_spec (S occr) (length sets)) as [Ek|Ek]; cbn [andb orb negb] in H.
    + assert (C : Forall (fun s => In e s) sets) by (rewrite Ek in R'; eapply recent_all; eauto).
      apply bind_inv in H. destruct H as (p' & _ & H).
      destruct (N.eqb (p' + 1) (N.of_nat (length s))).
      { inversion H; subst. exists [e]. split; auto. intros x [<-|[]]; auto. }
      apply bind_inv in H. destruct H as (e' & He' & H). apply vgetN_in in He'.
      apply bind_inv in H. destruct H as (positions'' & _ & H).
      apply IH in H; auto; [|eapply recent_one; eauto].
      destruct H as (new & -> & Hn). exists (e :: new). rewrite <- app_assoc. split; auto.
      intros x [<-|Hx]; auto.
    + apply IH in H; auto. lia.
  - cbn [bind andb orb negb] in H.
    destruct (Nat.eqb_spec occr (length sets)); [lia|]. cbn [andb orb negb] in H.
    apply bind_inv in H. destruct H as (p' & _ & H).
    destruct (N.eqb (p' + 1) (N.of_nat (length s))).
    { inversion H; subst. exists []. rewrite app_nil_r. split; auto. intros x []. }
    apply bind_inv in H. destruct H as (positions'' & _ & H).
    apply IH in H; auto. eapply recent_one; eauto.
Qed.

Lemma bk_sound : forall fuel sets out r, 2 <= length sets ->
  barbayKenyon fuel sets (length sets) out = Ok r ->
  exists new, r = out ++ new /\ forall x, In x new -> Forall (fun s => In x s) sets.
Proof.
  intros fuel sets out r K H. unfold barbayKenyon in H.
  destruct (Nat.eqb_spec (length sets) 0); [lia|].
  apply bind_inv in H. destruct H as (s0 & Hs & H). apply vget_inv in Hs.
  apply bind_inv in H. destruct H as (e & He & H). apply vget_inv in He.
  apply bind_inv in H. destruct H as (s1 & _ & H).
  apply bk_loop_sound in H; auto; try lia.
  replace 1 with ((0 + 1) mod length sets) at 1 by (rewrite Nat.mod_small; lia).
  eapply recent_one; eauto; [lia|]. eapply nth_error_In; eauto.
Qed.

(** ** The searches find the first value not below [x] *)

Definition at_ (l : list N) (i : N) : N := nth (N.to_nat i) l 0%N.

Lemma vgetN_at : forall l i, (i < N.of_nat (length l))%N -> vgetN l i = Ok (at_ l i).
Proof.
  intros l i H. unfold vgetN, at_. destruct (N.ltb_spec i (N.of_nat (length l))); [|lia].
  apply vget_nth. apply nth_error_nth'. lia.
Qed.

Lemma vgetN_at_inv : forall l i v, vgetN l i = Ok v -> (i < N.of_nat (length l))%N /\ v = at_ l i.
Proof.
  intros l i v H. destruct (N.lt_ge_cases i (N.of_nat (length l))) as [L|L].
  - rewrite vgetN_at in H by auto. inversion H. auto.
  - unfold vgetN in H. destruct (N.ltb_spec i (N.of_nat (length l))); [lia|discriminate].
Qed.

Lemma nth_mono : forall l i j, increasing l -> i < j < length l -> (nth i l 0 < nth j l 0)%N.
Proof.
  induction l as [|x l IH]; intros i j H L; cbn in L; [lia|].
  destruct j as [|j]; [lia|]. destruct i as [|i]; cbn.
  - eapply incr_head; eauto. apply nth_In. lia.
  - apply IH; eauto using incr_tail. lia.
Qed.

Lemma at_mono : forall l i j, increasing l -> (i < j)%N -> (j < N.of_nat (length l))%N ->
  (at_ l i < at_ l j)%N.
Proof. intros l i j H L1 L2. apply nth_mono; auto. lia. Qed.

Lemma at_mono_le : forall l i j, increasing l -> (i <= j)%N -> (j < N.of_nat (length l))%N ->
  (at_ l i <= at_ l j)%N.
Proof.
  intros l i j H L1 L2. destruct (N.eq_dec i j) as [->|]; [lia|].
  apply N.lt_le_incl, at_mono; auto. lia.
Qed.

Lemma at_in : forall l i, (i < N.of_nat (length l))%N -> In (at_ l i) l.
Proof. intros l i H. apply nth_In. lia. Qed.

Lemma in_at : forall l x, In x l -> exists i, (i < N.of_nat (length l))%N /\ at_ l i = x.
Proof.
  intros l x H. apply (In_nth _ _ 0%N) in H. destruct H as (n & Hn & E).
  exists (N.of_nat n). split; [lia|]. unfold at_. rewrite Nat2N.id. auto.
Qed.

Lemma last_at : forall l, last l 0%N = at_ l (N.of_nat (length l) - 1).
Proof.
  intros l. unfold at_. replace (N.to_nat (N.of_nat (length l) - 1)) with (length l - 1) by lia.
  induction l as [|x [|y l] IH]; auto.
  change (last (x :: y :: l) 0%N) with (last (y :: l) 0%N). rewrite IH.
  cbn [length]. replace (S (S (length l)) - 1) with (S (S (length l) - 1)) by lia. reflexivity.
Qed.

(** [pos] is the index of the first value of [l] that is at least [x]. *)
Definition first_at_least (l : list N) (x pos : N) : Prop :=
  (pos < N.of_nat (length l))%N /\ (x <= at_ l pos)%N /\
  forall j, (j < pos)%N -> (at_ l j < x)%N.

Lemma half_le : forall a, (a / 2 <= a)%N.
Proof. intros a. apply N.div_le_upper_bound; lia. Qed.

Lemma bs_loop_spec : forall fuel arr lo0 low high x,
  increasing arr -> (N.of_nat (length arr) < 2 ^ 31)%N ->
  (at_ arr lo0 <= x)%N ->
  (lo0 <= low)%N -> (lo0 <= high)%N -> (high < N.of_nat (length arr))%N ->
  (low <= high + 1)%N -> (N.to_nat (high + 1 - low) <= fuel) ->
  (forall j, (j < low)%N -> (at_ arr j < x)%N) ->
  (forall j, (high < j)%N -> (j < N.of_nat (length arr))%N -> (x < at_ arr j)%N) ->
  (exists m, bs_loop fuel arr low high x = Ok (inl m) /\
             (m < N.of_nat (length arr))%N /\ at_ arr m = x) \/
  (exists h, bs_loop fuel arr low high x = Ok (inr (h + 1, h)%N) /\
             (h < N.of_nat (length arr))%N /\
             (forall j, (j < h + 1)%N -> (at_ arr j < x)%N) /\
             (forall j, (h < j)%N -> (j < N.of_nat (length arr))%N -> (x < at_ arr j)%N)).
Proof.
  change (2 ^ 31)%N with 2147483648%N.
  induction fuel as [|fuel IH]; intros arr lo0 low high x Inc Len Hlo L1 L2 L3 L4 Hf Below Above.
  - cbn [bs_loop]. destruct (N.leb_spec low high); [lia|].
    right. exists high. replace low with (high + 1)%N in * by lia. auto.
  - cbn [bs_loop]. destruct (N.leb_spec low high) as [Lh|Lh].
    2:{ right. exists high. replace low with (high + 1)%N in * by lia. auto. }
    pose proof (half_le (high - low)) as HH.
    set (mid := (low + (high - low) / 2)%N) in *.
    assert (Hm : (low <= mid <= high)%N) by (unfold mid; lia).
    clearbody mid. clear HH.
    change (2 ^ 31 - 1)%N with 2147483647%N.
    destruct (N.leb_spec 2147483647 mid); [lia|].
    rewrite vgetN_at by lia. cbn [bind].
    destruct (N.eqb_spec (at_ arr mid) x) as [E|E].
    + left. exists mid. repeat split; auto; lia.
    + destruct (N.ltb_spec (at_ arr mid) x) as [Lx|Lx].
      * apply (IH arr lo0); auto; try lia.
        intros j Hj. pose proof (at_mono_le arr j mid Inc ltac:(lia) ltac:(lia)). lia.
      * assert (mid <> lo0) by (intros ->; lia).
        destruct (N.eqb_spec mid 0); [lia|].
        apply (IH arr lo0); auto; try lia.
        intros j Hj1 Hj2. pose proof (at_mono_le arr mid j Inc ltac:(lia) ltac:(lia)). lia.
Qed.

Lemma binarySearch_spec : forall arr lo hi x,
  increasing arr -> (N.of_nat (length arr) < 2 ^ 31)%N ->
  (lo <= hi)%N -> (hi < N.of_nat (length arr))%N ->
  (at_ arr lo <= x)%N ->
  (x <= at_ arr (N.of_nat (length arr) - 1))%N ->
  (forall j, (hi < j)%N -> (j < N.of_nat (length arr))%N -> (x < at_ arr j)%N) ->
  exists pos, binarySearch arr lo hi x (N.of_nat (length arr)) = Ok pos /\
              first_at_least arr x pos.
Proof.
  intros arr lo hi x Inc Len L1 L2 Hlo Hlast Above. unfold binarySearch.
  destruct (bs_loop_spec (S (length arr)) arr lo lo hi x) as [(m & E & Hm & Em)|(h & E & Hh & Hb & Ha)];
    auto; try lia.
  - intros j Hj. pose proof (at_mono arr j lo Inc Hj ltac:(lia)). lia.
  - rewrite E. cbn [bind]. exists m. split; auto. split; auto. split; [lia|].
    intros j Hj. pose proof (at_mono arr j m Inc Hj Hm). lia.
  - rewrite E. cbn [bind].
    assert (Hn : (h + 1 < N.of_nat (length arr))%N).
    { destruct (N.lt_ge_cases (h + 1) (N.of_nat (length arr))); auto. exfalso.
      pose proof (Hb (N.of_nat (length arr) - 1)%N ltac:(lia)). lia. }
    destruct (N.ltb_spec (N.of_nat (length arr) - 1) (h + 1)); [lia|].
    rewrite !vgetN_at by lia. cbn [bind].
    pose proof (at_mono arr h (h + 1) Inc ltac:(lia) Hn).
    destruct (N.ltb_spec (at_ arr (h + 1)) (at_ arr h)); [lia|].
    exists (h + 1)%N. split; auto. split; auto. split; auto.
    pose proof (Ha (h + 1)%N ltac:(lia) Hn). lia.
Qed.

Lemma es_loop_spec : forall fuel arr x i,
  increasing arr -> (1 <= i)%N ->
  (at_ arr (i / 2) <= x)%N -> (i / 2 < N.of_nat (length arr))%N ->
  N.to_nat (N.of_nat (length arr) - i) <= fuel ->
  exists i', es_loop fuel arr (N.of_nat (length arr)) x i = Ok i' /\
    (at_ arr (i' / 2) <= x)%N /\ (i' / 2 < N.of_nat (length arr))%N /\
    ((i' < N.of_nat (length arr))%N -> (x < at_ arr i')%N).
Proof.
  induction fuel as [|fuel IH]; intros arr x i Inc Hi Hx Hl Hf; cbn [es_loop].
  - destruct (N.ltb_spec i (N.of_nat (length arr))); [lia|].
    exists i. repeat split; auto. lia.
  - destruct (N.ltb_spec i (N.of_nat (length arr))) as [L|L].
    2:{ exists i. repeat split; auto. lia. }
    rewrite vgetN_at by auto. cbn [bind].
    destruct (N.leb_spec (at_ arr i) x) as [Lx|Lx].
    + apply IH; auto; rewrite ?N.div_mul by discriminate; auto; lia.
    + exists i. repeat split; auto.
Qed.

Lemma exponentialSearch_spec : forall arr x p,
  increasing arr -> (N.of_nat (length arr) < 2 ^ 31)%N ->
  (p < N.of_nat (length arr))%N -> (at_ arr p <= x)%N ->
  (x <= at_ arr (N.of_nat (length arr) - 1))%N ->
  exists pos, exponentialSearch arr (N.of_nat (length arr)) x p = Ok pos /\
              first_at_least arr x pos.
Proof.
  intros arr x p Inc Len Hp Hx Hlast. unfold exponentialSearch.
  rewrite vgetN_at by auto. cbn [bind].
  destruct (N.eqb_spec (at_ arr p) x) as [E|E].
  - exists p. split; auto. split; auto. split; [lia|].
    intros j Hj. pose proof (at_mono arr j p Inc Hj Hp). lia.
  - destruct (N.ltb_spec x (at_ arr p)); [lia|].
    rewrite vgetN_at by lia. cbn [bind].
    destruct (N.ltb_spec (at_ arr (N.of_nat (length arr) - 1)) x); [lia|].
    assert (Hq : ((p + 1) / 2 <= p)%N).
    { destruct (N.eq_dec p 0) as [->|]; [cbn; lia|]. apply N.div_le_upper_bound; lia. }
    destruct (es_loop_spec (S (length arr)) arr x (p + 1)) as (i & Ei & H1 & H2 & H3); auto; try lia.
    { pose proof (at_mono_le arr ((p + 1) / 2) p Inc Hq Hp). lia. }
    rewrite Ei. cbn [bind].
    pose proof (half_le i).
    apply binarySearch_spec; auto; try lia.
    intros j Hj1 Hj2. destruct (N.lt_ge_cases i (N.of_nat (length arr))) as [L|L]; [|lia].
    specialize (H3 L). pose proof (at_mono_le arr i j Inc ltac:(lia) Hj2). lia.
Qed.
