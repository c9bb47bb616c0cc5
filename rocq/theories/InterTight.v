(** Where an encoded tree has its runs: exactly at the blocks its set contains. *)

From Verif Require Import Base FlatTrie LevelTrie FastTrie Facts Tree Groups Reps
  BuildFlat BuildLevel BuildFast WordBits Compress CompressFast RunsFacts.

Section Tight.
  Context {A : Type}.
  Variable lfull : A -> bool.
  Variable lmem : A -> N -> bool.
  Variable lg : nat.

  (** Among the first [c] levels, every subtree that holds all its values is a run. *)
  Fixpoint tight (c : nat) (t : tree A) : Prop :=
    match c with
    | O => True
    | S c' =>
      (full lfull t = true -> t = Full) /\
      match t with
      | TL l => tight c' l
      | TR r => tight c' r
      | TB l r => tight c' l /\ tight c' r
      | _ => True
      end
    end.

  Lemma full_of_compress : forall keep t, full lfull (compress lfull keep t) = full lfull t.
  Proof.
    intros keep. induction t as [a| |t IH|t IH|l IHl r IHr]; auto.
    cbn [compress]. destruct (full lfull l && full lfull r && negb (keep && is_leaf l && is_leaf r))%bool eqn:E.
    - cbn [full]. apply andb_prop in E. destruct E as (E & _). auto.
    - cbn [full]. congruence.
  Qed.

  Lemma compress_tight : forall keep t d c, wf d t -> c <= d -> (keep = true -> c < d) ->
    tight c (compress lfull keep t).
  Proof.
    clear lmem lg.
    intros keep. induction t as [a| |t IH|t IH|l IHl r IHr]; intros d [|c] W Hc Hk; cbn [tight]; auto;
      cbn [wf] in W.
    - lia.
    - cbn [compress]. auto.
    - destruct W as (H0 & W). cbn [compress full]. split; [discriminate|].
      apply (IH (pred d)); auto; try lia; intros E; specialize (Hk E); lia.
    - destruct W as (H0 & W). cbn [compress full]. split; [discriminate|].
      apply (IH (pred d)); auto; try lia; intros E; specialize (Hk E); lia.
    - destruct W as (H0 & W1 & W2). cbn [compress].
      destruct (full lfull l && full lfull r && negb (keep && is_leaf l && is_leaf r))%bool eqn:E.
      + split; auto.
      + split.
        * cbn [full]. rewrite !full_of_compress. intros F. rewrite F in E. cbn [andb] in E.
          apply negb_false_iff in E. destruct keep; [|discriminate]. cbn [andb] in E.
          specialize (Hk eq_refl). apply andb_prop in E. destruct E as (E & _).
          rewrite (wf_not_leaf (pred d) l) in E by (auto; lia). discriminate.
        * split; [apply (IHl (pred d))|apply (IHr (pred d))]; auto; try lia; intros E'; specialize (Hk E'); lia.
  Qed.

  (** Every leaf that is not full misses a value. *)
  Definition gaps (t : tree A) : Prop :=
    forall a, In a (leaves t) -> lfull a = false ->
    forall p, aligned lg p -> exists y, (p <= y < p + pow2 lg)%N /\ lmem a y = false.

  Lemma compress_leaves : forall keep t a, In a (leaves (compress lfull keep t)) -> In a (leaves t).
  Proof.
    intros keep. induction t as [b| |t IH|t IH|l IHl r IHr]; intros a H; cbn [compress leaves] in *; auto.
    destruct (_ && _)%bool; [destruct H|]. cbn [leaves] in H. apply in_app_or in H. apply in_or_app.
    destruct H; auto.
  Qed.

  Lemma not_full_gap : forall t d p, wf d t -> gaps t -> aligned (d + lg) p -> full lfull t = false ->
    exists x, (p <= x < p + pow2 (d + lg))%N /\ mem lmem (d + lg) t x = false.
  Proof.
    induction t as [a| |t IH|t IH|l IHl r IHr]; intros d p W G Ha Hf; cbn [wf full] in W, Hf; try discriminate.
    - subst d. destruct (G a ltac:(left; auto) Hf p Ha) as (y & Hy & My). exists y. auto.
    - destruct W as (H0 & W). destruct d as [|d]; [lia|]. cbn [Nat.add] in *.
      exists (p + pow2 (d + lg))%N. assert (Gp := pow2_pos (d + lg)). rewrite pow2_S. split; [lia|].
      cbn [mem pred]. rewrite (testbit_right' (d + lg) p) by (auto; lia). auto.
    - destruct W as (H0 & W). destruct d as [|d]; [lia|]. cbn [Nat.add] in *.
      exists p. assert (Gp := pow2_pos (d + lg)). rewrite pow2_S. split; [lia|].
      cbn [mem pred]. rewrite (testbit_left (d + lg) p) by (auto; lia). auto.
    - destruct W as (H0 & W1 & W2). destruct d as [|d]; [lia|]. cbn [Nat.add pred] in *.
      assert (Gl : gaps l) by (intros a Hin; apply G; cbn [leaves]; apply in_or_app; auto).
      assert (Gr : gaps r) by (intros a Hin; apply G; cbn [leaves]; apply in_or_app; auto).
      apply andb_false_iff in Hf. destruct Hf as [Hf|Hf].
      + destruct (IHl d p W1 Gl) as (x & Hx & Mx); auto using aligned_S.
        exists x. rewrite pow2_S. split; [lia|]. cbn [mem pred]. rewrite (testbit_left (d + lg) p x) by auto. auto.
      + destruct (IHr d (p + pow2 (d + lg))%N W2 Gr) as (x & Hx & Mx); auto using aligned_right.
        exists x. rewrite pow2_S. split; [lia|]. cbn [mem pred].
        rewrite (testbit_right' (d + lg) p x) by (auto; lia). auto.
  Qed.

  (** The way to [x] meets a run within the first [S j] levels. *)
  Fixpoint runat (j d : nat) (t : tree A) (x : N) : bool :=
    match t with
    | Full => true
    | Leaf _ => false
    | TL l => match j with
              | O => false
              | S j' => if N.testbit x (N.of_nat (pred d + lg)) then false else runat j' (pred d) l x
              end
    | TR r => match j with
              | O => false
              | S j' => if N.testbit x (N.of_nat (pred d + lg)) then runat j' (pred d) r x else false
              end
    | TB l r => match j with
                | O => false
                | S j' => if N.testbit x (N.of_nat (pred d + lg)) then runat j' (pred d) r x
                          else runat j' (pred d) l x
                end
    end.

  Lemma block_bit : forall k x y b, (y / pow2 k = x / pow2 k)%N -> k <= b ->
    N.testbit y (N.of_nat b) = N.testbit x (N.of_nat b).
  Proof.
    intros k x y b E H. replace (N.of_nat b) with (N.of_nat (b - k) + N.of_nat k)%N by lia.
    rewrite <- !N.div_pow2_bits. unfold pow2 in E. rewrite E. auto.
  Qed.

  Lemma block_in : forall k x y, (x / pow2 k * pow2 k <= y < x / pow2 k * pow2 k + pow2 k)%N <->
    (y / pow2 k = x / pow2 k)%N.
  Proof.
    intros k x y. assert (G := pow2_nz k). assert (Ey := N.div_mod' y (pow2 k)).
    assert (My := N.mod_lt y (pow2 k) G). split.
    - intros H. symmetry. apply (N.div_unique y (pow2 k) (x / pow2 k) (y - x / pow2 k * pow2 k)); lia.
    - intros E. rewrite E in Ey. lia.
  Qed.

  Theorem runat_block : forall j t d x, wf d t -> gaps t -> tight (S j) t -> j <= d ->
    (runat j d t x = true <->
     forall y, (y / pow2 (d + lg - j) = x / pow2 (d + lg - j))%N -> mem lmem (d + lg) t y = true).
  Proof.
    assert (H0' : forall t d x, wf d t -> gaps t -> full lfull t = false ->
      ~ (forall y, (y / pow2 (d + lg - 0) = x / pow2 (d + lg - 0))%N -> mem lmem (d + lg) t y = true)).
    { intros t d x W G F H. rewrite Nat.sub_0_r in H.
      destruct (not_full_gap t d (x / pow2 (d + lg) * pow2 (d + lg))%N W G) as (y & Hy & My); auto.
      { apply aligned_ex. eauto. }
      rewrite H in My; [discriminate|]. apply block_in. auto. }
    assert (HT : forall t, t <> Full -> tight 1 t -> full lfull t = false).
    { intros t N (H & _). destruct (full lfull t); auto. destruct N. auto. }
    induction j; intros t d x W G T Hj.
    - destruct t as [a| |l|r|l r]; cbn [runat].
      2:{ split; auto. }
      all: split; [discriminate|]; intros H; exfalso; refine (H0' _ d x W G _ H); apply HT; auto; discriminate.
    - destruct t as [a| |l|r|l r]; cbn [runat].
      + cbn [wf] in W. lia.
      + split; auto.
      + cbn [wf] in W. destruct W as (Hd & W). destruct d as [|d]; [lia|]. cbn [pred Nat.add] in *.
        destruct T as (_ & T). replace (S (d + lg) - S j) with (d + lg - j) by lia.
        rewrite <- (Nat.sub_succ (d + lg) j) in *.
        destruct (N.testbit x (N.of_nat (d + lg))) eqn:B.
        * split; [discriminate|]. intros H. specialize (H x eq_refl). cbn [mem pred] in H. rewrite B in H. auto.
        * rewrite (IHj l d x) by (auto; lia). rewrite Nat.sub_succ.
          split; intros H y Hy; specialize (H y Hy); cbn [mem pred] in *;
            rewrite (block_bit (d + lg - j) x y (d + lg)), B in * by (auto; lia); auto.
      + cbn [wf] in W. destruct W as (Hd & W). destruct d as [|d]; [lia|]. cbn [pred Nat.add] in *.
        destruct T as (_ & T). replace (S (d + lg) - S j) with (d + lg - j) by lia.
        destruct (N.testbit x (N.of_nat (d + lg))) eqn:B.
        * rewrite (IHj r d x) by (auto; lia).
          split; intros H y Hy; specialize (H y Hy); cbn [mem pred] in *;
            rewrite (block_bit (d + lg - j) x y (d + lg)), B in * by (auto; lia); auto.
        * split; [discriminate|]. intros H. specialize (H x eq_refl). cbn [mem pred] in H. rewrite B in H. auto.
      + cbn [wf] in W. destruct W as (Hd & W1 & W2). destruct d as [|d]; [lia|]. cbn [pred Nat.add] in *.
        destruct T as (_ & T1 & T2). replace (S (d + lg) - S j) with (d + lg - j) by lia.
        assert (Gl : gaps l) by (intros a Hin; apply G; cbn [leaves]; apply in_or_app; auto).
        assert (Gr : gaps r) by (intros a Hin; apply G; cbn [leaves]; apply in_or_app; auto).
        destruct (N.testbit x (N.of_nat (d + lg))) eqn:B;
          [rewrite (IHj r d x) by (auto; lia)|rewrite (IHj l d x) by (auto; lia)];
          (split; intros H y Hy; specialize (H y Hy); cbn [mem pred] in *;
            rewrite (block_bit (d + lg - j) x y (d + lg)), B in * by (auto; lia); auto).
  Qed.

  (** A tree without runs at the top. *)
  Lemma runat_plain : forall t j d x, plain t -> runat j d t x = false.
  Proof.
    induction t as [a| |t IH|t IH|l IHl r IHr]; intros [|j] d x P; cbn [runat plain] in *; auto; try tauto;
      destruct (N.testbit _ _); auto; try (apply IH; auto); [apply IHr|apply IHl]; tauto.
  Qed.
End Tight.

(** The two kinds of leaves. *)
Lemma unit_gaps : forall t : tree unit, gaps ufull umem 0 t.
Proof. intros t a _ H. discriminate. Qed.

Lemma word_gap : forall lw w p, (w < 2 ^ pow2 lw)%N -> xfull lw w = false -> aligned lw p ->
  exists y, (p <= y < p + pow2 lw)%N /\ wmem lw w y = false.
Proof.
  intros lw w p Hw Hf Ha.
  assert (Hc : forall l, (exists i, In i l /\ N.testbit w i = false) \/ (forall i, In i l -> N.testbit w i = true)).
  { induction l as [|i l IH]; [right; intros i []|].
    destruct (N.testbit w i) eqn:E; [|left; exists i; split; [left; auto|auto]].
    destruct IH as [(k & Hk & Ek)|H]; [left; exists k; split; [right; auto|auto]|].
    right. intros k [<-|Hk]; auto. }
  destruct (Hc (nrange 0 (2 ^ lw))) as [(i & Hi & Ei)|H].
  - apply In_nrange in Hi. rewrite of_nat_pow2 in Hi. exists (p + i)%N. split; [lia|].
    unfold wmem. rewrite (low_bits lw p) by (auto; lia). replace (p + i - p)%N with i by lia. auto.
  - exfalso. unfold xfull in Hf. apply N.eqb_neq in Hf. apply Hf. unfold wmax. rewrite wbits_pow2.
    apply N.bits_inj. intros i. destruct (N.lt_ge_cases i (pow2 lw)) as [L|L].
    + rewrite N.ones_spec_low by auto. apply H. apply In_nrange. rewrite of_nat_pow2. lia.
    + rewrite N.ones_spec_high by auto. destruct (N.eq_dec w 0) as [->|Nz]; [apply N.bits_0|].
      apply N.bits_above_log2. apply N.log2_lt_pow2; [lia|].
      eapply N.lt_le_trans; [exact Hw|]. apply N.pow_le_mono_r; lia.
Qed.

Lemma tree_of_leaves : forall A (mk : list N -> A) lg d s a, In a (leaves (tree_of mk lg d s)) ->
  exists s', a = mk s'.
Proof.
  intros A mk lg. induction d; intros s a H; cbn [tree_of] in H.
  - destruct H as [<-|[]]. eauto.
  - destruct (lefts _ s) eqn:E1, (rights _ s) eqn:E2; cbn [leaves] in H;
      try (apply in_app_or in H; destruct H as [H|H]); eauto.
Qed.

Lemma words_gaps : forall lw d s, gaps (xfull lw) (wmem lw) lw (xcompress lw (tree_of (word_of lw) lw d s)).
Proof.
  intros lw d s a Hin Hf p Ha. apply compress_leaves in Hin. apply tree_of_leaves in Hin.
  destruct Hin as (s' & ->). apply word_gap; auto. apply word_of_bound.
Qed.
