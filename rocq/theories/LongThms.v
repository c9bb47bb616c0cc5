(** Lists of 2^32 values or more: the constructors that count on 32 bits. *)

From Verif Require Import Base Facts Split FlatTrie LevelTrie FastTrie Tries Spec SpecTries SpecLong
  Layout Groups BuildFlat BuildFast DecodeFast RoundTrip RoundTripFacts.

Lemma seen_bounds : forall n, (0 < n)%N -> (1 <= seen n <= 2 ^ 32)%N /\ (seen n <= n)%N.
Proof.
  intros n H. unfold seen. assert (M := N.mod_lt (n - 1) (2 ^ 32) ltac:(discriminate)).
  assert (L := N.mod_le (n - 1) (2 ^ 32) ltac:(discriminate)).
  set (m := ((n - 1) mod 2 ^ 32)%N) in *. change (2 ^ 32)%N with 4294967296%N in *. lia.
Qed.

Lemma seen_all : forall n, (0 < n)%N -> (seen n = n <-> n <= 2 ^ 32)%N.
Proof.
  intros n H. split; intros Q.
  - rewrite <- Q. apply seen_bounds, H.
  - unfold seen. rewrite N.mod_small; lia.
Qed.

Lemma seg_seen : forall n, (0 < n)%N ->
  (n mod 2 ^ 32 = seen n mod 2 ^ 32)%N /\
  ((n mod 2 ^ 32 + (2 ^ 32 - 1)) mod 2 ^ 32 = seen n - 1)%N.
Proof.
  intros n H. unfold seen. split.
  - rewrite N.add_mod_idemp_l by discriminate. f_equal. lia.
  - rewrite N.add_mod_idemp_l by discriminate.
    replace (n + (2 ^ 32 - 1))%N with (n - 1 + 1 * 2 ^ 32)%N by lia.
    rewrite N.mod_add by discriminate. lia.
Qed.

Lemma seen_length : forall s, s <> [] -> N.of_nat (length (seen_part s)) = seen (N.of_nat (length s)).
Proof.
  intros s H. unfold seen_part. rewrite firstn_length.
  assert (B := seen_bounds (N.of_nat (length s)) ltac:(destruct s; [congruence|cbn [length]; lia])). lia.
Qed.

Lemma seen_nil : forall s, s <> [] -> seen_part s <> [].
Proof.
  intros s H E. apply (f_equal (fun l => N.of_nat (length l))) in E. rewrite seen_length in E by auto.
  assert (B := seen_bounds (N.of_nat (length s)) ltac:(destruct s; [congruence|cbn [length]; lia])).
  cbn [length] in E. lia.
Qed.

Lemma seen_part_all : forall s, s <> [] -> (seen_part s = s <-> (N.of_nat (length s) <= 2 ^ 32)%N).
Proof.
  intros s H. assert (L := seen_length s H).
  assert (P : (0 < N.of_nat (length s))%N) by (destruct s; [congruence|cbn [length]; lia]).
  assert (A := seen_all _ P). split; intros Q.
  - apply A. rewrite <- L. congruence.
  - unfold seen_part. rewrite (proj2 A Q), Nnat.Nat2N.id. apply firstn_all.
Qed.

Lemma first_seg32_seen : forall s, s <> [] -> first_seg32 s = first_seg32 (seen_part s).
Proof.
  intros s H. unfold first_seg32. rewrite seen_length by auto.
  assert (P : (0 < N.of_nat (length s))%N) by (destruct s; [congruence|cbn [length]; lia]).
  destruct (seg_seen _ P) as (E1 & E2). rewrite <- E1. reflexivity.
Qed.

(** A construction that only reads a part of the list gives the same on the whole list. *)
Section Part.
  Variables p s : list N.
  Hypothesis reads : forall i x, vgetN p i = Ok x -> vgetN s i = Ok x.
  Hypothesis len : length p <= length s.

  Lemma split_loop_part : forall fuel fuel' sh l r i o o', fuel <= fuel' ->
    split_loop fuel p sh l r i o = Ok o' -> split_loop fuel' s sh l r i o = Ok o'.
  Proof.
    induction fuel as [|fuel IH]; intros fuel' sh l r i o o' F H.
    - cbn [split_loop] in H. destruct fuel'; cbn [split_loop]; destruct (i <? wrap64 (r + 1))%N; congruence.
    - destruct fuel' as [|fuel']; [lia|]. cbn [split_loop] in *.
      destruct (i <? wrap64 (r + 1))%N; [|congruence].
      destruct (vgetN p i) as [x| |] eqn:E; try discriminate. rewrite (reads _ _ E). cbn [bind] in *.
      destruct (N.testbit x (N.of_nat sh)); auto. apply IH; auto. lia.
  Qed.

  Lemma split_part : forall j l r o, Split.split p j l r = Ok o -> Split.split s j l r = Ok o.
  Proof.
    unfold Split.split. intros j l r o. destruct ((j =? 0) || (64 <? j)); auto.
    apply split_loop_part. lia.
  Qed.

  Lemma fb_step_part : forall h sg q st st', fb_step p h sg q st = Ok st' -> fb_step s h sg q st = Ok st'.
  Proof.
    unfold fb_step. intros h [[l r] n] q st st' H.
    destruct (bind_inv _ _ _ _ _ H) as (o & E & H'). rewrite (split_part _ _ _ _ E). auto.
  Qed.

  Lemma fb_loop_part : forall fuel fuel' h st st', fuel <= fuel' ->
    fb_loop fuel p h st = Ok st' -> fb_loop fuel' s h st = Ok st'.
  Proof.
    induction fuel as [|fuel IH]; intros fuel' h st st' F H.
    - cbn [fb_loop] in H. destruct fuel'; cbn [fb_loop]; destruct (fb_q st); congruence.
    - destruct fuel' as [|fuel']; [lia|]. cbn [fb_loop] in *. destruct (fb_q st); [auto|].
      destruct (bind_inv _ _ _ _ _ H) as (o & E & H'). rewrite (fb_step_part _ _ _ _ _ E). cbn [bind].
      destruct (fb_level o =? h); auto. apply IH; auto. lia.
  Qed.

  Lemma word_loop_part : forall fuel fuel' lw r i w w', fuel <= fuel' ->
    word_loop fuel lw p r i w = Ok w' -> word_loop fuel' lw s r i w = Ok w'.
  Proof.
    induction fuel as [|fuel IH]; intros fuel' lw r i w w' F H.
    - cbn [word_loop] in H. destruct fuel'; cbn [word_loop]; destruct (i <? wrap64 (r + 1))%N; congruence.
    - destruct fuel' as [|fuel']; [lia|]. cbn [word_loop] in *.
      destruct (i <? wrap64 (r + 1))%N; [|congruence].
      destruct (vgetN p i) as [x| |] eqn:E; try discriminate. rewrite (reads _ _ E). cbn [bind] in *.
      apply IH; auto. lia.
  Qed.

  Lemma xb_step_part : forall lw h hu sg q st st', xb_step lw p h hu sg q st = Ok st' ->
    xb_step lw s h hu sg q st = Ok st'.
  Proof.
    unfold xb_step. intros lw h hu [[l r] n] q st st' H. destruct (S (xb_level st) =? h).
    - destruct (bind_inv _ _ _ _ _ H) as (o & E & H').
      rewrite (word_loop_part (S (length p)) (S (length s)) _ _ _ _ _ ltac:(lia) E). auto.
    - destruct (bind_inv _ _ _ _ _ H) as (o & E & H'). rewrite (split_part _ _ _ _ E). auto.
  Qed.

  Lemma xb_loop_part : forall fuel fuel' lw h hu st st', fuel <= fuel' ->
    xb_loop fuel lw p h hu st = Ok st' -> xb_loop fuel' lw s h hu st = Ok st'.
  Proof.
    induction fuel as [|fuel IH]; intros fuel' lw h hu st st' F H.
    - cbn [xb_loop] in H. destruct fuel'; cbn [xb_loop]; destruct (xb_q st); congruence.
    - destruct fuel' as [|fuel']; [lia|]. cbn [xb_loop] in *. destruct (xb_q st); [auto|].
      destruct (bind_inv _ _ _ _ _ H) as ((o & b) & E & H'). rewrite (xb_step_part _ _ _ _ _ _ _ E). cbn [bind].
      destruct b; auto. destruct (xb_level o =? h); auto. apply IH; auto. lia.
  Qed.
End Part.

Lemma seen_reads : forall s i x, vgetN (seen_part s) i = Ok x -> vgetN s i = Ok x.
Proof.
  unfold seen_part, vgetN, vget. intros s i x. set (m := N.to_nat (seen (N.of_nat (length s)))). clearbody m.
  rewrite firstn_length. destruct (N.ltb_spec i (N.of_nat (Nat.min m (length s)))) as [L|L]; [|discriminate].
  replace (i <? N.of_nat (length s))%N with true by (symmetry; apply N.ltb_lt; lia).
  rewrite <- (firstn_skipn m s) at 2. rewrite nth_error_app1 by (rewrite firstn_length; lia). auto.
Qed.

Lemma seen_le : forall s, length (seen_part s) <= length s.
Proof. intros. unfold seen_part. rewrite firstn_length. lia. Qed.

Theorem flat_build_seen : forall u s, (3 <= u <= 2 ^ 48)%N -> s <> [] ->
  flat_build s u = flat_build (seen_part s) u.
Proof.
  intros u s Hu Hne. destruct (height_of_spec u ltac:(lia)) as (h & Hh & Hr & Hp & H2 & _).
  destruct (flat_build_layout_le (seen_part s) u h Hh) as (t & Ht & _); auto using seen_nil; try lia.
  { rewrite seen_length by auto. apply seen_bounds. destruct s; [congruence|cbn [length]; lia]. }
  rewrite Ht. unfold flat_build in *. rewrite Hh in *. cbn [bind] in *.
  destruct (bind_inv _ _ _ _ _ Ht) as (st & E & E').
  rewrite (fb_loop_part (seen_part s) s (seen_reads s) (seen_le s) (fb_fuel (seen_part s) h) (fb_fuel s h) h _ st); auto.
  - unfold fb_fuel. apply Nat.mul_le_mono_l. apply le_n_S, seen_le.
  - unfold fb_init in *. rewrite first_seg32_seen by auto. exact E.
Qed.

Lemma fast_heights : forall u lw, fast_universe u lw ->
  exists h, height_of u = Ok h /\ lw <= 6 /\ lw <= h /\ h <= 64 /\ (u <= pow2 h)%N.
Proof.
  intros u lw (Hlw & Hu1 & Hu2).
  assert (H8 : (2 ^ N.of_nat 3 <= 2 ^ N.of_nat lw)%N).
  { apply N.pow_le_mono_r; [lia|]. cbn in Hlw. lia. }
  change (2 ^ N.of_nat 3)%N with 8%N in H8. apply In_lw in Hlw.
  destruct (height_of_spec u ltac:(lia)) as (h & Hh & Hr & Hp & H2 & Hk).
  exists h. split; [auto|]. split; [lia|]. split; [|split; [lia|auto]].
  destruct lw as [|lw]; [lia|]. fold (pow2 (S lw)) in Hu1. rewrite pow2_S in Hu1.
  assert (lw < h) by (apply Hk; lia). lia.
Qed.

Theorem fast_build_seen : forall lw jh je u s, fast_universe u lw -> s <> [] ->
  fast_build lw jh je s u = fast_build lw jh je (seen_part s) u.
Proof.
  intros lw jh je u s U Hne. destruct (fast_heights u lw U) as (h & Hh & L6 & Lh & L64 & _).
  destruct (fast_build_layout_le lw jh je (seen_part s) u h Hh) as (t & Ht & _); auto using seen_nil.
  { rewrite seen_length by auto. apply seen_bounds. destruct s; [congruence|cbn [length]; lia]. }
  rewrite Ht. unfold fast_build in *. rewrite Hh in *. cbn [bind] in *.
  destruct (h + 1 <? lw); [discriminate|].
  destruct (bind_inv _ _ _ _ _ Ht) as (st & E & E').
  rewrite (xb_loop_part (seen_part s) s (seen_reads s) (seen_le s) (S h * S (length (seen_part s))) (S h * S (length s)) lw _ h _ st); auto.
  - apply Nat.mul_le_mono_l. apply le_n_S, seen_le.
  - unfold xb_init in *. rewrite first_seg32_seen by auto. exact E.
Qed.

Lemma in_firstn : forall n (s : list N) x, In x (firstn n s) -> In x s.
Proof. intros n s x H. rewrite <- (firstn_skipn n s). apply in_or_app. auto. Qed.

Lemma sorted_firstn : forall (R : N -> N -> Prop) n s, StronglySorted R s -> StronglySorted R (firstn n s).
Proof.
  intros R n s H. revert n. induction H as [|x s H IH F]; intros [|n]; cbn [firstn]; try constructor; auto.
  rewrite Forall_forall in *. intros y Y. eapply F, in_firstn, Y.
Qed.

Lemma below_firstn : forall u n s, below u s -> below u (firstn n s).
Proof. unfold below. intros u n s H. rewrite Forall_forall in *. intros y Y. eapply H, in_firstn, Y. Qed.

Theorem flat_long : forall u s, (3 <= u <= 2 ^ 48)%N -> s <> [] -> nondecreasing s -> below u s ->
  exists t r, flat_build s u = Ok t /\ flat_decode t [] = Ok r /\ is_set_of (seen_part s) r.
Proof.
  intros u s Hu Hne Hs Hb. rewrite flat_build_seen by auto.
  destruct (height_of_spec u ltac:(lia)) as (h & Hh & Hr & Hp & H2 & _).
  destruct (flat_build_layout_le (seen_part s) u h Hh) as (t & Ht & L & Hre & _); auto using seen_nil; try lia.
  { rewrite seen_length by auto. apply seen_bounds. destruct s; [congruence|cbn [length]; lia]. }
  exists t, (distinct h (seen_part s)). split; [auto|]. split.
  - apply (flat_decode_plain t h (tree_of unit_leaf 0 h (seen_part s)) []); auto; try lia. apply tree_of_plain.
  - apply distinct_set; auto using seen_nil.
    + apply sorted_firstn, Hs.
    + apply (below_within u); auto. apply below_firstn, Hb.
Qed.

Theorem fast_long : forall lw jh je u s, fast_universe u lw -> s <> [] -> nondecreasing s -> below u s ->
  exists t r, fast_build lw jh je s u = Ok t /\ fast_decode t [] = Ok r /\ is_set_of (seen_part s) r.
Proof.
  intros lw jh je u s U Hne Hs Hb. rewrite fast_build_seen by auto.
  destruct (fast_heights u lw U) as (h & Hh & L6 & Lh & L64 & Hp).
  destruct (fast_build_layout_le lw jh je (seen_part s) u h Hh) as (t & Ht & L & E1 & E2 & Hre & _);
    auto using seen_nil.
  { rewrite seen_length by auto. apply seen_bounds. destruct s; [congruence|cbn [length]; lia]. }
  exists t, (distinct_fast lw (h - lw) (seen_part s)). split; [auto|]. split.
  - apply (fast_decode_plain t lw (h - lw) (tree_of (word_of lw) lw (h - lw) (seen_part s)) []); auto; try lia.
    + apply tree_of_plain.
    + apply all_leaves_tree_of. apply word_of_bound.
  - apply distinct_fast_set; auto using seen_nil.
    + apply sorted_firstn, Hs.
    + replace (h - lw + lw) with h by lia. apply (below_within u); auto. apply below_firstn, Hb.
Qed.

(** For increasing lists: exactly the part seen comes back. *)
Theorem flat_long_set : forall u s, (3 <= u <= 2 ^ 48)%N -> s <> [] -> increasing s -> below u s ->
  exists t, flat_build s u = Ok t /\ flat_decode t [] = Ok (seen_part s).
Proof.
  intros u s Hu Hne Hs Hb. destruct (flat_long u s Hu Hne) as (t & r & E & D & I); auto using increasing_nondecreasing.
  exists t. split; auto. rewrite D. f_equal. symmetry. apply (is_set_of_unique (seen_part s)); auto.
  apply is_set_of_self. apply sorted_firstn, Hs.
Qed.

Theorem fast_long_set : forall lw jh je u s, fast_universe u lw -> s <> [] -> increasing s -> below u s ->
  exists t, fast_build lw jh je s u = Ok t /\ fast_decode t [] = Ok (seen_part s).
Proof.
  intros lw jh je u s U Hne Hs Hb.
  destruct (fast_long lw jh je u s U Hne) as (t & r & E & D & I); auto using increasing_nondecreasing.
  exists t. split; auto. rewrite D. f_equal. symmetry. apply (is_set_of_unique (seen_part s)); auto.
  apply is_set_of_self. apply sorted_firstn, Hs.
Qed.

(** An example too long to be computed. *)
Lemma nrange_sorted : forall n b, increasing (nrange b n) /\ Forall (fun x => b <= x < b + N.of_nat n)%N (nrange b n).
Proof.
  induction n as [|n IH]; intros b; cbn [nrange]; [split; constructor|].
  destruct (IH (N.succ b)) as (I & F). split.
  - constructor; auto. eapply Forall_impl; [|exact F]. cbn. intros. lia.
  - constructor; [lia|]. eapply Forall_impl; [|exact F]. cbn. intros. lia.
Qed.

Lemma nrange_length : forall n b, length (nrange b n) = n.
Proof. induction n; intros; cbn [nrange length]; auto. Qed.

Lemma nrange_firstn : forall n m b, m <= n -> firstn m (nrange b n) = nrange b m.
Proof. induction n; intros [|m] b H; cbn [nrange firstn]; auto; try lia. f_equal. apply IHn. lia. Qed.

Lemma long_range : forall n, (2 ^ 32 < n <= 2 ^ 33)%N ->
  let s := nrange 0 (N.to_nat n) in
  s <> [] /\ increasing s /\ below (2 ^ 33) s /\ length s = N.to_nat n /\
  seen_part s = nrange 0 (N.to_nat (n - 2 ^ 32)).
Proof.
  intros n H s. unfold s.
  assert (L : N.of_nat (length (nrange 0 (N.to_nat n))) = n) by (rewrite nrange_length; lia).
  destruct (nrange_sorted (N.to_nat n) 0) as (I & F).
  split. { intros Z. rewrite Z in L. cbn [length] in L. lia. }
  split; [exact I|]. split.
  { eapply Forall_impl; [|exact F]. cbn. intros. lia. }
  split; [apply nrange_length|]. unfold seen_part. rewrite L.
  replace (seen n) with (n - 2 ^ 32)%N.
  - apply nrange_firstn. lia.
  - unfold seen. replace (n - 1)%N with (n - 1 - 2 ^ 32 + 1 * 2 ^ 32)%N by lia.
    rewrite N.mod_add by discriminate. rewrite N.mod_small by lia. lia.
Qed.

Lemma longer_lost : forall s, (2 ^ 32 < N.of_nat (length s))%N -> length (seen_part s) < length s.
Proof.
  intros s H. assert (Hne : s <> []) by (intros ->; cbn [length] in H; lia).
  assert (L := seen_le s). destruct (Nat.eq_dec (length (seen_part s)) (length s)) as [E|]; [exfalso|lia].
  assert (P : (0 < N.of_nat (length s))%N) by lia.
  apply (f_equal N.of_nat) in E. rewrite seen_length in E by auto. apply seen_all in E; lia.
Qed.

Theorem flat_long_lost : forall u s, (3 <= u <= 2 ^ 48)%N -> increasing s -> below u s ->
  (2 ^ 32 < N.of_nat (length s))%N ->
  exists t r, flat_build s u = Ok t /\ flat_decode t [] = Ok r /\ length r < length s.
Proof.
  intros u s Hu I B H. assert (Hne : s <> []) by (intros ->; cbn [length] in H; lia).
  destruct (flat_long_set u s Hu Hne I B) as (t & E & D). exists t, (seen_part s).
  do 2 (split; [assumption|]). apply longer_lost, H.
Qed.

Theorem fast_long_lost : forall lw jh je u s, fast_universe u lw -> increasing s -> below u s ->
  (2 ^ 32 < N.of_nat (length s))%N ->
  exists t r, fast_build lw jh je s u = Ok t /\ fast_decode t [] = Ok r /\ length r < length s.
Proof.
  intros lw jh je u s U I B H. assert (Hne : s <> []) by (intros ->; cbn [length] in H; lia).
  destruct (fast_long_set lw jh je u s U Hne I B) as (t & E & D). exists t, (seen_part s).
  do 2 (split; [assumption|]). apply longer_lost, H.
Qed.
