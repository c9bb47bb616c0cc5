(** How large tries are, and how much an intersection does, for sets made of intervals. *)

From Verif Require Import Base FlatTrie LevelTrie FastTrie Tries ParallelFor Intersection Facts Spec SpecTries SpecMeasures SpecLayout
  SpecCalls SpecSpace LayoutBits LayoutThms LayoutFast Calls CallsMain.

Definition ends_of (R : list (N * N)) : list N := map fst R ++ map snd R.

Lemma ends_of_length : forall R, length (ends_of R) = 2 * length R.
Proof. intros. unfold ends_of. rewrite app_length, !map_length. lia. Qed.

(** A block with a member that is not full has the end of an interval in it. *)
Lemma edge_in_block : forall R s K y, union_of R s -> In y s -> ~ block_full s K y ->
  exists e, In e (ends_of R) /\ (e / 2 ^ N.of_nat K = y / 2 ^ N.of_nat K)%N.
Proof.
  intros R s K y U Y NF. destruct (proj1 (U y) Y) as (a & b & I & A & B).
  set (w := (2 ^ N.of_nat K)%N) in *. assert (W : w <> 0%N) by (apply N.pow_nonzero; lia).
  assert (A' : (a / w <= y / w)%N) by (apply N.div_le_mono; auto).
  assert (B' : (y / w <= b / w)%N) by (apply N.div_le_mono; auto).
  destruct (N.eq_dec (a / w) (y / w)) as [E|NE1].
  { exists a. split; [|auto]. apply in_or_app. left. apply (in_map fst _ _ I). }
  destruct (N.eq_dec (b / w) (y / w)) as [E|NE2].
  { exists b. split; [|auto]. apply in_or_app. right. apply (in_map snd _ _ I). }
  exfalso. apply NF. intros z Z. fold w in Z. apply U. exists a, b. split; [auto|].
  assert (LT : forall i j, (i / w < j / w)%N -> (i <= j)%N).
  { intros i j L. destruct (N.le_gt_cases i j) as [|G]; [auto|].
    assert (j / w <= i / w)%N by (apply N.div_le_mono; [auto|lia]). lia. }
  split; apply LT; lia.
Qed.

Lemma half_of : forall y b, (y / 2 ^ N.of_nat (S b) = y / 2 ^ N.of_nat b / 2)%N.
Proof.
  intros y b. rewrite N.div_div by (try lia; apply N.pow_nonzero; lia). f_equal.
  rewrite Nat2N.inj_succ, N.pow_succ_r'. lia.
Qed.

Lemma two_halves : forall q p, (q / 2 = p)%N -> q = (2 * p)%N \/ q = (2 * p + 1)%N.
Proof.
  intros q p E. assert (D := N.div_mod q 2). assert (M := N.mod_lt q 2). lia.
Qed.

(** * Counting *)

Lemma list_sum_le : forall A (f g : A -> nat) l, (forall x, In x l -> f x <= g x) ->
  list_sum (map f l) <= list_sum (map g l).
Proof.
  intros A f g l. induction l as [|x l IH]; intros H; [reflexivity|]. change (list_sum (map f (x :: l))) with (f x + list_sum (map f l)).
  change (list_sum (map g (x :: l))) with (g x + list_sum (map g l)).
  assert (H1 := H x (or_introl eq_refl)). assert (H2 := IH (fun y I => H y (or_intror I))). lia.
Qed.

Lemma list_sum_double : forall A (f : A -> nat) l, list_sum (map (fun x => 2 * f x) l) = 2 * list_sum (map f l).
Proof.
  intros A f l. induction l as [|x l IH]; [reflexivity|].
  change (list_sum (map f (x :: l))) with (f x + list_sum (map f l)).
  change (list_sum (map (fun x => 2 * f x) (x :: l))) with (2 * f x + list_sum (map (fun x => 2 * f x) l)). lia.
Qed.

Lemma list_sum_const : forall A c (l : list A), list_sum (map (fun _ => c) l) = c * length l.
Proof. intros A c l. induction l as [|x l IH]; cbn [map list_sum fold_right length] in *; [lia|]. unfold list_sum in IH. cbn. lia. Qed.

Lemma length_concat : forall A (L : list (list A)), length (concat L) = list_sum (map (@length A) L).
Proof.
  intros A L. induction L as [|x L IH]; [reflexivity|]. cbn [concat]. rewrite app_length, IH. reflexivity.
Qed.

Lemma flat_map_two : forall A B (f : A -> list B) l, (forall x, length (f x) = 2) -> length (flat_map f l) = 2 * length l.
Proof.
  intros A B f l F. induction l as [|x l IH]; [reflexivity|]. cbn [flat_map length]. rewrite app_length, F, IH. lia.
Qed.

(** The levels, each within its bounds, are within the sum of the bounds. *)
Lemma levels_capped : forall (f : nat -> list bool) c n h, n <= h ->
  (forall k, h - n < k <= h -> length (f k) <= 2 * Nat.min (2 ^ (h - k)) c) ->
  length (concat (map (fun l => f (h - l)) (seq 0 n))) <= 2 * capped c n.
Proof.
  intros f c n h Hn H. rewrite length_concat, map_map. unfold capped. rewrite <- list_sum_double.
  apply list_sum_le. intros l I. apply in_seq in I. specialize (H (h - l)).
  replace (h - (h - l)) with l in H by lia. apply H. lia.
Qed.

Lemma capped_split : forall c j h, j <= h -> capped c h <= 2 ^ j - 1 + c * (h - j).
Proof.
  intros c j h H. unfold capped. replace h with (j + (h - j)) at 1 by lia. rewrite seq_app, map_app, list_sum_app.
  assert (A : forall j, list_sum (map (fun l => Nat.min (2 ^ l) c) (seq 0 j)) <= 2 ^ j - 1).
  { clear. intros j. induction j as [|j IH]; [cbn; lia|]. rewrite seq_S, map_app, list_sum_app. cbn [map list_sum fold_right Nat.add].
    cbn [Nat.pow]. assert (1 <= 2 ^ j) by (apply Nat.neq_0_lt_0, Nat.pow_nonzero; lia). unfold list_sum in *. cbn [fold_right]. lia. }
  assert (B : list_sum (map (fun l => Nat.min (2 ^ l) c) (seq (0 + j) (h - j))) <= c * (h - j)).
  { etransitivity; [apply (list_sum_le _ _ (fun _ => c)); intros; lia|]. rewrite list_sum_const, seq_length. lia. }
  specialize (A j). lia.
Qed.

Lemma capped_all : forall c h, capped c h <= c * h.
Proof. intros c h. assert (H := capped_split c 0 h (Nat.le_0_l h)). cbn [Nat.pow] in H. rewrite Nat.sub_0_r in H. lia. Qed.

Section Set_.
Variables (h : nat) (s : list N).
Hypothesis small : forall x, In x s -> (x < 2 ^ N.of_nat h)%N.
Hypothesis inc : increasing s.

Lemma prefixes_members : forall k, length (prefixes s k) <= length s.
Proof.
  intros k. unfold prefixes. rewrite <- (map_length (fun x => x / 2 ^ N.of_nat k)%N s).
  apply NoDup_incl_length; [apply NoDup_nodup|]. intros x. rewrite nodup_In. auto.
Qed.

Lemma in_prefixes : forall k q, In q (prefixes s k) <-> exists y, In y s /\ (y / 2 ^ N.of_nat k = q)%N.
Proof.
  intros k q. unfold prefixes. rewrite nodup_In, in_map_iff. split; intros (y & A & B); eauto.
Qed.

Lemma prefixes_room : forall k, k <= h -> length (prefixes s k) <= 2 ^ (h - k).
Proof.
  intros k K. rewrite <- (seq_length (2 ^ (h - k)) 0), <- (map_length N.of_nat).
  apply NoDup_incl_length; [apply NoDup_nodup|]. intros q Q. apply in_prefixes in Q. destruct Q as (y & Y & Q).
  apply small in Y. apply in_map_iff. exists (N.to_nat q). split; [apply N2Nat.id|]. apply in_seq. split; [lia|].
  assert (q < 2 ^ N.of_nat (h - k))%N.
  { subst q. apply N.div_lt_upper_bound; [apply N.pow_nonzero; lia|]. rewrite <- N.pow_add_r, <- Nat2N.inj_add.
    replace (k + (h - k)) with h by lia. exact Y. }
  assert (E : 2 ^ (h - k) = N.to_nat (2 ^ N.of_nat (h - k))%N).
  { rewrite N2Nat.inj_pow, Nat2N.id. reflexivity. }
  lia.
Qed.

(** A node of a trie with runs is a child of a block that is not full. *)
Definition run_nodes (k : nat) : list N := filter (fun q => negb (all_in s (S k) (q / 2))) (prefixes s k).

Lemma run_nodes_le : forall k, length (run_nodes k) <= length (prefixes s k).
Proof.
  intros k. apply NoDup_incl_length; [apply NoDup_filter, NoDup_nodup|]. intros q Q. apply filter_In in Q. apply Q.
Qed.

Lemma run_nodes_edges : forall R k, union_of R s -> length (run_nodes k) <= 4 * length R.
Proof.
  intros R k U. set (halves := fun e => [2 * (e / 2 ^ N.of_nat (S k)); 2 * (e / 2 ^ N.of_nat (S k)) + 1]%N).
  assert (L : length (flat_map halves (ends_of R)) = 4 * length R).
  { rewrite flat_map_two by reflexivity. rewrite ends_of_length. lia. }
  rewrite <- L. apply NoDup_incl_length; [apply NoDup_filter, NoDup_nodup|]. intros q Q. apply filter_In in Q.
  destruct Q as (P & F). apply in_prefixes in P. destruct P as (y & Y & Q).
  assert (Hq : (q / 2 = y / 2 ^ N.of_nat (S k))%N) by (rewrite half_of; congruence).
  destruct (edge_in_block R s (S k) y U Y) as (e & E1 & E2).
  { intros BF. apply negb_true_iff in F. assert (A : all_in s (S k) (q / 2) = true).
    { apply (all_in_iff h); auto. intros x X. apply BF. rewrite <- Hq. exact X. }
    congruence. }
  apply in_flat_map. exists e. split; [exact E1|]. unfold halves. cbn [In].
  destruct (two_halves q (e / 2 ^ N.of_nat (S k))) as [->| ->]; auto. congruence.
Qed.
End Set_.

Lemma digits_small_members : forall u s, (1 <= u)%N -> below u s -> forall x, In x s -> (x < 2 ^ N.of_nat (digits u))%N.
Proof.
  intros u s U B x X. unfold below in B. rewrite Forall_forall in B. specialize (B x X). unfold digits. rewrite N2Nat.id.
  destruct (N.eq_dec u 1) as [->|NE]; [cbn; lia|]. assert (H := N.log2_log2_up_spec u). lia.
Qed.

Lemma level_bits_length : forall s k, length (level_bits s k) = 2 * length (prefixes s k).
Proof. intros. apply flat_map_two. reflexivity. Qed.

Lemma run_level_bits_length : forall s k, length (run_level_bits s k) = 2 * length (run_nodes s k).
Proof. intros. apply flat_map_two. intros q. unfold run_bits. destruct (_ && _)%bool; reflexivity. Qed.

Lemma set_levels_capped : forall h s n, n <= h -> (forall x, In x s -> (x < 2 ^ N.of_nat h)%N) ->
  length (concat (map (fun l => level_bits s (h - l)) (seq 0 n))) <= 2 * capped (length s) n.
Proof.
  intros h s n Hn B. apply levels_capped; auto. intros k K. rewrite level_bits_length.
  assert (length (prefixes s k) <= length s) by apply prefixes_members.
  assert (length (prefixes s k) <= 2 ^ (h - k)) by (apply prefixes_room; [auto|lia]). lia.
Qed.

Lemma run_levels_capped : forall h s R n, n <= h -> (forall x, In x s -> (x < 2 ^ N.of_nat h)%N) -> increasing s ->
  union_of R s ->
  length (concat (map (fun l => run_level_bits s (h - l)) (seq 0 n))) <= 2 * capped (Nat.min (length s) (4 * length R)) n.
Proof.
  intros h s R n Hn B I U. apply levels_capped; auto. intros k K. rewrite run_level_bits_length.
  assert (length (run_nodes s k) <= 4 * length R) by (apply (run_nodes_edges h); auto).
  assert (length (run_nodes s k) <= length (prefixes s k)) by apply run_nodes_le.
  assert (length (prefixes s k) <= length s) by apply prefixes_members.
  assert (length (prefixes s k) <= 2 ^ (h - k)) by (apply prefixes_room; [auto|lia]). lia.
Qed.

Lemma concat_last : forall A (L : list (list A)), length (concat (removelast L)) + length (last L []) = length (concat L).
Proof.
  intros A L. destruct L as [|x L] using rev_ind; [reflexivity|]. rewrite removelast_last, last_last, concat_app, app_length.
  cbn. rewrite app_nil_r. reflexivity.
Qed.

Lemma concat_at : forall A (L : list (list A)) m, m < length L -> (forall l, m < l -> nth l L [] = []) ->
  length (concat (firstn m L)) + length (nth m L []) = length (concat L).
Proof.
  intros A L. induction L as [|x L IH]; intros m M E; [cbn in M; lia|]. destruct m as [|m].
  - cbn [firstn concat length nth]. assert (concat L = []) as ->; [|rewrite app_nil_r; reflexivity].
    clear - E. assert (F : forall y, In y L -> y = []).
    { intros y Y. apply In_nth with (d := []) in Y. destruct Y as (n & _ & <-). apply (E (S n)). lia. }
    clear E. induction L as [|y L IH]; [reflexivity|]. cbn [concat]. rewrite (F y (or_introl eq_refl)), IH; auto.
    intros z Z. apply F. right. exact Z.
  - cbn [firstn concat nth]. rewrite !app_length, <- (IH m); [lia|cbn in M; lia|]. intros l L0. apply (E (S l)). lia.
Qed.

Lemma same_length : forall A B (P : A -> B -> Prop) l l', Forall2 P l l' -> length l = length l'.
Proof. intros A B P l l' F. induction F; cbn; congruence. Qed.

Theorem flat_space : forall u s, (3 <= u <= 2 ^ 48)%N -> s <> [] -> increasing s -> below u s -> shorter 32 s ->
  exists t, flat_build s u = Ok t /\
    length (f_bTrie t) + length (f_lastLevel t) <= 2 * capped (length s) (digits u).
Proof.
  intros u s U NE I B S32. destruct (flat_stored u s) as (t & E & _ & T & L); auto. exists t. split; [exact E|].
  rewrite T, L, concat_last. apply set_levels_capped; [lia|]. apply digits_small_members; auto. lia.
Qed.

Theorem flat_run_space : forall u s R, (3 <= u <= 2 ^ 48)%N -> s <> [] -> increasing s -> below u s -> shorter 32 s ->
  union_of R s ->
  exists t t', flat_build s u = Ok t /\ flat_encodeRuns t = Ok t' /\
    length (f_bTrie t') + length (f_lastLevel t') <= 2 * capped (Nat.min (length s) (4 * length R)) (digits u).
Proof.
  intros u s R U NE I B S32 UR. destruct (flat_stored_runs u s) as (t & t' & m & E & E' & _ & (M & _ & L0) & _ & T & L); auto.
  exists t, t'. split; [exact E|]. split; [exact E'|]. rewrite T, L, concat_at by auto.
  apply run_levels_capped; auto. apply digits_small_members; auto. lia.
Qed.

Theorem level_space : forall il u s, (2 <= u <= 2 ^ 48)%N -> s <> [] -> increasing s -> below u s ->
  exists t, level_build il s u = Ok t /\ length (concat (l_bTrie t)) <= 2 * capped (length s) (digits u).
Proof.
  intros il u s U NE I B. destruct (level_stored il u s) as (t & E & T); auto. exists t. split; [exact E|].
  rewrite T. apply set_levels_capped; [lia|]. apply digits_small_members; auto. lia.
Qed.

Theorem level_run_space : forall il u s R, (2 <= u <= 2 ^ 48)%N -> s <> [] -> increasing s -> below u s -> union_of R s ->
  exists t t', level_build il s u = Ok t /\ level_encodeRuns t = Ok t' /\
    length (concat (l_bTrie t')) <= 2 * capped (Nat.min (length s) (4 * length R)) (digits u).
Proof.
  intros il u s R U NE I B UR. destruct (level_stored_runs il u s) as (t & t' & E & E' & T); auto.
  exists t, t'. split; [exact E|]. split; [exact E'|]. rewrite T.
  apply run_levels_capped; auto. apply digits_small_members; auto. lia.
Qed.

Lemma firstn_levels : forall (f : nat -> list bool) n h, n <= h ->
  firstn n (map f (seq 0 h)) = map f (seq 0 n).
Proof.
  intros f n h H. rewrite firstn_map. f_equal. replace h with (n + (h - n)) by lia. rewrite seq_app, firstn_app, seq_length.
  replace (n - n) with 0 by lia. cbn [firstn]. rewrite app_nil_r. rewrite firstn_all2; [reflexivity|rewrite seq_length; lia].
Qed.

Theorem fast_space : forall lw jh je u s, In lw [3; 4; 5; 6] -> (2 ^ N.of_nat lw < 2 * u <= 2 * 2 ^ 48)%N ->
  s <> [] -> increasing s -> below u s -> shorter 32 s ->
  exists t, fast_build lw jh je s u = Ok t /\
    length (x_bTrie t) <= 2 * capped (length s) (digits u - lw) /\
    length (x_lastLevel t) <= Nat.min (2 ^ (digits u - lw)) (length s).
Proof.
  intros lw jh je u s LW U NE I B S32. destruct (fast_stored lw jh je u s) as (t & E & T & F); auto.
  assert (D : forall x, In x s -> (x < 2 ^ N.of_nat (digits u))%N) by (apply digits_small_members; auto; lia).
  exists t. split; [exact E|]. split.
  - rewrite T. unfold set_levels. rewrite firstn_levels by lia. apply set_levels_capped; [lia|auto].
  - apply same_length in F. rewrite <- F. assert (length (prefixes s lw) <= length s) by apply prefixes_members.
    destruct (Nat.le_gt_cases lw (digits u)) as [L|L].
    + assert (length (prefixes s lw) <= 2 ^ (digits u - lw)) by (apply prefixes_room; auto). lia.
    + apply Nat.min_glb; [|auto]. replace (digits u - lw) with 0 by lia.
      assert (Q : incl (prefixes s lw) [0%N]).
      { intros q Q. apply in_prefixes in Q. destruct Q as (y & Y & <-). left. symmetry. apply N.div_small.
        specialize (D y Y). assert (2 ^ N.of_nat (digits u) <= 2 ^ N.of_nat lw)%N by (apply N.pow_le_mono_r; lia). lia. }
      apply NoDup_incl_length in Q; [exact Q|apply NoDup_nodup].
Qed.

Theorem fast_run_space : forall lw jh je u s R, In lw [3; 4; 5; 6] -> (2 ^ N.of_nat lw < 2 * u <= 2 * 2 ^ 48)%N ->
  s <> [] -> increasing s -> below u s -> shorter 32 s -> union_of R s ->
  exists t t', fast_build lw jh je s u = Ok t /\ fast_encodeRuns t = Ok t' /\
    length (x_bTrie t') <= 2 * capped (Nat.min (length s) (4 * length R)) (digits u - lw) /\
    length (x_lastLevel t') <= Nat.min (length s) (4 * length R).
Proof.
  intros lw jh je u s R LW U NE I B S32 UR. destruct (fast_stored_runs lw jh je u s) as (t & t' & E & E' & T & F); auto.
  assert (D : forall x, In x s -> (x < 2 ^ N.of_nat (digits u))%N) by (apply digits_small_members; auto; lia).
  exists t, t'. split; [exact E|]. split; [exact E'|]. split.
  - rewrite T. unfold run_levels. rewrite firstn_levels by lia. apply run_levels_capped; [lia|auto..].
  - apply same_length in F. rewrite <- F. apply Nat.min_glb.
    + etransitivity; [apply (run_nodes_le s lw)|apply prefixes_members].
    + apply (run_nodes_edges (digits u) s D I R lw UR).
Qed.

(** * Calls of an intersection *)

(** Every call but the first is in a block with an end of an interval of some set. *)
Lemma calls_edges : forall A (l : list A) (sets : A -> list N) Rs b q K,
  Forall2 (fun R x => union_of R (sets x)) Rs l ->
  common_prefix (map sets l) b q -> b <= K ->
  ~ Forall (fun x => block_full (sets x) K (q * 2 ^ N.of_nat b)) l ->
  exists e, In e (flat_map ends_of Rs) /\ (e / 2 ^ N.of_nat K = q * 2 ^ N.of_nat b / 2 ^ N.of_nat K)%N.
Proof.
  intros A l sets Rs b q K F C BK NF. set (p := (q * 2 ^ N.of_nat b)%N) in *.
  assert (D : forall P : A -> Prop, (forall x, In x l -> P x \/ exists e, In e (flat_map ends_of Rs) /\ (e / 2 ^ N.of_nat K = p / 2 ^ N.of_nat K)%N) ->
     Forall P l \/ exists e, In e (flat_map ends_of Rs) /\ (e / 2 ^ N.of_nat K = p / 2 ^ N.of_nat K)%N).
  { clear. intros P. induction l as [|x l IH]; intros H; [left; constructor|].
    destruct (H x (or_introl eq_refl)) as [Hx|Hx]; [|right; exact Hx].
    destruct IH as [IH|IH]; [intros y Y; apply H; right; exact Y|left; constructor; auto|right; exact IH]. }
  destruct (D (fun x => block_full (sets x) K p)) as [Y|Y]; [|contradiction|exact Y].
  intros x X. unfold common_prefix in C. rewrite Forall_map, Forall_forall in C. destruct (C x X) as (y & Y & Q).
  assert (Hp : (p / 2 ^ N.of_nat K = y / 2 ^ N.of_nat K)%N).
  { unfold p. replace K with (b + (K - b)) by lia. rewrite Nat2N.inj_add, N.pow_add_r.
    rewrite <- !N.div_div by (apply N.pow_nonzero; lia). rewrite N.div_mul by (apply N.pow_nonzero; lia). congruence. }
  assert (exists R, In R Rs /\ union_of R (sets x)) as (R & IR & U).
  { clear - F X. induction F as [|R x' Rs l U F IH]; [destruct X|]. destruct X as [->|X]; [exists R; split; [left|]; auto|].
    destruct (IH X) as (R' & I & U'). exists R'. split; [right|]; auto. }
  assert (IN : forall z, (z / 2 ^ N.of_nat K = p / 2 ^ N.of_nat K)%N ->
    In z (sets x) \/ exists e, In e (flat_map ends_of Rs) /\ (e / 2 ^ N.of_nat K = p / 2 ^ N.of_nat K)%N).
  { intros z Z. destruct (in_dec N.eq_dec z (sets x)) as [I|I]; [left; exact I|right].
    destruct (edge_in_block R (sets x) K y U Y) as (e & E1 & E2).
    - intros BF. apply I, BF. congruence.
    - exists e. split; [apply in_flat_map; eauto|congruence]. }
  destruct (existsb (fun e => N.eqb (e / 2 ^ N.of_nat K) (p / 2 ^ N.of_nat K)) (flat_map ends_of Rs)) eqn:EX.
  - right. apply existsb_exists in EX. destruct EX as (e & E1 & E2). apply N.eqb_eq in E2. eauto.
  - left. intros z Z. destruct (IN z Z) as [I|(e & E1 & E2)]; [exact I|].
    assert (existsb (fun e => N.eqb (e / 2 ^ N.of_nat K) (p / 2 ^ N.of_nat K)) (flat_map ends_of Rs) = true); [|congruence].
    apply existsb_exists. exists e. split; [exact E1|apply N.eqb_eq, E2].
Qed.

Lemma all_ends_length : forall Rs, length (flat_map ends_of Rs) = 2 * list_sum (map (@length (N * N)) Rs).
Proof.
  induction Rs as [|R Rs IH]; [reflexivity|]. cbn [flat_map]. rewrite app_length, ends_of_length, IH.
  change (list_sum (map (@length (N * N)) (R :: Rs))) with (length R + list_sum (map (@length (N * N)) Rs)). lia.
Qed.

Lemma flat_map_size : forall A B (f : A -> list B) c l, (forall x, In x l -> length (f x) <= c) -> length (flat_map f l) <= c * length l.
Proof.
  intros A B f c l. induction l as [|x l IH]; intros F; [cbn; lia|]. cbn [flat_map length]. rewrite app_length.
  assert (F1 := F x (or_introl eq_refl)). assert (F2 := IH (fun y Y => F y (or_intror Y))). lia.
Qed.

(** The values of a call at block size [b] in the block of size [K] around [e]. *)
Definition call_values (b K : nat) (e : N) : list N :=
  map (fun i => ((e / 2 ^ N.of_nat K * 2 ^ N.of_nat (K - b) + N.of_nat i) * 2 ^ N.of_nat b)%N) (seq 0 (2 ^ (K - b))).

Lemma call_values_in : forall b K e q, b <= K -> (e / 2 ^ N.of_nat K = q * 2 ^ N.of_nat b / 2 ^ N.of_nat K)%N ->
  In (q * 2 ^ N.of_nat b)%N (call_values b K e).
Proof.
  intros b K e q BK E. unfold call_values.
  assert (H : (e / 2 ^ N.of_nat K = q / 2 ^ N.of_nat (K - b))%N).
  { rewrite E. replace K with (b + (K - b)) at 1 by lia. rewrite Nat2N.inj_add, N.pow_add_r.
    rewrite <- !N.div_div by (apply N.pow_nonzero; lia). rewrite N.div_mul by (apply N.pow_nonzero; lia). reflexivity. }
  set (w := (2 ^ N.of_nat (K - b))%N) in *. assert (W : w <> 0%N) by (apply N.pow_nonzero; lia).
  apply in_map_iff. exists (N.to_nat (q mod w)). split.
  - rewrite N2Nat.id, H. f_equal. rewrite (N.div_mod q w) at 3 by auto. lia.
  - apply in_seq. split; [lia|]. assert (M := N.mod_lt q w W).
    assert (Q : 2 ^ (K - b) = N.to_nat w) by (unfold w; rewrite N2Nat.inj_pow, Nat2N.id; reflexivity). lia.
Qed.

Lemma plain_ok_below : forall u v s, plain_ok u v s -> below u s.
Proof. intros u v s P. destruct v; apply P. Qed.

Theorem bin_run_work : forall u (l : list bitem) Rs s1 s2 hc,
  (2 <= u <= 2 ^ 48)%N -> 1 <= length l <= 16 -> Forall (bitem_ok u) l ->
  Forall (fun x : bitem => snd (fst x) = true) l -> (1 <= hc)%N ->
  Forall2 (fun R x => union_of R (snd x)) Rs l ->
  exists Ts r c, each_ok (make_bitem u) l = Ok Ts /\
    Intersect_calls Bin hc (map bin_ops Ts) true = Ok (r, c) /\
    Intersect Bin s1 s2 hc (map bin_ops Ts) true false = Ok r /\ is_intersection (map snd l) r /\
    length c <= 1 + 4 * (digits u + 1) * list_sum (map (@length (N * N)) Rs).
Proof.
  intros u l Rs s1 s2 hc U N0 OK ENC HC F.
  destruct (bin_calls u l true s1 s2 hc) as (Ts & r & c & E1 & E2 & E3 & E4 & ND & C & B); auto; [discriminate|].
  exists Ts, r, c. do 4 (split; [assumption|]). set (h := digits u) in *. set (tot := list_sum _).
  set (cands := fun m => let b := h - m in map (fun p => (m, p)) (flat_map (call_values b (Nat.max 2 (S b))) (flat_map ends_of Rs))).
  assert (I : incl c ((0, 0%N) :: flat_map cands (seq 1 h))).
  { intros [m p] MP. apply C in MP. destruct MP as (b & q & CA & CP & D). destruct m as [|m].
    - left. f_equal. symmetry. destruct l as [|x l]; [cbn in N0; lia|]. apply Forall_inv in OK. apply Forall_inv in CP.
      eapply top_prefix; [|exact CA|exact CP]. apply Forall_forall. apply digits_small_members; [lia|].
      destruct OK as (PO & _). exact (plain_ok_below _ _ _ PO).
    - right. destruct CA as (H & ->). destruct D as [D|D]; [discriminate|]. apply in_flat_map. exists (S m).
      split; [apply in_seq; lia|]. unfold cands. cbv zeta. replace (h - S m) with b by lia. apply in_map.
      destruct (calls_edges _ l snd Rs b q (Nat.max 2 (S b)) F CP ltac:(lia)) as (e & X1 & X2).
      { intros BF. apply D. rewrite Forall_forall in *. intros x X. split; [apply ENC, X|apply BF, X]. }
      apply in_flat_map. exists e. split; [exact X1|]. apply call_values_in; [lia|exact X2]. }
  apply NoDup_incl_length in I; [|exact ND]. cbn [length] in I.
  assert (J : length (flat_map cands (seq 1 h)) <= 4 * (h + 1) * tot).
  { assert (A : forall b, length (flat_map (call_values b (Nat.max 2 (S b))) (flat_map ends_of Rs)) <= (if b =? 0 then 4 else 2) * (2 * tot)).
    { intros b. unfold tot. rewrite <- all_ends_length. apply flat_map_size. intros e _. unfold call_values. rewrite map_length, seq_length.
      destruct b as [|b]; [reflexivity|]. cbn [Nat.eqb]. replace (Nat.max 2 (S (S b)) - S b) with 1 by lia. reflexivity. }
    destruct h as [|h']; [cbn; lia|]. replace (seq 1 (S h')) with (seq 1 h' ++ [S h']) by (rewrite <- seq_S; reflexivity).
    rewrite flat_map_app, app_length. cbn [flat_map]. rewrite app_nil_r.
    assert (A1 : length (cands (S h')) <= 8 * tot).
    { unfold cands. cbv zeta. rewrite map_length. etransitivity; [apply A|]. replace (S h' - S h') with 0 by lia. cbn [Nat.eqb]. lia. }
    assert (A2 : length (flat_map cands (seq 1 h')) <= 4 * tot * h').
    { rewrite <- (seq_length h' 1) at 2. apply flat_map_size. intros m M. apply in_seq in M. unfold cands. cbv zeta.
      rewrite map_length. etransitivity; [apply A|]. destruct (S h' - m =? 0) eqn:Z; [apply Nat.eqb_eq in Z; lia|]. lia. }
    nia. }
  unfold tot in *. lia.
Qed.

Theorem fast_run_work : forall u lw (l : list fitem) Rs s1 s2 hc,
  fast_universe u lw -> 1 <= length l <= 16 -> Forall (fitem_ok u) l ->
  Forall (fun x => f_enc x = true) l -> (1 <= hc)%N ->
  Forall2 (fun R x => union_of R (snd x)) Rs l ->
  exists Ts r c, each_ok (make_fitem u lw) l = Ok Ts /\
    Intersect_calls (Fast lw) hc (map fast_ops Ts) true = Ok (r, c) /\
    Intersect (Fast lw) s1 s2 hc (map fast_ops Ts) true false = Ok r /\ is_intersection (map snd l) r /\
    length c <= 1 + 4 * (digits u - lw) * list_sum (map (@length (N * N)) Rs).
Proof.
  intros u lw l Rs s1 s2 hc U N0 OK ENC HC F.
  destruct (fast_calls u lw l true s1 s2 hc) as (Ts & r & c & E1 & E2 & E3 & E4 & ND & C & B); auto; [discriminate|].
  exists Ts, r, c. do 4 (split; [assumption|]). set (h := digits u) in *. set (tot := list_sum _).
  set (cands := fun m => let b := h - m in map (fun p => (m, p)) (flat_map (call_values b (S b)) (flat_map ends_of Rs))).
  assert (I : incl c ((0, 0%N) :: flat_map cands (seq 1 (h - lw)))).
  { intros [m p] MP. apply C in MP. destruct MP as (b & q & CA & BL & CP & D). destruct m as [|m].
    - left. f_equal. symmetry. destruct l as [|x l]; [cbn in N0; lia|]. apply Forall_inv in OK. apply Forall_inv in CP.
      eapply top_prefix; [|exact CA|exact CP]. apply Forall_forall. apply digits_small_members; [destruct U; lia|]. apply OK.
    - right. destruct CA as (H & ->). destruct D as [D|D]; [discriminate|]. apply in_flat_map. exists (S m).
      split; [apply in_seq; lia|]. unfold cands. cbv zeta. replace (h - S m) with b by lia. apply in_map.
      destruct (calls_edges _ l snd Rs b q (S b) F CP ltac:(lia)) as (e & X1 & X2).
      { intros BF. apply D. rewrite Forall_forall in *. intros x X. split; [apply ENC, X|apply BF, X]. }
      apply in_flat_map. exists e. split; [exact X1|]. apply call_values_in; [lia|exact X2]. }
  apply NoDup_incl_length in I; [|exact ND]. cbn [length] in I.
  assert (J : length (flat_map cands (seq 1 (h - lw))) <= 4 * tot * (h - lw)).
  { rewrite <- (seq_length (h - lw) 1) at 2. apply flat_map_size. intros m M. unfold cands. cbv zeta. rewrite map_length.
    assert (A : length (flat_map (call_values (h - m) (S (h - m))) (flat_map ends_of Rs)) <= 2 * (2 * tot)); [|lia].
    unfold tot. rewrite <- all_ends_length. apply flat_map_size. intros e _. unfold call_values. rewrite map_length, seq_length.
    replace (S (h - m) - (h - m)) with 1 by lia. reflexivity. }
  unfold tot in *. nia.
Qed.
