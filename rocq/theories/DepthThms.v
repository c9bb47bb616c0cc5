(** How deep the recursive procedures nest. *)

From Verif Require Import Base Split FlatTrie LevelTrie FastTrie ParallelFor Intersection Tries Facts
  Spec SpecTries SpecMeasures RoundTrip NodeCount InterThms CallsMain SpecEnds EndsFacts EndsCalls SpecDepth.

(** [m'] is what [m] becomes with more fuel. *)
Definition extends {A} (m m' : result A) : Prop := m = OutOfFuel \/ m = m'.

Lemma ext_refl : forall A (m : result A), extends m m.
Proof. right. reflexivity. Qed.

Lemma ext_bind : forall A B (m m' : result A) (f f' : A -> result B),
  extends m m' -> (forall a, extends (f a) (f' a)) -> extends (bind m f) (bind m' f').
Proof.
  intros A B m m' f f' [-> | ->] F; [left; reflexivity|]. destruct m' as [a|e|]; cbn [bind]; [apply F|right; auto|left; auto].
Qed.

Ltac ext_step :=
  match goal with
  | |- extends ?m ?m => apply ext_refl
  | |- extends (bind _ _) (bind _ _) => apply ext_bind; [|intros]
  | |- extends (match ?x with _ => _ end) (match ?x with _ => _ end) => destruct x
  end.
Ltac ext_steps := repeat (ext_step; cbv beta).

Lemma ext_AND : forall k Ts nT h n m l roots p r, n <= m ->
  extends (AND k Ts nT h n l roots p r) (AND k Ts nT h m l roots p r).
Proof.
  induction n as [|n IH]; intros [|m] l roots p r L; cbn [AND]; try lia; ext_steps; try (left; reflexivity); apply IH; lia.
Qed.

Lemma ext_runsAND : forall k Ts nT h n m l roots active p r, n <= m ->
  extends (runsAND k Ts nT h n l roots active p r) (runsAND k Ts nT h m l roots active p r).
Proof.
  induction n as [|n IH]; intros [|m] l roots active p r L; cbn [runsAND]; try lia; ext_steps;
    try (left; reflexivity); apply IH; lia.
Qed.

Lemma ext_partialAND : forall k Ts nT h runs n m l cut roots active p st, n <= m ->
  extends (partialAND k Ts nT h runs n l cut roots active p st) (partialAND k Ts nT h runs m l cut roots active p st).
Proof.
  induction n as [|n IH]; intros [|m] l cut roots active p st L; cbn [partialAND]; try lia; ext_steps;
    try (left; reflexivity); apply IH; lia.
Qed.

Lemma ext_compress : forall h gN gL gR n m st l id b, n <= m ->
  extends (writeCompressTrie h gN gL gR n st l id b) (writeCompressTrie h gN gL gR m st l id b).
Proof.
  induction n as [|n IH]; intros [|m] st l id b L; cbn [writeCompressTrie]; try lia; try (left; reflexivity); ext_steps;
    apply IH; lia.
Qed.

Lemma ext_fast_compress : forall t n m st ws l id b, n <= m ->
  extends (fast_writeCompress n t st ws l id b) (fast_writeCompress m t st ws l id b).
Proof.
  induction n as [|n IH]; intros [|m] st ws l id b L; cbn [fast_writeCompress]; try lia; try (left; reflexivity); ext_steps;
    apply IH; lia.
Qed.

Lemma ext_decode : forall h stop gN gL gR n m d p id l, n <= m ->
  extends (recursiveDecode h stop gN gL gR n d p id l) (recursiveDecode h stop gN gL gR m d p id l).
Proof.
  induction n as [|n IH]; intros [|m] d p id l L; cbn [recursiveDecode]; try lia; ext_steps; try (left; reflexivity);
    apply IH; lia.
Qed.

Lemma ext_runs_decode : forall h stop gN gL gR n m d p id l, n <= m ->
  extends (runsRecursiveDecode h stop gN gL gR n d p id l) (runsRecursiveDecode h stop gN gL gR m d p id l).
Proof.
  induction n as [|n IH]; intros [|m] d p id l L; cbn [runsRecursiveDecode]; try lia; ext_steps; try (left; reflexivity);
    apply IH; lia.
Qed.

Lemma ext_fast_decode : forall t n m d p id l, n <= m ->
  extends (fast_recursiveDecode n t d p id l) (fast_recursiveDecode m t d p id l).
Proof.
  induction n as [|n IH]; intros [|m] d p id l L; cbn [fast_recursiveDecode]; try lia; ext_steps; try (left; reflexivity);
    apply IH; lia.
Qed.

Lemma ext_fast_runs_decode : forall t n m d p id l, n <= m ->
  extends (fast_runsRecursiveDecode n t d p id l) (fast_runsRecursiveDecode m t d p id l).
Proof.
  induction n as [|n IH]; intros [|m] d p id l L; cbn [fast_runsRecursiveDecode]; try lia; ext_steps; try (left; reflexivity);
    apply IH; lia.
Qed.

Lemma nested : forall A (F : nat -> result A) d,
  (forall n m, n <= m -> extends (F n) (F m)) -> ends (F d) -> nested_at_most d F.
Proof.
  intros A F d X E. split; [exact E|]. intros n L. destruct (X d n L) as [Y|Y]; [destruct (E Y)|auto].
Qed.

(** * The procedures *)

Lemma bin_ops_all : forall ts, Forall ops_end (map bin_ops ts).
Proof. intros. apply Forall_map, Forall_forall. intros. apply bin_ops_end. Qed.
Lemma fast_ops_all : forall ts, Forall ops_end (map fast_ops ts).
Proof. intros. apply Forall_map, Forall_forall. intros. apply fast_ops_end. Qed.

Theorem and_depth : forall ts n h l roots active p r, l <= h ->
  nested_at_most (h - l) (fun d => AND Bin (map bin_ops ts) n h d l roots p r) /\
  nested_at_most (h - l) (fun d => runsAND Bin (map bin_ops ts) n h d l roots active p r).
Proof.
  intros ts n h l roots active p r L. split; apply nested.
  - intros. apply ext_AND. auto.
  - apply ends_AND; [apply bin_ops_all|exact I|split; [exact L|exact I]|cbn; lia].
  - intros. apply ext_runsAND. auto.
  - apply ends_runsAND; [apply bin_ops_all|exact I|split; [exact L|exact I]|cbn; lia].
Qed.

Theorem fast_and_depth : forall lw ts n h l roots active p r, lw <= 6 -> l < h ->
  nested_at_most (h - 1 - l) (fun d => AND (Fast lw) (map fast_ops ts) n h d l roots p r) /\
  nested_at_most (h - 1 - l) (fun d => runsAND (Fast lw) (map fast_ops ts) n h d l roots active p r).
Proof.
  intros lw ts n h l roots active p r W L. split; apply nested.
  - intros. apply ext_AND. auto.
  - apply ends_AND; [apply fast_ops_all|exact W|split; cbn; lia|cbn; lia].
  - intros. apply ext_runsAND. auto.
  - apply ends_runsAND; [apply fast_ops_all|exact W|split; cbn; lia|cbn; lia].
Qed.

Theorem partial_depth : forall ts n h runs l cut roots active p st, l <= cut ->
  nested_at_most (cut - l) (fun d => partialAND Bin (map bin_ops ts) n h runs d l cut roots active p st).
Proof.
  intros. apply nested; [intros; apply ext_partialAND; auto|].
  apply ends_partialAND; [apply bin_ops_all|auto|lia].
Qed.

Theorem fast_partial_depth : forall lw ts n h runs l cut roots active p st, l <= cut ->
  nested_at_most (cut - l) (fun d => partialAND (Fast lw) (map fast_ops ts) n h runs d l cut roots active p st).
Proof.
  intros. apply nested; [intros; apply ext_partialAND; auto|].
  apply ends_partialAND; [apply fast_ops_all|auto|lia].
Qed.

Theorem encode_depth : forall t st l id b, let T := bin_ops t in l < t_height T ->
  nested_at_most (t_height T - 1 - l)
    (fun d => writeCompressTrie (t_height T) (t_getNode T) (t_getLeft T) (t_getRight T) (S d) st l id b).
Proof.
  intros t st l id b T L. apply nested; [intros; apply ext_compress; lia|].
  destruct (bin_ops_end t) as (E1 & E2 & E3 & _). apply ends_writeCompress; auto. lia.
Qed.

Theorem fast_encode_depth : forall t st ws l id b, l < x_height t ->
  nested_at_most (x_height t - 1 - l) (fun d => fast_writeCompress (S d) t st ws l id b).
Proof.
  intros. apply nested; [intros; apply ext_fast_compress; lia|]. apply ends_fast_write; auto. lia.
Qed.

Theorem decode_depth : forall t stop values p id l, let T := bin_ops t in l <= stop ->
  nested_at_most (stop - l)
    (fun d => recursiveDecode (t_height T) stop (t_getNode T) (t_getLeft T) (t_getRight T) d values p id l) /\
  nested_at_most (stop - l)
    (fun d => runsRecursiveDecode (t_height T) stop (t_getNode T) (t_getLeft T) (t_getRight T) d values p id l).
Proof.
  intros t stop values p id l T L. destruct (bin_ops_end t) as (E1 & E2 & E3 & _).
  split; apply nested; try (intros; first [apply ext_decode; auto|apply ext_runs_decode; auto]);
    apply ends_decode_stop; auto; lia.
Qed.

Theorem level_decode_depth : forall t stop values p id l, let T := level_ops t in l <= t_height T ->
  nested_at_most (S (t_height T - l))
    (fun d => runsRecursiveDecode (t_height T) stop (t_getNode T) (t_getLeft T) (t_getRight T) d values p id l).
Proof.
  intros t stop values p id l T L. destruct (level_ops_end t) as (E1 & E2 & E3 & _).
  apply nested; [intros; apply ext_runs_decode; auto|].
  apply ends_runs_decode with (bound := t_height T); auto; [|lia].
  intros i j x _. apply level_getNode_bound.
Qed.

Theorem fast_decode_depth : forall t values p id l, words_fit t -> l < x_height t ->
  nested_at_most (x_height t - 1 - l) (fun d => fast_recursiveDecode d t values p id l) /\
  nested_at_most (x_height t - 1 - l) (fun d => fast_runsRecursiveDecode d t values p id l).
Proof.
  intros t values p id l W L.
  split; apply nested; try (intros; first [apply ext_fast_decode; auto|apply ext_fast_runs_decode; auto]);
    apply ends_fast_rec; auto; lia.
Qed.

Theorem made_height : forall u (x : bitem), (2 <= u <= 2 ^ 48)%N -> bitem_ok u x ->
  exists t, make_bitem u x = Ok t /\ t_height (bin_ops t) = digits u /\ digits u <= 48.
Proof.
  intros u ((v & enc) & s) Hu H. destruct (height_of_spec u Hu) as (h & Hh & Hr & Hp & H2 & _).
  assert (D := height_digits u h ltac:(lia) Hh). subst h.
  destruct (bin_make_tree u (digits u) v enc s Hh Hu Hr Hp H2 H) as (t & E & R & _).
  exists t. split; [exact E|]. split; [apply R|lia].
Qed.

Theorem fast_made_height : forall u lw (x : fitem), fast_universe u lw -> fitem_ok u x ->
  exists t, make_fitem u lw x = Ok t /\ x_height t = S (digits u - lw) /\ digits u <= 48.
Proof.
  intros u lw (((jh & je) & enc) & s) (Hlw & Hu) H.
  assert (U : (2 <= u <= 2 ^ 48)%N).
  { assert (P : (8 <= 2 ^ N.of_nat lw)%N)
      by (cbn in Hlw; destruct Hlw as [<-|[<-|[<-|[<-|[]]]]]; discriminate).
    lia. }
  destruct (height_of_spec u U) as (h & Hh & Hr & Hp & H2 & Hk).
  assert (D := height_digits u h ltac:(lia) Hh). subst h.
  assert (L : lw <= digits u).
  { cbn in Hlw. destruct lw as [|k]; [lia|]. assert (k < digits u); [|lia]. apply Hk. unfold pow2.
    rewrite Nat2N.inj_succ, N.pow_succ_r' in Hu. lia. }
  assert (L6 : lw <= 6) by (cbn in Hlw; lia).
  destruct (fast_make_tree u (digits u) lw jh je enc s Hh L6 L ltac:(lia) Hp H) as (t & E & R & _).
  exists t. split; [exact E|]. split; [apply R|lia].
Qed.
