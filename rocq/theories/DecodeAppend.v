(** decode only appends, whatever the trie holds. *)

From Verif Require Import Base FlatTrie LevelTrie FastTrie Facts.

(** [prefix v m]: [m] with [v] in front of its result. *)
Definition prefix (v : list N) (m : result (list N)) : result (list N) :=
  let* w := m in Ok (v ++ w).

Lemma prefix_prefix : forall v w m, prefix v (prefix w m) = prefix (v ++ w) m.
Proof. intros v w [m| |]; cbn; auto. rewrite app_assoc. auto. Qed.

Lemma prefix_bind : forall A v (m : result A) k,
  prefix v (let* x := m in k x) = let* x := m in prefix v (k x).
Proof. intros A v [m| |] k; reflexivity. Qed.

Lemma bind_prefix : forall v (m : result (list N)) k,
  (forall w, k (v ++ w) = prefix v (k w)) ->
  (let* x := prefix v m in k x) = prefix v (let* x := m in k x).
Proof. intros v [m| |] k H; cbn; auto. Qed.

Lemma push_range_append : forall v d i j, push_range (v ++ d) i j = v ++ push_range d i j.
Proof. intros. unfold push_range. rewrite app_assoc. auto. Qed.

Section Decode.
  Variables height stop : nat.
  Variable getNode : nat -> nat -> result N.
  Variable getLeft getRight : nat -> nat -> result nat.

  Lemma recursiveDecode_append : forall fuel v d p id lvl,
    recursiveDecode height stop getNode getLeft getRight fuel (v ++ d) p id lvl =
    prefix v (recursiveDecode height stop getNode getLeft getRight fuel d p id lvl).
  Proof.
    induction fuel; intros; cbn [recursiveDecode].
    - destruct (lvl =? stop); cbn; auto. rewrite app_assoc; auto.
    - destruct (lvl =? stop); [cbn; rewrite app_assoc; auto|].
      rewrite prefix_bind. destruct (getNode id lvl) as [n| |]; cbn [bind]; auto.
      assert (K : forall d,
        (if (N.eqb n 1 || N.eqb n 3)%bool then
           let* b := shl1 (height - lvl - 1) in
           let* c := getRight id lvl in
           recursiveDecode height stop getNode getLeft getRight fuel (v ++ d) (N.lor p b) c (S lvl)
         else Ok (v ++ d)) =
        prefix v (if (N.eqb n 1 || N.eqb n 3)%bool then
           let* b := shl1 (height - lvl - 1) in
           let* c := getRight id lvl in
           recursiveDecode height stop getNode getLeft getRight fuel d (N.lor p b) c (S lvl)
         else Ok d)).
      { intros d'. destruct (_ || _)%bool; auto.
        destruct (shl1 _); cbn [bind]; auto. destruct (getRight id lvl); cbn [bind]; auto. }
      destruct (N.eqb n 2 || N.eqb n 3)%bool.
      + destruct (getLeft id lvl); cbn [bind]; auto. rewrite IHfuel. apply bind_prefix, K.
      + cbn [bind]. apply K.
  Qed.

  Lemma runsRecursiveDecode_append : forall fuel v d p id lvl,
    runsRecursiveDecode height stop getNode getLeft getRight fuel (v ++ d) p id lvl =
    prefix v (runsRecursiveDecode height stop getNode getLeft getRight fuel d p id lvl).
  Proof.
    induction fuel; intros; cbn [runsRecursiveDecode].
    - destruct (lvl =? stop); cbn; auto. rewrite app_assoc; auto.
    - destruct (lvl =? stop); [cbn; rewrite app_assoc; auto|].
      rewrite prefix_bind. destruct (getNode id lvl) as [n| |]; cbn [bind]; auto.
      destruct (n =? 0)%N.
      { destruct (shl1 _); cbn [bind]; auto. cbn. rewrite push_range_append. auto. }
      assert (K : forall d,
        (if (N.eqb n 1 || N.eqb n 3)%bool then
           let* b := shl1 (height - lvl - 1) in
           let* c := getRight id lvl in
           runsRecursiveDecode height stop getNode getLeft getRight fuel (v ++ d) (N.lor p b) c (S lvl)
         else Ok (v ++ d)) =
        prefix v (if (N.eqb n 1 || N.eqb n 3)%bool then
           let* b := shl1 (height - lvl - 1) in
           let* c := getRight id lvl in
           runsRecursiveDecode height stop getNode getLeft getRight fuel d (N.lor p b) c (S lvl)
         else Ok d)).
      { intros d'. destruct (_ || _)%bool; auto.
        destruct (shl1 _); cbn [bind]; auto. destruct (getRight id lvl); cbn [bind]; auto. }
      destruct (N.eqb n 2 || N.eqb n 3)%bool.
      + destruct (getLeft id lvl); cbn [bind]; auto. rewrite IHfuel. apply bind_prefix, K.
      + cbn [bind]. apply K.
  Qed.
End Decode.

Theorem flat_decode_append : forall t v, flat_decode t v = prefix v (flat_decode t []).
Proof.
  intros. rewrite <- (app_nil_r v) at 1. unfold flat_decode.
  destruct (f_runs_encoded t); [destruct (f_empty_trie t)|]; auto.
  - apply runsRecursiveDecode_append.
  - apply recursiveDecode_append.
Qed.

Theorem level_decode_append : forall t v, level_decode t v = prefix v (level_decode t []).
Proof.
  intros. rewrite <- (app_nil_r v) at 1. unfold level_decode.
  destruct (l_runs_encoded t); [destruct (l_empty_trie t)|]; auto.
  - apply runsRecursiveDecode_append.
  - apply recursiveDecode_append.
Qed.

Lemma word_bits_append : forall fuel lw w base v d,
  word_bits fuel lw w base (v ++ d) = prefix v (word_bits fuel lw w base d).
Proof.
  induction fuel; intros; cbn [word_bits]; destruct (w =? 0)%N; auto.
  cbv zeta. rewrite <- app_assoc. apply IHfuel.
Qed.

Lemma fast_recursiveDecode_append : forall fuel t v d p id lvl,
  fast_recursiveDecode fuel t (v ++ d) p id lvl = prefix v (fast_recursiveDecode fuel t d p id lvl).
Proof.
  induction fuel; intros; cbn [fast_recursiveDecode].
  - destruct (_ =? _); auto. destruct (fast_getWord t id); cbn [bind]; auto. apply word_bits_append.
  - destruct (_ =? _).
    { destruct (fast_getWord t id); cbn [bind]; auto. apply word_bits_append. }
    rewrite prefix_bind. destruct (fast_getNode t id lvl) as [n| |]; cbn [bind]; auto.
    assert (K : forall d,
      (if (N.eqb n 1 || N.eqb n 3)%bool then
         let* b := shl1 (x_height_u t - lvl - 1) in
         let* c := fast_getRightChild t id lvl in
         fast_recursiveDecode fuel t (v ++ d) (N.lor p b) c (S lvl)
       else Ok (v ++ d)) =
      prefix v (if (N.eqb n 1 || N.eqb n 3)%bool then
         let* b := shl1 (x_height_u t - lvl - 1) in
         let* c := fast_getRightChild t id lvl in
         fast_recursiveDecode fuel t d (N.lor p b) c (S lvl)
       else Ok d)).
    { intros d'. destruct (_ || _)%bool; auto.
      destruct (shl1 _); cbn [bind]; auto. destruct (fast_getRightChild t id lvl); cbn [bind]; auto. }
    destruct (N.eqb n 2 || N.eqb n 3)%bool.
    + destruct (fast_getLeftChild t id lvl); cbn [bind]; auto. rewrite IHfuel. apply bind_prefix, K.
    + cbn [bind]. apply K.
Qed.

Lemma fast_runsRecursiveDecode_append : forall fuel t v d p id lvl,
  fast_runsRecursiveDecode fuel t (v ++ d) p id lvl =
  prefix v (fast_runsRecursiveDecode fuel t d p id lvl).
Proof.
  induction fuel; intros; cbn [fast_runsRecursiveDecode].
  - destruct (_ =? _); auto. destruct (fast_getWord t id); cbn [bind]; auto. apply word_bits_append.
  - destruct (_ =? _).
    { destruct (fast_getWord t id); cbn [bind]; auto. apply word_bits_append. }
    rewrite prefix_bind. destruct (fast_getNode t id lvl) as [n| |]; cbn [bind]; auto.
    destruct (n =? 0)%N.
    { destruct (shl1 _); cbn [bind]; auto. cbn. rewrite push_range_append. auto. }
    assert (K : forall d,
      (if (N.eqb n 1 || N.eqb n 3)%bool then
         let* b := shl1 (x_height_u t - lvl - 1) in
         let* c := fast_getRightChild t id lvl in
         fast_runsRecursiveDecode fuel t (v ++ d) (N.lor p b) c (S lvl)
       else Ok (v ++ d)) =
      prefix v (if (N.eqb n 1 || N.eqb n 3)%bool then
         let* b := shl1 (x_height_u t - lvl - 1) in
         let* c := fast_getRightChild t id lvl in
         fast_runsRecursiveDecode fuel t d (N.lor p b) c (S lvl)
       else Ok d)).
    { intros d'. destruct (_ || _)%bool; auto.
      destruct (shl1 _); cbn [bind]; auto. destruct (fast_getRightChild t id lvl); cbn [bind]; auto. }
    destruct (N.eqb n 2 || N.eqb n 3)%bool.
    + destruct (fast_getLeftChild t id lvl); cbn [bind]; auto. rewrite IHfuel. apply bind_prefix, K.
    + cbn [bind]. apply K.
Qed.

Theorem fast_decode_append : forall t v, fast_decode t v = prefix v (fast_decode t []).
Proof.
  intros. rewrite <- (app_nil_r v) at 1. unfold fast_decode.
  destruct (x_runs_encoded t).
  - destruct (oget (x_empty_trie t)) as [[|]| |]; cbn [bind]; auto.
    apply fast_runsRecursiveDecode_append.
  - apply fast_recursiveDecode_append.
Qed.

Theorem decode_any_append : forall v r,
  (forall t, flat_decode t [] = Ok r -> flat_decode t v = Ok (v ++ r)) /\
  (forall t, level_decode t [] = Ok r -> level_decode t v = Ok (v ++ r)) /\
  (forall t, fast_decode t [] = Ok r -> fast_decode t v = Ok (v ++ r)).
Proof.
  intros v r. repeat split; intros t E.
  - rewrite flat_decode_append, E. reflexivity.
  - rewrite level_decode_append, E. reflexivity.
  - rewrite fast_decode_append, E. reflexivity.
Qed.

Theorem decode_any_prefix : forall v r,
  (forall t, flat_decode t v = Ok r -> exists w, flat_decode t [] = Ok w /\ r = v ++ w) /\
  (forall t, level_decode t v = Ok r -> exists w, level_decode t [] = Ok w /\ r = v ++ w) /\
  (forall t, fast_decode t v = Ok r -> exists w, fast_decode t [] = Ok w /\ r = v ++ w).
Proof.
  intros v r. repeat split; intros t E.
  - rewrite flat_decode_append in E. destruct (flat_decode t []); cbn in E; try discriminate.
    injection E as <-. eauto.
  - rewrite level_decode_append in E. destruct (level_decode t []); cbn in E; try discriminate.
    injection E as <-. eauto.
  - rewrite fast_decode_append in E. destruct (fast_decode t []); cbn in E; try discriminate.
    injection E as <-. eauto.
Qed.
