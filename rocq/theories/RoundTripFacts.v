(** The round-trip lemmas in the form used by the property files. *)

From Verif Require Import Base FlatTrie LevelTrie FastTrie Facts RoundTrip Spec.

Lemma below_short : forall u s, (u <= 2 ^ 48)%N -> increasing s -> below u s -> shorter 64 s.
Proof.
  intros u s Hu Hs Hb. unfold shorter.
  assert (H : length s <= N.to_nat u).
  { rewrite <- (nrange_length (N.to_nat u) 0). apply NoDup_incl_length.
    - clear Hb. induction Hs; constructor; auto. intros Hin. rewrite Forall_forall in H.
      apply H in Hin. lia.
    - intros x Hx. unfold below in Hb. rewrite Forall_forall in Hb. apply Hb in Hx.
      apply In_nrange. lia. }
  assert ((2 ^ 48 < 2 ^ 64)%N) by reflexivity. lia.
Qed.

Lemma In_lw : forall lw, In lw [3; 4; 5; 6] -> lw <= 6.
Proof. cbn. intros. lia. Qed.

Lemma flat_round_trip_app : forall u s v,
  (3 <= u <= 2 ^ 48)%N -> s <> [] -> increasing s -> below u s -> shorter 32 s ->
  exists t, flat_build s u = Ok t /\ flat_decode t v = Ok (v ++ s).
Proof.
  intros u s v Hu Hne Hs Hb Hl.
  destruct (flat_round_trip u s) as (t & r & Ht & Hr & Hd); auto using increasing_nondecreasing.
  exists t. split; auto. rewrite (is_set_of_unique s s r); auto using is_set_of_self.
Qed.

Lemma level_round_trip_app : forall il u s v, (2 <= u <= 2 ^ 48)%N -> increasing s -> below u s ->
  exists t, level_build il s u = Ok t /\ level_decode t v = Ok (v ++ s).
Proof.
  intros il u s v Hu Hs Hb. destruct s as [|x s'].
  - destruct (level_round_trip_empty il u Hu) as (t & Ht & Hd). exists t. rewrite app_nil_r. auto.
  - set (s := x :: s') in *.
    destruct (level_round_trip il u s) as (t & r & Ht & Hr & Hd);
      auto using increasing_nondecreasing; try discriminate.
    { apply below_short with (u := u); auto. lia. }
    exists t. split; auto. rewrite (is_set_of_unique s s r); auto using is_set_of_self.
Qed.

Lemma fast_round_trip_app : forall lw jh je u s v, In lw [3; 4; 5; 6] ->
  (2 ^ N.of_nat lw < 2 * u <= 2 * 2 ^ 48)%N ->
  s <> [] -> increasing s -> below u s -> shorter 32 s ->
  exists t, fast_build lw jh je s u = Ok t /\ fast_decode t v = Ok (v ++ s).
Proof.
  intros lw jh je u s v Hlw Hu Hne Hs Hb Hl.
  assert (H8 : (2 ^ N.of_nat 3 <= 2 ^ N.of_nat lw)%N).
  { apply N.pow_le_mono_r; [lia|]. cbn in Hlw. lia. }
  change (2 ^ N.of_nat 3)%N with 8%N in H8.
  destruct (fast_round_trip lw jh je u s) as (t & r & Ht & Hr & Hd);
    auto using increasing_nondecreasing, In_lw; unfold pow2; try lia.
  exists t. split; auto. rewrite (is_set_of_unique s s r); auto using is_set_of_self.
Qed.

Lemma flat_round_trip_set : forall u s,
  (3 <= u <= 2 ^ 48)%N -> s <> [] -> increasing s -> below u s -> shorter 32 s ->
  exists t, flat_build s u = Ok t /\ flat_decode t [] = Ok s.
Proof. intros. apply (flat_round_trip_app u s []); auto. Qed.

Lemma level_round_trip_set : forall il u s, (2 <= u <= 2 ^ 48)%N -> increasing s -> below u s ->
  exists t, level_build il s u = Ok t /\ level_decode t [] = Ok s.
Proof. intros. apply (level_round_trip_app il u s []); auto. Qed.

Lemma fast_round_trip_set : forall lw jh je u s, In lw [3; 4; 5; 6] ->
  (2 ^ N.of_nat lw < 2 * u <= 2 * 2 ^ 48)%N ->
  s <> [] -> increasing s -> below u s -> shorter 32 s ->
  exists t, fast_build lw jh je s u = Ok t /\ fast_decode t [] = Ok s.
Proof. intros. apply (fast_round_trip_app lw jh je u s []); auto. Qed.

Lemma flat_round_trip_multiset : forall u s,
  (3 <= u <= 2 ^ 48)%N -> s <> [] -> nondecreasing s -> below u s -> shorter 32 s ->
  exists t r, flat_build s u = Ok t /\ flat_decode t [] = Ok r /\ is_set_of s r.
Proof.
  intros u s Hu Hne Hs Hb Hl. destruct (flat_round_trip u s) as (t & r & Ht & Hr & Hd); auto.
  exists t, r. split; [auto|]. split; [apply (Hd [])|auto].
Qed.

Lemma level_round_trip_multiset : forall il u s,
  (2 <= u <= 2 ^ 48)%N -> s <> [] -> nondecreasing s -> below u s -> shorter 64 s ->
  exists t r, level_build il s u = Ok t /\ level_decode t [] = Ok r /\ is_set_of s r.
Proof.
  intros il u s Hu Hne Hs Hb Hl. destruct (level_round_trip il u s) as (t & r & Ht & Hr & Hd); auto.
  exists t, r. split; [auto|]. split; [apply (Hd [])|auto].
Qed.

Lemma fast_round_trip_multiset : forall lw jh je u s, In lw [3; 4; 5; 6] ->
  (2 ^ N.of_nat lw < 2 * u <= 2 * 2 ^ 48)%N ->
  s <> [] -> nondecreasing s -> below u s -> shorter 32 s ->
  exists t r, fast_build lw jh je s u = Ok t /\ fast_decode t [] = Ok r /\ is_set_of s r.
Proof.
  intros lw jh je u s Hlw Hu Hne Hs Hb Hl.
  assert (H8 : (2 ^ N.of_nat 3 <= 2 ^ N.of_nat lw)%N).
  { apply N.pow_le_mono_r; [lia|]. cbn in Hlw. lia. }
  change (2 ^ N.of_nat 3)%N with 8%N in H8.
  destruct (fast_round_trip lw jh je u s) as (t & r & Ht & Hr & Hd);
    auto using In_lw; unfold pow2; try lia.
  exists t, r. split; [auto|]. split; [apply (Hd [])|auto].
Qed.

Lemma decode_appends_set : forall u s v,
  (3 <= u <= 2 ^ 48)%N -> s <> [] -> increasing s -> below u s -> shorter 32 s ->
  (exists t, flat_build s u = Ok t /\ flat_decode t v = Ok (v ++ s)) /\
  (forall il, exists t, level_build il s u = Ok t /\ level_decode t v = Ok (v ++ s)) /\
  (forall lw jh je, In lw [3; 4; 5; 6] -> (2 ^ N.of_nat lw < 2 * u)%N ->
     exists t, fast_build lw jh je s u = Ok t /\ fast_decode t v = Ok (v ++ s)).
Proof.
  intros u s v Hu Hne Hs Hb Hl. split; [|split].
  - apply flat_round_trip_app; auto.
  - intros il. apply level_round_trip_app; auto. lia.
  - intros lw jh je Hlw Hw. apply fast_round_trip_app; auto. lia.
Qed.
