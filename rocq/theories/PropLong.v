(** C70: lists of any length.  Full claim: a constructor uses every value of the list it is
    given, however long the list is.  True of level-wise tries (C02, where the length is not
    limited).  False of flat and fast tries. *)

From Verif Require Import Base FlatTrie LevelTrie FastTrie Spec SpecTries SpecLong LongThms.

(** They use the part of the list that a 32-bit count covers, and nothing else: for every list,
    in any order. *)
Theorem C70_flat_part_partial : forall (u : N) (s : list N), (3 <= u <= 2 ^ 48)%N -> s <> [] ->
  flat_build s u = flat_build (seen_part s) u.
Proof. exact flat_build_seen. Qed.
Print Assumptions C70_flat_part_partial.

Theorem C70_fast_part_partial : forall (lw : nat) (jh : option nat) (je : option bool) (u : N) (s : list N),
  fast_universe u lw -> s <> [] -> fast_build lw jh je s u = fast_build lw jh je (seen_part s) u.
Proof. exact fast_build_seen. Qed.
Print Assumptions C70_fast_part_partial.

(** What comes back from sorted lists, with or without repetitions. *)
Theorem C70_flat_long_partial : forall (u : N) (s : list N),
  (3 <= u <= 2 ^ 48)%N -> s <> [] -> nondecreasing s -> below u s ->
  exists t r, flat_build s u = Ok t /\ flat_decode t [] = Ok r /\ is_set_of (seen_part s) r.
Proof. exact flat_long. Qed.
Print Assumptions C70_flat_long_partial.

Theorem C70_fast_long_partial : forall (lw : nat) (jh : option nat) (je : option bool) (u : N) (s : list N),
  fast_universe u lw -> s <> [] -> nondecreasing s -> below u s ->
  exists t r, fast_build lw jh je s u = Ok t /\ fast_decode t [] = Ok r /\ is_set_of (seen_part s) r.
Proof. exact fast_long. Qed.
Print Assumptions C70_fast_long_partial.

(** That is the whole list exactly when it has at most 2^32 values. *)
Theorem C70_limit : forall s : list N, s <> [] ->
  (seen_part s = s <-> (N.of_nat (length s) <= 2 ^ 32)%N).
Proof. exact seen_part_all. Qed.
Print Assumptions C70_limit.

(** Every longer set loses values. *)
Theorem C70_flat_long_refuted : forall (u : N) (s : list N),
  (3 <= u <= 2 ^ 48)%N -> increasing s -> below u s -> (2 ^ 32 < N.of_nat (length s))%N ->
  exists t r, flat_build s u = Ok t /\ flat_decode t [] = Ok r /\ length r < length s.
Proof. exact flat_long_lost. Qed.
Print Assumptions C70_flat_long_refuted.

Theorem C70_fast_long_refuted : forall (lw : nat) (jh : option nat) (je : option bool) (u : N) (s : list N),
  fast_universe u lw -> increasing s -> below u s -> (2 ^ 32 < N.of_nat (length s))%N ->
  exists t r, fast_build lw jh je s u = Ok t /\ fast_decode t [] = Ok r /\ length r < length s.
Proof. exact fast_long_lost. Qed.
Print Assumptions C70_fast_long_refuted.

(** The values 0, 1, ..., 2^32 + 2: only 0, 1 and 2 are stored. *)
Example C70_example :
  let s := nrange 0 (N.to_nat (2 ^ 32 + 3)) in
  (s <> [] /\ increasing s /\ below (2 ^ 33) s /\ (2 ^ 32 < N.of_nat (length s))%N) /\
  fast_universe (2 ^ 33) 6 /\
  (exists t, flat_build s (2 ^ 33) = Ok t /\ flat_decode t [] = Ok [0; 1; 2]%N) /\
  (exists t, fast_build 6 None None s (2 ^ 33) = Ok t /\ fast_decode t [] = Ok [0; 1; 2]%N) /\
  (forall il, exists t, level_build il s (2 ^ 33) = Ok t /\ level_decode t [] = Ok s).
Proof.
  destruct (long_range (2 ^ 32 + 3)) as (N0 & I & B & L & E); [lia|]. intros s. fold s in N0, I, B, L, E.
  assert (U : fast_universe (2 ^ 33) 6) by (split; [cbn; auto|change (2 ^ N.of_nat 6)%N with 64%N; lia]).
  assert (E3 : seen_part s = [0; 1; 2]%N) by exact E. clear E. clearbody s.
  split. { do 3 (split; [assumption|]). rewrite L. lia. }
  split; [exact U|]. rewrite <- E3.
  split; [apply flat_long_set; auto; lia|]. split; [apply fast_long_set; auto|].
  intros il. apply RoundTripFacts.level_round_trip_set; auto. lia.
Qed.
