(** Properties C01, C02, C03, C04, C38: building a trie and decoding it. *)

From Verif Require Import Base FlatTrie LevelTrie FastTrie Spec RoundTrip RoundTripFacts.

(** C01.  flatBinTrie and flatBinTrie_il. *)
Theorem C01_flat_round_trip : forall (u : N) (s : list N),
  (3 <= u <= 2 ^ 48)%N -> s <> [] -> increasing s -> below u s -> shorter 32 s ->
  exists t, flat_build s u = Ok t /\ flat_decode t [] = Ok s.
Proof. exact flat_round_trip_set. Qed.
Print Assumptions C01_flat_round_trip.

Example C01_example :
  let s := [1; 5; 6; 15]%N in
  ((3 <= 16 <= 2 ^ 48)%N /\ s <> [] /\ increasing s /\ below 16 s /\ shorter 32 s) /\
  (let* t := flat_build s 16 in flat_decode t []) = Ok s.
Proof. cbv zeta. repeat split; try discriminate; repeat constructor. Qed.

(** C02.  binTrie ([il] = false) and binTrie_il ([il] = true); [s] may be empty. *)
Theorem C02_level_round_trip : forall (il : bool) (u : N) (s : list N),
  (2 <= u <= 2 ^ 48)%N -> increasing s -> below u s ->
  exists t, level_build il s u = Ok t /\ level_decode t [] = Ok s.
Proof. exact level_round_trip_set. Qed.
Print Assumptions C02_level_round_trip.

Example C02_example :
  let s := [0; 2; 3; 9]%N in
  ((2 <= 12 <= 2 ^ 48)%N /\ increasing s /\ below 12 s) /\
  (let* t := level_build true s 12 in level_decode t []) = Ok s /\
  (let* t := level_build false s 12 in level_decode t []) = Ok s.
Proof. cbv zeta. repeat split; try discriminate; repeat constructor. Qed.

(** C03.  fastBinaryTrie<w> with w = 2^lw bits; [u] needs at least lw bits.
    [jh] and [je] are the contents of the two members no constructor writes. *)
Theorem C03_fast_round_trip : forall (lw : nat) (jh : option nat) (je : option bool)
                                     (u : N) (s : list N),
  In lw [3; 4; 5; 6] -> (2 ^ N.of_nat lw < 2 * u <= 2 * 2 ^ 48)%N ->
  s <> [] -> increasing s -> below u s -> shorter 32 s ->
  exists t, fast_build lw jh je s u = Ok t /\ fast_decode t [] = Ok s.
Proof. exact fast_round_trip_set. Qed.
Print Assumptions C03_fast_round_trip.

Example C03_example :
  let s := [0; 7; 8; 9; 70; 99]%N in
  (In 3 [3; 4; 5; 6] /\ (2 ^ N.of_nat 3 < 2 * 100 <= 2 * 2 ^ 48)%N /\
   s <> [] /\ increasing s /\ below 100 s /\ shorter 32 s) /\
  (let* t := fast_build 3 None None s 100 in fast_decode t []) = Ok s /\
  (let* t := fast_build 6 None (Some true) s 100 in fast_decode t []) = Ok s.
Proof.
  cbv zeta. repeat split; try discriminate; try (left; reflexivity); repeat constructor.
Qed.

(** C04.  Repeated values: the decoded list is the set of the given values. *)
Theorem C04_flat_deduplicates : forall (u : N) (s : list N),
  (3 <= u <= 2 ^ 48)%N -> s <> [] -> nondecreasing s -> below u s -> shorter 32 s ->
  exists t r, flat_build s u = Ok t /\ flat_decode t [] = Ok r /\ is_set_of s r.
Proof. exact flat_round_trip_multiset. Qed.
Print Assumptions C04_flat_deduplicates.

Theorem C04_level_deduplicates : forall (il : bool) (u : N) (s : list N),
  (2 <= u <= 2 ^ 48)%N -> s <> [] -> nondecreasing s -> below u s -> shorter 64 s ->
  exists t r, level_build il s u = Ok t /\ level_decode t [] = Ok r /\ is_set_of s r.
Proof. exact level_round_trip_multiset. Qed.
Print Assumptions C04_level_deduplicates.

Theorem C04_fast_deduplicates : forall (lw : nat) (jh : option nat) (je : option bool)
                                       (u : N) (s : list N),
  In lw [3; 4; 5; 6] -> (2 ^ N.of_nat lw < 2 * u <= 2 * 2 ^ 48)%N ->
  s <> [] -> nondecreasing s -> below u s -> shorter 32 s ->
  exists t r, fast_build lw jh je s u = Ok t /\ fast_decode t [] = Ok r /\ is_set_of s r.
Proof. exact fast_round_trip_multiset. Qed.
Print Assumptions C04_fast_deduplicates.

Example C04_example :
  let s := [2; 2; 3; 9; 9; 9]%N in
  (s <> [] /\ nondecreasing s /\ below 12 s /\ shorter 32 s) /\
  (let* t := flat_build s 12 in flat_decode t []) = Ok [2; 3; 9]%N /\
  (let* t := level_build false s 12 in level_decode t []) = Ok [2; 3; 9]%N /\
  (let* t := fast_build 3 None None s 12 in fast_decode t []) = Ok [2; 3; 9]%N.
Proof.
  cbv zeta. repeat split; try discriminate; repeat (constructor; try discriminate).
Qed.

(** C38.  decode(v) appends to v.  For plain tries; run-encoded tries are in
    PropRuns. *)
Theorem C38_decode_appends : forall (u : N) (s v : list N),
  (3 <= u <= 2 ^ 48)%N -> s <> [] -> increasing s -> below u s -> shorter 32 s ->
  (exists t, flat_build s u = Ok t /\ flat_decode t v = Ok (v ++ s)) /\
  (forall il, exists t, level_build il s u = Ok t /\ level_decode t v = Ok (v ++ s)) /\
  (forall lw jh je, In lw [3; 4; 5; 6] -> (2 ^ N.of_nat lw < 2 * u)%N ->
     exists t, fast_build lw jh je s u = Ok t /\ fast_decode t v = Ok (v ++ s)).
Proof. exact decode_appends_set. Qed.
Print Assumptions C38_decode_appends.

Example C38_example :
  (let* t := flat_build [1; 5]%N 8 in flat_decode t [9; 9]%N) = Ok [9; 9; 1; 5]%N.
Proof. reflexivity. Qed.
