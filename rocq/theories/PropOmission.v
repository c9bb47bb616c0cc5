(** Property C87: the exact size of a trie.  Full claim: "The size of a trie follows from its
    set.  The trie column of the measures tool is the number of binary digits of the set with
    shared prefixes omitted: all digits of the first member, and of each other member those
    from the first digit on that differs from the member before.  The bits that flat and
    level-wise tries store are twice that, without one digit of each member but the first; a
    fast trie stores a word for each group of members that share one, and two bits for each
    prefix above.  The suffixes are those that pom codes.  So a subset never takes more than
    its set."  All this is about tries without run encoding; with it, a subset can take more
    ([C87_run_subset_refuted]). *)

From Verif Require Import Base Spec SpecTries SpecMeasures SpecOmission FlatTrie LevelTrie FastTrie Measures
  OmissionThms InterRefute.

Theorem C87_flat : forall u s, (3 <= u <= 2 ^ 48)%N -> s <> [] -> increasing s -> below u s -> shorter 32 s ->
  exists t ks, flat_build s u = Ok t /\ partings s ks /\
    flat_trieMeasure t = Ok (digits u + list_sum ks) /\
    length (f_bTrie t) + length (f_lastLevel t) = 2 * (digits u + list_sum (map (fun k => k - 1) ks)).
Proof. exact flat_exact. Qed.
Print Assumptions C87_flat.

Theorem C87_level : forall il u s, (2 <= u <= 2 ^ 48)%N -> s <> [] -> increasing s -> below u s ->
  exists t ks, level_build il s u = Ok t /\ partings s ks /\
    length (concat (l_bTrie t)) = 2 * (digits u + list_sum (map (fun k => k - 1) ks)).
Proof. exact level_exact. Qed.
Print Assumptions C87_level.

Theorem C87_fast : forall lw jh je u s, In lw [3; 4; 5; 6] -> (2 ^ N.of_nat lw < 2 * u <= 2 * 2 ^ 48)%N ->
  s <> [] -> increasing s -> below u s -> shorter 32 s ->
  exists t ks, fast_build lw jh je s u = Ok t /\ partings s ks /\
    length (x_bTrie t) = 2 * (digits u - lw + list_sum (map (fun k => k - 1 - lw) ks)) /\
    length (x_lastLevel t) = 1 + length (filter (fun k => lw <? k) ks).
Proof. exact fast_exact. Qed.
Print Assumptions C87_fast.

(** pom codes the same suffixes, in 2 k - 1 bits each.  It is undefined for zero (C46). *)
Theorem C87_pom : forall x v, (0 < x)%N -> increasing (x :: v) -> below (2 ^ 48) (x :: v) ->
  exists sp ks, partings (x :: v) ks /\
    pom_list (x :: v) = Ok (x :: sp, (2 * N.log2 x + 1 + N.of_nat (list_sum (map (fun k => 2 * k - 1)%nat ks)))%N) /\
    Forall2 (fun zk r => r = (fst zk mod 2 ^ N.of_nat (snd zk))%N) (combine v ks) sp.
Proof. exact pom_exact. Qed.
Print Assumptions C87_pom.

(** The numbers are determined by the set. *)
Theorem C87_unique : forall s ks ks', partings s ks -> partings s ks' -> ks = ks'.
Proof. exact partings_unique. Qed.
Print Assumptions C87_unique.

(** A subset never takes more space than its set. *)
Theorem C87_flat_subset : forall u a b, (3 <= u <= 2 ^ 48)%N -> a <> [] -> increasing a -> increasing b -> incl a b ->
  below u b -> shorter 32 b ->
  exists ta tb, flat_build a u = Ok ta /\ flat_build b u = Ok tb /\
    length (f_bTrie ta) + length (f_lastLevel ta) <= length (f_bTrie tb) + length (f_lastLevel tb).
Proof. exact flat_subset. Qed.
Print Assumptions C87_flat_subset.

Theorem C87_level_subset : forall il u a b, (2 <= u <= 2 ^ 48)%N -> a <> [] -> increasing a -> increasing b -> incl a b ->
  below u b ->
  exists ta tb, level_build il a u = Ok ta /\ level_build il b u = Ok tb /\
    length (concat (l_bTrie ta)) <= length (concat (l_bTrie tb)).
Proof. exact level_subset. Qed.
Print Assumptions C87_level_subset.

Theorem C87_fast_subset : forall lw jh je u a b, In lw [3; 4; 5; 6] -> (2 ^ N.of_nat lw < 2 * u <= 2 * 2 ^ 48)%N ->
  a <> [] -> increasing a -> increasing b -> incl a b -> below u b -> shorter 32 b ->
  exists ta tb, fast_build lw jh je a u = Ok ta /\ fast_build lw jh je b u = Ok tb /\
    length (x_bTrie ta) <= length (x_bTrie tb) /\ length (x_lastLevel ta) <= length (x_lastLevel tb).
Proof. exact fast_subset. Qed.
Print Assumptions C87_fast_subset.

Theorem C87_run_subset_refuted : exists ta tb ta' tb',
  level_build false [0; 1; 2]%N 4 = Ok ta /\ level_build false [0; 1; 2; 3]%N 4 = Ok tb /\
  level_encodeRuns ta = Ok ta' /\ level_encodeRuns tb = Ok tb' /\
  length (concat (l_bTrie tb')) < length (concat (l_bTrie ta')).
Proof. exact run_subset. Qed.
Print Assumptions C87_run_subset_refuted.

(** 000101, 000111, 001100, 110000: the members after the first differ from the one before in
    their last 2, 4 and 6 digits. *)
Example C87_example :
  let s := [5; 7; 12; 48]%N in
  (s <> [] /\ increasing s /\ below 64 s /\ shorter 32 s) /\ partings s [2; 4; 6] /\
  (let* t := flat_build s 64 in let* m := flat_trieMeasure t in
   Ok (m, length (f_bTrie t) + length (f_lastLevel t))) = Ok (6 + 12, 2 * (6 + 9)) /\
  (let* t := fast_build 3 None None s 64 in Ok (length (x_bTrie t), length (x_lastLevel t))) = Ok (2 * (3 + 0 + 0 + 2), 3) /\
  pom_list s = Ok ([5; 3; 12; 48]%N, (5 + 3 + 7 + 11)%N).
Proof.
  cbv zeta. split; [sets_ok|]. split; [|repeat split; vm_compute; reflexivity].
  repeat (constructor; [split; [auto with arith|split; [reflexivity|discriminate]]|]). constructor.
Qed.
