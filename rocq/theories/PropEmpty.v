(** Property C102: intersections that include a trie of the empty set. *)

From Verif Require Import Base FlatTrie LevelTrie FastTrie ParallelFor Intersection Tries Spec SpecTries SpecMeasures
  ParForThms InterRefute EmptyInter.

(** C102 holds with runs=false; not covered are parallel calls on 65536 threads or more. *)
Theorem C102_plain_partial : forall u (l : list pitem), (2 <= u <= 2 ^ 48)%N -> 1 <= length l <= 16 ->
  Forall (pitem_ok u) l -> In [] (map snd l) ->
  exists Ts, each_ok (make_pitem u) l = Ok Ts /\
    (forall hc s1 s2, (1 <= hc)%N -> Intersect Bin s1 s2 hc (map bin_ops Ts) false false = Ok []) /\
    (forall hc s1 s2, (1 <= hc < 2 ^ 16)%N -> valid_scheduler s1 -> valid_scheduler s2 ->
      Intersect Bin s1 s2 hc (map bin_ops Ts) false true = Ok []).
Proof. exact empty_plain. Qed.
Print Assumptions C102_plain_partial.

Example C102_plain_example :
  let l := [(VFlat false, [1; 2; 9]%N); (VLevel true, [])] in
  (1 <= length l <= 16 /\ Forall (pitem_ok 16) l /\ In [] (map snd l)) /\
  (let* Ts := each_ok (make_pitem 16) l in Intersect Bin in_order in_order 4 (map bin_ops Ts) false true) = Ok [].
Proof.
  cbv zeta. split; [|vm_compute; reflexivity]. split; [cbn; lia|]. split; [|cbn; auto].
  constructor; [|constructor; [|constructor]]; sets_ok.
Qed.

(** With runs=true it is false, for every universe and every non-empty set: the result is
    the other set, as if the empty one were the whole universe. *)
Theorem C102_runs_refuted : forall u v enc s il, (2 <= u <= 2 ^ 48)%N -> stored_ok u v enc s ->
  exists t t0, bin_make u v enc s = Ok t /\ level_build il [] u = Ok t0 /\
    forall s1 s2 hc, (1 <= hc)%N ->
      Intersect Bin s1 s2 hc [bin_ops t; bin_ops (BLevel t0)] true false = Ok s /\
      Intersect Bin s1 s2 hc [bin_ops (BLevel t0); bin_ops t] true false = Ok s.
Proof. exact empty_returns_other. Qed.
Print Assumptions C102_runs_refuted.

(** A trie that decodes to nothing, intersected with nothing else, gives every value below
    the power of two at or above the universe. *)
Theorem C102_alone_refuted : forall il u, (2 <= u <= 2 ^ 48)%N ->
  exists t r, level_build il [] u = Ok t /\ level_decode t [] = Ok [] /\
    (increasing r /\ forall x, In x r <-> (x < 2 ^ N.of_nat (digits u))%N) /\
    forall s1 s2 hc, (1 <= hc)%N -> Intersect Bin s1 s2 hc [bin_ops (BLevel t)] true false = Ok r.
Proof. exact empty_whole. Qed.
Print Assumptions C102_alone_refuted.

(** Exactly what is returned for any family with plain tries of the empty set among the
    others: the values common to the sets that are not empty; in sequence, and in parallel
    on one thread or where the tries are too low to be split. *)
Theorem C102_runs_partial : forall u (l : list bitem), (2 <= u <= 2 ^ 48)%N -> 1 <= length l <= 16 ->
  Forall (fun x => bitem_ok u x \/ exists il, x = (VLevel il, false, [])) l ->
  exists Ts r, each_ok (make_bitem u) l = Ok Ts /\ increasing r /\
    (forall x, In x r <-> (x < 2 ^ N.of_nat (digits u))%N /\ Forall (fun y : bitem => snd y <> [] -> In x (snd y)) l) /\
    forall s1 s2 hc parallel, (1 <= hc)%N ->
      (parallel = true -> (3 <= u /\ rounded u < 4 * 2 ^ N.log2 hc)%N \/ hc = 1%N /\ valid_scheduler s1 /\ valid_scheduler s2) ->
      Intersect Bin s1 s2 hc (map bin_ops Ts) true parallel = Ok r.
Proof. exact empty_ignored. Qed.
Print Assumptions C102_runs_partial.

(** In parallel on two or more threads, where the tries are high enough to be split: if some
    set that is not empty lacks a value or is not run-encoded, the result is empty, because
    everything below a run of some tries but not of others is lost (C13). *)
Theorem C102_parallel_partial : forall u (l : list bitem) hc s1 s2, (3 <= u <= 2 ^ 48)%N -> 1 <= length l <= 16 ->
  Forall (fun x => bitem_ok u x \/ exists il, x = (VLevel il, false, [])) l ->
  (2 <= hc)%N -> (4 * 2 ^ N.log2 hc <= rounded u)%N -> In [] (map snd l) ->
  (exists y, In y l /\ snd y <> [] /\
     (snd (fst y) = false \/ exists v, (v < 2 ^ N.of_nat (digits u))%N /\ ~ In v (snd y))) ->
  exists Ts, each_ok (make_bitem u) l = Ok Ts /\ Intersect Bin s1 s2 hc (map bin_ops Ts) true true = Ok [].
Proof. exact empty_parallel. Qed.
Print Assumptions C102_parallel_partial.

(** In the remaining cases, where all other sets are run-encoded and hold every value, or
    there are none, every value is returned, as in sequence. *)
Theorem C102_parallel_refuted : forall u (l : list bitem) hc s1 s2, (3 <= u <= 2 ^ 48)%N -> 1 <= length l <= 16 ->
  Forall (fun x => (exists il, x = (VLevel il, false, [])) \/
    bitem_ok u x /\ snd (fst x) = true /\ forall v, (v < 2 ^ N.of_nat (digits u))%N -> In v (snd x)) l ->
  (2 <= hc)%N -> (4 * 2 ^ N.log2 hc <= rounded u)%N ->
  exists Ts r, each_ok (make_bitem u) l = Ok Ts /\ Intersect Bin s1 s2 hc (map bin_ops Ts) true true = Ok r /\
    increasing r /\ forall x, In x r <-> (x < 2 ^ N.of_nat (digits u))%N.
Proof. exact empty_parallel_all. Qed.
Print Assumptions C102_parallel_refuted.

(** Three sets, one of them empty, in sequence.  The same in parallel, and
    the empty set alone in parallel. *)
Example C102_runs_example :
  let l := [(VFlat false, true, [1; 2; 3; 9]%N); (VLevel false, false, []); (VLevel true, true, [2; 8; 9]%N)] in
  let run l par := let* Ts := each_ok (make_bitem 16) l in
    Intersect Bin in_order in_order 4 (map bin_ops Ts) true par in
  let low := let* Ts := each_ok (make_bitem 16) l in
    Intersect Bin in_order in_order 8 (map bin_ops Ts) true true in
  (1 <= length l <= 16 /\ Forall (fun x => bitem_ok 16 x \/ exists il, x = (VLevel il, false, [])) l) /\
  ((4 * 2 ^ N.log2 4 <= rounded 16)%N /\ In [] (map snd l) /\ In [2; 8; 9]%N (map snd l) /\
   (0 < 2 ^ N.of_nat (digits 16))%N /\ ~ In 0%N [2; 8; 9]%N) /\
  (run l false = Ok [2; 9]%N /\ low = Ok [2; 9]%N /\ (rounded 16 < 4 * 2 ^ N.log2 8)%N) /\ run l true = Ok [] /\
  run [(VLevel false, false, [])] true = Ok [0; 1; 2; 3; 4; 5; 6; 7; 8; 9; 10; 11; 12; 13; 14; 15]%N.
Proof.
  cbv zeta. split.
  - split; [cbn; lia|]. constructor; [left|constructor; [right; eauto|constructor; [left|constructor]]]; sets_ok.
    exists 1%N, 0%N. repeat split; cbn; auto. intuition discriminate.
  - split; [repeat split; vm_compute; intuition discriminate|].
    split; [split; [vm_compute; reflexivity|split; vm_compute; reflexivity]|]. split; vm_compute; reflexivity.
Qed.

(** Run-encoded, the trie of the empty set has no bit at all: with either flag, wherever it
    stands among the first sixteen tries and whatever the others are, its root is read
    outside the first level, in sequence and in parallel on any number of threads.  Over two values it is the same as the plain one (C33). *)
Theorem C102_encoded_refuted : forall il u (before after : list bin_trie), (3 <= u <= 2 ^ 48)%N -> length before < 16 ->
  Forall (fun t => t_height (bin_ops t) = digits u) (before ++ after) ->
  exists t t', level_build il [] u = Ok t /\ level_encodeRuns t = Ok t' /\
    forall s1 s2 hc runs parallel, (1 <= hc)%N ->
      (parallel = true -> N.of_nat (length (before ++ after)) < 2 ^ 16 - 1)%N ->
      Intersect Bin s1 s2 hc (map bin_ops (before ++ BLevel t' :: after)) runs parallel = UB OutOfBounds.
Proof. exact empty_encoded. Qed.
Print Assumptions C102_encoded_refuted.

Example C102_encoded_example :
  exists t, bin_make 16 (VFlat true) false [3; 8]%N = Ok t /\
    Forall (fun t => t_height (bin_ops t) = digits 16) ([t] ++ [t]) /\
    (let* e := bin_make 16 (VLevel false) true [] in
     Intersect Bin in_order in_order 1 (map bin_ops [t; e; t]) true false) = UB OutOfBounds /\
    (let* e := bin_make 16 (VLevel false) true [] in
     Intersect Bin in_order in_order 4 (map bin_ops [t; e; t]) false true) = UB OutOfBounds /\
    (let* e := bin_make 16 (VLevel false) true [] in
     Intersect Bin in_order in_order 1 (map bin_ops [t; e; t]) true true) = UB OutOfBounds.
Proof.
  eexists. split; [vm_compute; reflexivity|]. split; [|repeat split; vm_compute; reflexivity].
  constructor; [reflexivity|]. constructor; [reflexivity|constructor].
Qed.
