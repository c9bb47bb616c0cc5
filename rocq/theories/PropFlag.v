(** Property C65: intersection with the runs flag unset. *)

From Verif Require Import Base FlatTrie LevelTrie FastTrie ParallelFor Intersection Tries Spec SpecTries SpecLost
  ParForThms InterRefute InterFlag.

(** C65.  Runs of four or more aligned values are encoded in tries of bits; the common
    values around which some trie has one are missing from the result, all others are in
    it.  The result is the same for every number of threads and every schedule. *)
Theorem C65_runs_ignored : forall (u : N) (l : list bitem),
  (2 <= u <= 2 ^ 48)%N -> 1 <= length l <= 16 -> Forall (bitem_ok u) l ->
  exists Ts r, each_ok (make_bitem u) l = Ok Ts /\
    common_where (map b_part l) (fun v => ~ Exists (run_around 4 v) (map b_part l)) r /\
    (forall s1 s2 hc, (1 <= hc)%N -> Intersect Bin s1 s2 hc (map bin_ops Ts) false false = Ok r) /\
    (forall s1 s2 hc, (1 <= hc < 2 ^ 16)%N -> (3 <= u \/ hc <= 3)%N -> valid_scheduler s1 -> valid_scheduler s2 ->
       Intersect Bin s1 s2 hc (map bin_ops Ts) false true = Ok r).
Proof. exact bin_wrong_flag. Qed.
Print Assumptions C65_runs_ignored.

(** Fast tries: runs are two or more words. *)
Theorem C65_fast_runs_ignored : forall (u : N) (lw : nat) (l : list fitem),
  fast_universe u lw -> 1 <= length l <= 16 -> Forall (fitem_ok u) l ->
  exists Ts r, each_ok (make_fitem u lw) l = Ok Ts /\
    common_where (map f_part l) (fun v => ~ Exists (run_around (2 * 2 ^ N.of_nat lw) v) (map f_part l)) r /\
    (forall s1 s2 hc, (1 <= hc)%N -> Intersect (Fast lw) s1 s2 hc (map fast_ops Ts) false false = Ok r) /\
    (forall s1 s2 hc, (1 <= hc < 2 ^ 16)%N -> (2 ^ N.of_nat lw < u \/ hc = 1)%N ->
       valid_scheduler s1 -> valid_scheduler s2 ->
       Intersect (Fast lw) s1 s2 hc (map fast_ops Ts) false true = Ok r).
Proof. exact fast_wrong_flag. Qed.
Print Assumptions C65_fast_runs_ignored.

Example C65_example :
  let l := [(VFlat false, true, [0; 1; 2; 3; 4; 5; 6; 7; 9; 12]%N); (VLevel true, true, [3; 4; 5; 6; 7; 12]%N);
            (VLevel false, false, [0; 3; 5; 9; 12; 13]%N)] in
  let m := [(VFlat false, true, [4; 5; 6; 7; 9; 12]%N); (VLevel true, false, [3; 5; 9; 12; 13]%N)] in
  (1 <= length l <= 16 /\ Forall (bitem_ok 16) l /\ Forall (bitem_ok 16) m) /\
  (let* Ts := each_ok (make_bitem 16) l in Intersect Bin in_order in_order 1 (map bin_ops Ts) false false)
    = Ok [12]%N /\
  (let* Ts := each_ok (make_bitem 16) m in Intersect Bin backwards in_order 4 (map bin_ops Ts) false true)
    = Ok [9; 12]%N.
Proof.
  cbv zeta. split; [|split; reflexivity]. split; [cbn; lia|]. split.
  - constructor; [|constructor; [|constructor; [|constructor]]]; try sets_ok.
    exists 9%N, 8%N. repeat split; cbn; auto 12. intuition discriminate.
  - constructor; [|constructor; [|constructor]]; try sets_ok.
    exists 9%N, 8%N. repeat split; cbn; auto 12. intuition discriminate.
Qed.

Example C65_fast_example :
  let l := [(None, None, true, [0; 1; 2; 3; 4; 5; 6; 7; 8; 9; 10; 11; 12; 13; 14; 15; 40; 47]%N);
            (Some 9, Some true, false, [2; 9; 40; 63]%N)] in
  (fast_universe 64 3 /\ 1 <= length l <= 16 /\ Forall (fitem_ok 64) l) /\
  (let* Ts := each_ok (make_fitem 64 3) l in
   Intersect (Fast 3) in_order in_order 1 (map fast_ops Ts) false false) = Ok [40]%N.
Proof.
  cbv zeta. split; [|reflexivity]. split; [split; [left; reflexivity|split; [reflexivity|discriminate]]|].
  split; [cbn; lia|]. constructor; [|constructor; [|constructor]]; sets_ok.
Qed.
