(** Properties C12, C13, C14, C15, C17, C18, C40: parallel intersection. *)

From Coq Require Import Permutation.
From Verif Require Import Base FlatTrie LevelTrie FastTrie ParallelFor Intersection Tries Spec SpecTries
  SpecThreads SpecLost ParFacts ParForThms ThreadBound InterLaws InterRefute InterLost InterExact InterLeak InterTiny.

(** C12.  Full claim: for every universe and every concurrency.  Proved except for
    universes of two values on four or more threads, where it is false. *)
Theorem C12_parallel_equals_sequential_partial : forall (u : N) (l : list pitem),
  (2 <= u <= 2 ^ 48)%N -> 1 <= length l <= 16 -> Forall (pitem_ok u) l ->
  exists Ts r, each_ok (make_pitem u) l = Ok Ts /\ is_intersection (map snd l) r /\
    forall hc s1 s2, (1 <= hc < 2 ^ 16)%N -> (3 <= u \/ hc <= 3)%N -> valid_scheduler s1 -> valid_scheduler s2 ->
      Intersect Bin s1 s2 hc (map bin_ops Ts) false false = Ok r /\
      Intersect Bin s1 s2 hc (map bin_ops Ts) false true = Ok r.
Proof. exact bin_parallel. Qed.
Print Assumptions C12_parallel_equals_sequential_partial.

Theorem C12_parallel_equals_sequential_refuted :
  ~ (forall (u : N) (l : list pitem), (2 <= u <= 2 ^ 48)%N -> 1 <= length l <= 16 -> Forall (pitem_ok u) l ->
       exists Ts r, each_ok (make_pitem u) l = Ok Ts /\
         forall hc s1 s2, (1 <= hc < 2 ^ 16)%N -> valid_scheduler s1 -> valid_scheduler s2 ->
           Intersect Bin s1 s2 hc (map bin_ops Ts) false false = Ok r /\
           Intersect Bin s1 s2 hc (map bin_ops Ts) false true = Ok r).
Proof. exact bin_parallel_refuted. Qed.
Print Assumptions C12_parallel_equals_sequential_refuted.

(** Fast tries.  Proved except for tries of one word on two or more threads. *)
Theorem C12_fast_parallel_equals_sequential_partial : forall (u : N) (lw : nat) (l : list fitem),
  fast_universe u lw -> 1 <= length l <= 16 -> Forall (fitem_ok u) l -> Forall (fun x => f_enc x = false) l ->
  exists Ts r, each_ok (make_fitem u lw) l = Ok Ts /\ is_intersection (map snd l) r /\
    forall hc s1 s2, (1 <= hc < 2 ^ 16)%N -> (2 ^ N.of_nat lw < u \/ hc = 1)%N ->
      valid_scheduler s1 -> valid_scheduler s2 ->
      Intersect (Fast lw) s1 s2 hc (map fast_ops Ts) false false = Ok r /\
      Intersect (Fast lw) s1 s2 hc (map fast_ops Ts) false true = Ok r.
Proof. exact fast_parallel. Qed.
Print Assumptions C12_fast_parallel_equals_sequential_partial.

Theorem C12_fast_parallel_equals_sequential_refuted :
  ~ (forall (u : N) (lw : nat) (l : list fitem), fast_universe u lw -> 1 <= length l <= 16 ->
       Forall (fitem_ok u) l -> Forall (fun x => f_enc x = false) l ->
       exists Ts r, each_ok (make_fitem u lw) l = Ok Ts /\
         forall hc s1 s2, (1 <= hc < 2 ^ 16)%N -> valid_scheduler s1 -> valid_scheduler s2 ->
           Intersect (Fast lw) s1 s2 hc (map fast_ops Ts) false false = Ok r /\
           Intersect (Fast lw) s1 s2 hc (map fast_ops Ts) false true = Ok r).
Proof. exact fast_parallel_refuted. Qed.
Print Assumptions C12_fast_parallel_equals_sequential_refuted.

(** What the excluded calls do.  Over two values on four or more threads, for plain or
    run-encoded tries and either value of the runs flag: the empty vector when no value is
    common, and otherwise a read past the last level. *)
Theorem C12_two_values_partial : forall (l : list bitem) runs hc s1 s2,
  1 <= length l <= 16 -> Forall (fun x => plain_ok 2 (fst (fst x)) (snd x)) l ->
  (runs = true -> Forall (fun x => snd x <> []) l) -> (4 <= hc)%N ->
  exists Ts, each_ok (make_bitem 2) l = Ok Ts /\
    (is_intersection (map snd l) [] -> Intersect Bin s1 s2 hc (map bin_ops Ts) runs true = Ok []) /\
    (~ is_intersection (map snd l) [] -> Intersect Bin s1 s2 hc (map bin_ops Ts) runs true = UB OutOfBounds).
Proof. exact bin_two_values. Qed.
Print Assumptions C12_two_values_partial.

(** Fast tries of one word on two or more threads: always a read past the end. *)
Theorem C12_one_word_partial : forall (u : N) (lw : nat) (l : list fitem) runs hc s1 s2,
  fast_universe u lw -> (u <= 2 ^ N.of_nat lw)%N -> 1 <= length l <= 16 -> Forall (fitem_ok u) l -> (2 <= hc)%N ->
  exists Ts, each_ok (make_fitem u lw) l = Ok Ts /\
    Intersect (Fast lw) s1 s2 hc (map fast_ops Ts) runs true = UB OutOfBounds.
Proof. exact fast_one_word. Qed.
Print Assumptions C12_one_word_partial.

(** Two families over two values, one of them disjoint, and one of one-word tries. *)
Example C12_small_example :
  let l := [(VLevel false, false, [0]%N); (VLevel true, true, [1]%N)] in
  let l' := [(VLevel false, false, [0; 1]%N); (VLevel true, true, [1]%N)] in
  let f := [(None, None, false, [1; 5]%N); (None, None, true, [2; 5; 7]%N)] in
  (Forall (fun x => plain_ok 2 (fst (fst x)) (snd x)) (l ++ l') /\ is_intersection (map snd l) [] /\
   is_intersection (map snd l') [1%N] /\ fast_universe 8 3 /\ Forall (fitem_ok 8) f) /\
  (let* Ts := each_ok (make_bitem 2) l in Intersect Bin in_order in_order 4 (map bin_ops Ts) true true) = Ok [] /\
  (let* Ts := each_ok (make_bitem 2) l' in Intersect Bin in_order in_order 4 (map bin_ops Ts) true true)
    = UB OutOfBounds /\
  (let* Ts := each_ok (make_fitem 8 3) f in Intersect (Fast 3) in_order in_order 2 (map fast_ops Ts) true true)
    = UB OutOfBounds.
Proof.
  cbv zeta. split; [|split; [|split]; reflexivity]. split; [|split; [|split; [|split]]].
  - repeat (constructor; [sets_ok|]). constructor.
  - split; [constructor|]. intros x. cbn. split; [intros []|]. intros H.
    repeat rewrite Forall_cons_iff in H. cbn in H. destruct H as ([H0|[]] & [H1|[]] & _). subst. discriminate.
  - split; [repeat constructor|]. intros x. cbn. split.
    + intros [<- | []]. constructor; [right; left; auto|]. constructor; [left; auto|constructor].
    + intros H. repeat rewrite Forall_cons_iff in H. destruct H as (_ & H1 & _). exact H1.
  - split; [left; reflexivity|]. split; [reflexivity|]. discriminate.
  - repeat (constructor; [sets_ok|]). constructor.
Qed.

(** Two schedules of eight hardware threads; the schedules exist. *)
Example C12_example :
  let l := [(VFlat false, [1; 5; 7; 11; 40; 41]%N); (VFlat true, [0; 1; 2; 3; 7; 11; 12; 40]%N);
            (VLevel false, [1; 7; 8; 11; 40; 63]%N)] in
  (1 <= length l <= 16 /\ Forall (pitem_ok 64) l /\ valid_scheduler in_order /\ valid_scheduler backwards) /\
  (let* Ts := each_ok (make_pitem 64) l in Intersect Bin in_order in_order 8 (map bin_ops Ts) false true)
    = Ok [1; 7; 11; 40]%N /\
  (let* Ts := each_ok (make_pitem 64) l in Intersect Bin backwards backwards 8 (map bin_ops Ts) false true)
    = Ok [1; 7; 11; 40]%N.
Proof.
  cbv zeta. split; [|split; reflexivity]. split; [cbn; lia|].
  split; [repeat (constructor; [sets_ok|]); constructor|]. split; [exact in_order_valid|exact backwards_valid].
Qed.

(** C13, C15.  Full claim: the result is the increasing list of the common values.
    Proved when no set contains a whole block of [thread_block u hc] values (the
    share of one thread), and when the tries are too low to be split; false in
    general. *)
Theorem C13_parallel_runs_complete_partial : forall (u : N) (l : list bitem) hc s1 s2,
  (3 <= u <= 2 ^ 48)%N -> 1 <= length l <= 16 -> Forall (bitem_ok u) l ->
  (1 <= hc < 2 ^ 16)%N -> valid_scheduler s1 -> valid_scheduler s2 ->
  Forall (no_block (thread_block u hc)) (map snd l) \/ (rounded u < 4 * 2 ^ N.log2 hc)%N ->
  exists Ts r, each_ok (make_bitem u) l = Ok Ts /\
    Intersect Bin s1 s2 hc (map bin_ops Ts) true true = Ok r /\ is_intersection (map snd l) r.
Proof. exact bin_par_runs_exact. Qed.
Print Assumptions C13_parallel_runs_complete_partial.

Theorem C13_fast_parallel_runs_complete_partial : forall (u : N) (lw : nat) (l : list fitem) hc s1 s2,
  fast_universe u lw -> (2 ^ N.of_nat lw < u)%N -> 1 <= length l <= 16 -> Forall (fitem_ok u) l ->
  (1 <= hc < 2 ^ 16)%N -> valid_scheduler s1 -> valid_scheduler s2 ->
  Forall (no_block (thread_block u hc)) (map snd l) \/
    (rounded u < 2 * 2 ^ N.of_nat lw * 2 ^ N.log2 hc)%N ->
  exists Ts r, each_ok (make_fitem u lw) l = Ok Ts /\
    Intersect (Fast lw) s1 s2 hc (map fast_ops Ts) true true = Ok r /\ is_intersection (map snd l) r.
Proof. exact fast_par_runs_exact. Qed.
Print Assumptions C13_fast_parallel_runs_complete_partial.

(** Blocks of four values, smaller than the share of a thread. *)
Example C13_example :
  let a := [0; 1; 2; 3; 9; 12; 13; 14; 15]%N in let b := [2; 3; 12; 13; 14; 15]%N in
  let l := [(VLevel false, true, a); (VLevel true, true, b)] in
  (Forall (bitem_ok 16) l /\ thread_block 16 2 = 8%N /\ Forall (no_block 8) [a; b]) /\
  (let* Ts := each_ok (make_bitem 16) l in
   Intersect Bin in_order in_order 2 (map bin_ops Ts) true true) = Ok b.
Proof.
  cbv zeta. split; [|reflexivity]. split; [constructor; [|constructor; [|constructor]]; sets_ok|].
  split; [reflexivity|]. constructor; [|constructor; [|constructor]].
  - intros q. destruct (N.eq_dec q 0) as [->|].
    + exists 4%N. split; [reflexivity|]. cbn. intuition discriminate.
    + exists (8 * q)%N. split; [rewrite N.mul_comm, N.div_mul; [reflexivity|discriminate]|].
      intros H. cbn [In] in H. lia.
  - intros q. destruct (N.eq_dec q 0) as [->|].
    + exists 4%N. split; [reflexivity|]. cbn. intuition discriminate.
    + exists (8 * q)%N. split; [rewrite N.mul_comm, N.div_mul; [reflexivity|discriminate]|].
      intros H. cbn [In] in H. lia.
Qed.

(** Which common values the result has.  A common value is in it when, for every
    block size from the share of a thread upwards, the block around the value is a
    run of every trie or of none.  When the tries are high enough to be split, it is
    missing whenever, for some block size from twice the share upwards, the block is
    a run of some tries and not of others.  (At exactly the share it depends on how
    many tasks the call has made by then.) *)
Theorem C13_kept_and_lost_partial : forall (u : N) (l : list bitem) hc s1 s2,
  (3 <= u <= 2 ^ 48)%N -> 1 <= length l <= 16 -> Forall (bitem_ok u) l ->
  (1 <= hc < 2 ^ 16)%N -> valid_scheduler s1 -> valid_scheduler s2 ->
  exists Ts r, each_ok (make_bitem u) l = Ok Ts /\
    Intersect Bin s1 s2 hc (map bin_ops Ts) true true = Ok r /\
    forall v, Forall (fun s => In v s) (map snd l) ->
      ((forall j, ~ disagree (thread_block u hc * 2 ^ j)%N v (map b_part l)) -> In v r) /\
      ((4 * 2 ^ N.log2 hc <= rounded u)%N ->
       forall j, (1 <= j)%N -> disagree (thread_block u hc * 2 ^ j)%N v (map b_part l) -> ~ In v r).
Proof. exact bin_kept_and_lost. Qed.
Print Assumptions C13_kept_and_lost_partial.

Theorem C13_fast_kept_and_lost_partial : forall (u : N) (lw : nat) (l : list fitem) hc s1 s2,
  fast_universe u lw -> (2 ^ N.of_nat lw < u)%N -> 1 <= length l <= 16 -> Forall (fitem_ok u) l ->
  (1 <= hc < 2 ^ 16)%N -> valid_scheduler s1 -> valid_scheduler s2 ->
  exists Ts r, each_ok (make_fitem u lw) l = Ok Ts /\
    Intersect (Fast lw) s1 s2 hc (map fast_ops Ts) true true = Ok r /\
    forall v, Forall (fun s => In v s) (map snd l) ->
      ((forall j, ~ disagree (thread_block u hc * 2 ^ j)%N v (map f_part l)) -> In v r) /\
      ((2 * 2 ^ N.of_nat lw * 2 ^ N.log2 hc <= rounded u)%N ->
       forall j, (1 <= j)%N -> disagree (thread_block u hc * 2 ^ j)%N v (map f_part l) -> ~ In v r).
Proof. exact fast_kept_and_lost. Qed.
Print Assumptions C13_fast_kept_and_lost_partial.

(** The vector returned, value by value and in order, whenever the tries are high
    enough to be split; the description determines it. *)
Theorem C13_exact_partial : forall (u : N) (l : list bitem) hc s1 s2,
  (3 <= u <= 2 ^ 48)%N -> 1 <= length l <= 16 -> Forall (bitem_ok u) l ->
  (1 <= hc < 2 ^ 16)%N -> valid_scheduler s1 -> valid_scheduler s2 -> (4 * 2 ^ N.log2 hc <= rounded u)%N ->
  exists Ts r, each_ok (make_bitem u) l = Ok Ts /\
    Intersect Bin s1 s2 hc (map bin_ops Ts) true true = Ok r /\
    parallel_outcome (thread_block u hc) (N.to_nat (2 ^ N.log2 hc)) (map b_part l) r.
Proof. exact bin_par_exact. Qed.
Print Assumptions C13_exact_partial.

Theorem C13_fast_exact_partial : forall (u : N) (lw : nat) (l : list fitem) hc s1 s2,
  fast_universe u lw -> (2 ^ N.of_nat lw < u)%N -> 1 <= length l <= 16 -> Forall (fitem_ok u) l ->
  (1 <= hc < 2 ^ 16)%N -> valid_scheduler s1 -> valid_scheduler s2 ->
  (2 * 2 ^ N.of_nat lw * 2 ^ N.log2 hc <= rounded u)%N ->
  exists Ts r, each_ok (make_fitem u lw) l = Ok Ts /\
    Intersect (Fast lw) s1 s2 hc (map fast_ops Ts) true true = Ok r /\
    parallel_outcome (thread_block u hc) (N.to_nat (2 ^ N.log2 hc)) (map f_part l) r.
Proof. exact fast_par_exact. Qed.
Print Assumptions C13_fast_exact_partial.

Theorem C13_outcome_determined : forall b nT xs r r',
  parallel_outcome b nT xs r -> parallel_outcome b nT xs r' -> r = r'.
Proof. exact outcome_unique. Qed.
Print Assumptions C13_outcome_determined.

(** Exactly the common values are missing around which the tries disagree on a run of
    twice the share or more, or, in a divided share, on a run of its size. *)
Theorem C13_outcome_members_partial : forall b nT xs r, (b <> 0)%N -> xs <> [] -> parallel_outcome b nT xs r ->
  exists qs es rest, increasing qs /\ (forall q, In q qs <-> share b xs q) /\ divided nT b xs qs 0 es rest /\
    NoDup r /\
    forall v, In v r <-> Forall (fun x => In v (snd x)) xs /\
      (forall j, (1 <= j)%N -> ~ disagree (b * 2 ^ j) v xs) /\ (In (v / b)%N es -> ~ disagree b v xs).
Proof. exact outcome_members. Qed.
Print Assumptions C13_outcome_members_partial.

(** Four threads, shares of 16 values; two shares have common values.  The first is
    divided.  In the first pair of sets it yields two tasks, so the second is not, and
    the values in the run of one set there are kept; in the second pair the first
    share is a run of one set, and the values there are lost. *)
Example C13_exact_example :
  let w := map N.of_nat (seq 48 16) in let z := map N.of_nat (seq 0 16) in
  let l1 := [(VLevel false, true, [1; 9]%N ++ w); (VLevel true, true, [1; 9; 50]%N)] in
  let l2 := [(VLevel false, true, z ++ [50]%N); (VLevel true, true, [1; 9; 50]%N)] in
  Forall (bitem_ok 64) l1 /\ Forall (bitem_ok 64) l2 /\ thread_block 64 4 = 16%N /\ (4 * 2 ^ N.log2 4 <= rounded 64)%N /\
  (let* Ts := each_ok (make_bitem 64) l1 in
   Intersect Bin in_order in_order 4 (map bin_ops Ts) true true) = Ok [1; 9; 50]%N /\
  (let* Ts := each_ok (make_bitem 64) l2 in
   Intersect Bin in_order in_order 4 (map bin_ops Ts) true true) = Ok [50]%N.
Proof.
  cbv zeta. split; [constructor; [|constructor; [|constructor]]; sets_ok|].
  split; [constructor; [|constructor; [|constructor]]; sets_ok|]. split; [reflexivity|].
  split; [vm_compute; discriminate|]. split; vm_compute; reflexivity.
Qed.

(** A run of both tries, twice as large as a thread's share: kept, though out of
    order. *)
Example C13_kept_example :
  let w := map N.of_nat (seq 32 32) in
  let l := [(VLevel false, true, [0; 2]%N ++ w); (VLevel true, true, [2; 3]%N ++ w)] in
  Forall (bitem_ok 64) l /\ thread_block 64 4 = 16%N /\
  (forall j, ~ disagree (thread_block 64 4 * 2 ^ j)%N 40 (map b_part l)) /\
  (let* Ts := each_ok (make_bitem 64) l in
   Intersect Bin in_order in_order 4 (map bin_ops Ts) true true) = Ok (w ++ [2])%N.
Proof.
  cbv zeta. split; [constructor; [|constructor; [|constructor]]; sets_ok|]. split; [reflexivity|].
  split; [|vm_compute; reflexivity]. change (thread_block 64 4) with 16%N. intros j (H1 & H2).
  assert (HW : forall y, (32 <= y < 64)%N -> In y (map N.of_nat (seq 32 32))).
  { intros y Hy. apply in_map_iff. exists (N.to_nat y). split; [lia|]. apply in_seq. lia. }
  destruct (N.lt_ge_cases j 2) as [Hj|Hj].
  - rewrite Exists_exists in H2. destruct H2 as (x & Hx & Nx). apply Nx.
    assert (HB : forall y, (y / (16 * 2 ^ j) = 40 / (16 * 2 ^ j) -> 32 <= y < 64)%N).
    { intros y Hy. assert (Hc : (j = 0 \/ j = 1)%N) by lia. destruct Hc as [-> | ->].
      - change (16 * 2 ^ 0)%N with 16%N in Hy. change (40 / 16)%N with 2%N in Hy.
        assert (E := N.div_mod' y 16). assert (M := N.mod_lt y 16). lia.
      - change (16 * 2 ^ 1)%N with 32%N in Hy. change (40 / 32)%N with 1%N in Hy.
        assert (E := N.div_mod' y 32). assert (M := N.mod_lt y 32). lia. }
    destruct Hx as [<-|[<-|[]]]; (split; [reflexivity|]); intros y Hy; apply HB in Hy;
      cbn [b_part snd]; apply in_or_app; auto.
  - rewrite Exists_exists in H1. destruct H1 as (x & Hx & (_ & Rx)).
    assert (HB : (64 <= 16 * 2 ^ j)%N).
    { assert (2 ^ 2 <= 2 ^ j)%N by (apply N.pow_le_mono_r; lia). change (2 ^ 2)%N with 4%N in H. lia. }
    specialize (Rx 1%N). rewrite !N.div_small in Rx by lia. specialize (Rx eq_refl).
    destruct Hx as [<-|[<-|[]]]; cbn [b_part snd] in Rx; apply in_app_or in Rx;
      (destruct Rx as [Rx|Rx]; [cbn in Rx; intuition discriminate|]);
      apply in_map_iff in Rx; destruct Rx as (k & Ek & Hk); apply in_seq in Hk; lia.
Qed.

(** The whole universe is a run of both tries: no task is left, everything is kept. *)
Example C13_whole_example :
  let a := map N.of_nat (seq 0 32) in
  (let* Ts := each_ok (make_bitem 32) [(VLevel false, true, a); (VLevel true, true, a)] in
   Intersect Bin in_order in_order 2 (map bin_ops Ts) true true) = Ok a.
Proof. vm_compute. reflexivity. Qed.

(** The whole universe is a run of one trie only: everything is lost. *)
Example C13_lost_example :
  let a := map N.of_nat (seq 0 32) in
  let l := [(VLevel false, true, a); (VLevel true, true, [3; 17]%N)] in
  Forall (bitem_ok 32) l /\ (4 * 2 ^ N.log2 2 <= rounded 32)%N /\
  disagree (thread_block 32 2 * 2 ^ 1)%N 17 (map b_part l) /\
  (let* Ts := each_ok (make_bitem 32) l in
   Intersect Bin in_order in_order 2 (map bin_ops Ts) true true) = Ok [] /\
  (let* Ts := each_ok (make_bitem 32) l in
   Intersect Bin in_order in_order 2 (map bin_ops Ts) true false) = Ok [3; 17]%N.
Proof.
  cbv zeta. split; [constructor; [|constructor; [|constructor]]; sets_ok|].
  split; [vm_compute; discriminate|]. split; [|split; vm_compute; reflexivity].
  change (thread_block 32 2 * 2 ^ 1)%N with 32%N. split.
  - apply Exists_cons_hd. split; [reflexivity|]. intros y Hy. change (17 / 32)%N with 0%N in Hy.
    apply N.div_small_iff in Hy; [|discriminate]. cbn [snd b_part]. apply in_map_iff. exists (N.to_nat y).
    split; [lia|]. apply in_seq. lia.
  - apply Exists_cons_tl, Exists_cons_hd. intros (_ & H). specialize (H 0%N eq_refl). cbn in H.
    intuition discriminate.
Qed.

Theorem C13_parallel_runs_complete_refuted :
  ~ (forall (u : N) (l : list bitem) hc s1 s2,
       (3 <= u <= 2 ^ 48)%N -> 1 <= length l <= 16 -> Forall (bitem_ok u) l ->
       (1 <= hc < 2 ^ 16)%N -> valid_scheduler s1 -> valid_scheduler s2 ->
       exists Ts r, each_ok (make_bitem u) l = Ok Ts /\
         Intersect Bin s1 s2 hc (map bin_ops Ts) true true = Ok r /\
         forall x, Forall (fun s => In x s) (map snd l) -> In x r).
Proof. exact par_runs_complete_refuted. Qed.
Print Assumptions C13_parallel_runs_complete_refuted.

Theorem C15_parallel_runs_sorted_refuted :
  ~ (forall (u : N) (l : list bitem) hc s1 s2,
       (3 <= u <= 2 ^ 48)%N -> 1 <= length l <= 16 -> Forall (bitem_ok u) l ->
       (1 <= hc < 2 ^ 16)%N -> valid_scheduler s1 -> valid_scheduler s2 ->
       exists Ts r, each_ok (make_bitem u) l = Ok Ts /\
         Intersect Bin s1 s2 hc (map bin_ops Ts) true true = Ok r /\ increasing r).
Proof. exact par_runs_sorted_refuted. Qed.
Print Assumptions C15_parallel_runs_sorted_refuted.

(** C14.  Every call that C12 covers. *)
Theorem C14_parallel_runs_sound_partial : forall (u : N) (l : list bitem) hc s1 s2,
  (2 <= u <= 2 ^ 48)%N -> 1 <= length l <= 16 -> Forall (bitem_ok u) l ->
  (1 <= hc < 2 ^ 16)%N -> (3 <= u \/ hc <= 3)%N -> valid_scheduler s1 -> valid_scheduler s2 ->
  exists Ts r, each_ok (make_bitem u) l = Ok Ts /\
    Intersect Bin s1 s2 hc (map bin_ops Ts) true true = Ok r /\ NoDup r /\
    forall x, In x r -> Forall (fun s => In x s) (map snd l).
Proof. exact bin_par_runs_sound. Qed.
Print Assumptions C14_parallel_runs_sound_partial.

Theorem C14_fast_parallel_runs_sound_partial : forall (u : N) (lw : nat) (l : list fitem) hc s1 s2,
  fast_universe u lw -> 1 <= length l <= 16 -> Forall (fitem_ok u) l ->
  (1 <= hc < 2 ^ 16)%N -> (2 ^ N.of_nat lw < u \/ hc = 1)%N -> valid_scheduler s1 -> valid_scheduler s2 ->
  exists Ts r, each_ok (make_fitem u lw) l = Ok Ts /\
    Intersect (Fast lw) s1 s2 hc (map fast_ops Ts) true true = Ok r /\ NoDup r /\
    forall x, In x r -> Forall (fun s => In x s) (map snd l).
Proof. exact fast_par_runs_sound. Qed.
Print Assumptions C14_fast_parallel_runs_sound_partial.

(** A family whose parallel result is unsorted, and one that loses values. *)
Example C14_example :
  let a := [1; 8; 9; 10; 11; 12; 13; 14; 15]%N in
  let l := [(VLevel false, true, a); (VLevel false, true, a)] in
  let l' := [(VLevel false, true, [0; 1; 2; 3; 4; 5; 6; 7; 9; 12]%N); (VLevel false, true, [3; 5; 6; 7; 12]%N)] in
  (Forall (bitem_ok 16) l /\ Forall (bitem_ok 16) l') /\
  (let* Ts := each_ok (make_bitem 16) l in Intersect Bin in_order in_order 4 (map bin_ops Ts) true true)
    = Ok [8; 9; 10; 11; 12; 13; 14; 15; 1]%N /\
  (let* Ts := each_ok (make_bitem 16) l' in Intersect Bin in_order in_order 4 (map bin_ops Ts) true true)
    = Ok [12]%N.
Proof.
  cbv zeta. split; [|split; reflexivity].
  split; (constructor; [|constructor; [|constructor]]; sets_ok).
Qed.

(** C17.  The ranges, in order, enumerate the indices. *)
Theorem C17_ranges_cover : forall n t, 1 <= t ->
  exists rs, pf_ranges n t = Ok rs /\ length rs = S t /\ concat (map indices rs) = seq 0 n.
Proof. exact pf_ranges_cover. Qed.
Print Assumptions C17_ranges_cover.

(** Each index is visited once whatever the interleaving [tr], and values written
    per index do not depend on it. *)
Theorem C17_writes_deterministic : forall n t (f : nat -> N) (v : list N), 1 <= t -> length v = n ->
  exists ts, pf_traces n t (fun i => [(i, f i)]) = Ok ts /\
    forall tr, interleave ts tr ->
      Permutation (map fst tr) (seq 0 n) /\ exec_write v tr = Ok (map f (seq 0 n)).
Proof. exact parallel_for_writes. Qed.
Print Assumptions C17_writes_deterministic.

Theorem C17_pushes_deterministic : forall n t (outs : nat -> list N), 1 <= t ->
  exists ts, pf_traces n t (fun i => map (fun x => (i, x)) (outs i)) = Ok ts /\ length ts = S t /\
    forall tr, interleave ts tr -> exec_push (repeat [] n) tr = Ok (map outs (seq 0 n)).
Proof. exact parallel_for_pushes. Qed.
Print Assumptions C17_pushes_deterministic.

Example C17_example :
  pf_ranges 10 4 = Ok [(0, 2); (2, 4); (4, 6); (6, 8); (8, 10)] /\
  interleave [[1; 2]; [3]; []] [1; 3; 2] /\ pf_ranges 3 4 = Ok [(0, 0); (0, 0); (0, 0); (0, 0); (0, 3)].
Proof.
  split; [reflexivity|]. split; [|reflexivity].
  apply (il_step [] 1 [2] [[3]; []]). apply (il_step [[2]] 3 [] [[]]). apply (il_step [] 2 [] [[]; []]).
  apply il_done. repeat constructor.
Qed.

(** C18.  For any tries at all.  Schedulers are consulted only on groups of at most
    2^log2(hc) workers and the calling thread. *)
Theorem C18_workers_bounded : forall k Ts runs parallel hc s1 s2 s1' s2', (hc < 2 ^ 16)%N ->
  alike_up_to (2 ^ N.log2 hc) s1 s1' -> alike_up_to (2 ^ N.log2 hc) s2 s2' ->
  Intersect_mem k s1 s2 hc Ts runs parallel = Intersect_mem k s1' s2' hc Ts runs parallel.
Proof. exact workers_bounded. Qed.
Print Assumptions C18_workers_bounded.

(** The number of workers planned. *)
Theorem C18_tasks_bounded : forall k Ts nTries maxLevel runs hc used levels st, (hc < 2 ^ 16)%N ->
  par_plan k Ts nTries maxLevel runs (N.to_nat (N.log2 hc)) (2 ^ N.log2 hc)%N = Ok (Work used levels st) ->
  (N.of_nat used <= 2 ^ N.log2 hc)%N /\ used = length (pa_roots st) /\ used = length levels.
Proof. exact tasks_bounded. Qed.
Print Assumptions C18_tasks_bounded.

(** The 16-bit and 32-bit counters behave as unbounded ones. *)
Theorem C18_counters_exact : forall k Ts nTries maxLevel runs hc, (hc < 2 ^ 16)%N ->
  par_plan k Ts nTries maxLevel runs (N.to_nat (N.log2 hc)) (2 ^ N.log2 hc)%N =
  par_plan_exact k Ts nTries maxLevel runs (N.to_nat (N.log2 hc)) (2 ^ N.to_nat (N.log2 hc)).
Proof. exact counters_exact. Qed.
Print Assumptions C18_counters_exact.

(** Five hardware threads: four workers are used. *)
Example C18_example :
  let l := [(VLevel false, [0; 3; 5; 9; 12]%N); (VLevel true, [0; 2; 3; 5; 9; 12; 15]%N)] in
  (5 < 2 ^ 16)%N /\ (2 ^ N.log2 5)%N = 4%N /\
  (let* Ts := each_ok (make_pitem 16) l in
   let* p := par_plan Bin (map bin_ops Ts) 2 4 false (N.to_nat (N.log2 5)) (2 ^ N.log2 5) in
   Ok match p with Work used _ _ => used | Done _ _ => 0 end) = Ok 4.
Proof. cbv zeta. repeat split. Qed.

(** C40.  Full claim: freed = allocated.  Proved: nothing is freed twice, nothing
    else is freed, and on at most three hardware threads everything is freed; on
    four or more threads arrays leak. *)
Theorem C40_memory_partial : forall (u : N) (l : list bitem) runs s1 s2 hc,
  (2 <= u <= 2 ^ 48)%N -> 1 <= length l <= 16 -> Forall (bitem_ok u) l ->
  (runs = false -> Forall (fun x : bitem => snd (fst x) = false) l) ->
  (1 <= hc < 2 ^ 16)%N -> (3 <= u \/ hc <= 3)%N -> valid_scheduler s1 -> valid_scheduler s2 ->
  exists Ts r m, each_ok (make_bitem u) l = Ok Ts /\
    Intersect_mem Bin s1 s2 hc (map bin_ops Ts) runs true = Ok (r, m) /\
    NoDup (m_freed m) /\ (forall a, In a (m_freed m) -> a < m_next m) /\
    ((hc <= 3)%N -> Permutation (m_freed m) (seq 0 (m_next m))).
Proof. exact bin_memory. Qed.
Print Assumptions C40_memory_partial.

Theorem C40_fast_memory_partial : forall (u : N) (lw : nat) (l : list fitem) runs s1 s2 hc,
  fast_universe u lw -> 1 <= length l <= 16 -> Forall (fitem_ok u) l ->
  (runs = false -> Forall (fun x => f_enc x = false) l) ->
  (1 <= hc < 2 ^ 16)%N -> (2 ^ N.of_nat lw < u \/ hc = 1)%N -> valid_scheduler s1 -> valid_scheduler s2 ->
  exists Ts r m, each_ok (make_fitem u lw) l = Ok Ts /\
    Intersect_mem (Fast lw) s1 s2 hc (map fast_ops Ts) runs true = Ok (r, m) /\
    NoDup (m_freed m) /\ (forall a, In a (m_freed m) -> a < m_next m) /\
    ((hc <= 3)%N -> Permutation (m_freed m) (seq 0 (m_next m))).
Proof. exact fast_memory. Qed.
Print Assumptions C40_fast_memory_partial.

(** Exactly how many arrays are left: none below the height at which a call is split,
    otherwise the arrays of the shares that are divided. *)
Theorem C40_leak_partial : forall (u : N) (l : list bitem) runs hc s1 s2,
  (3 <= u <= 2 ^ 48)%N -> 1 <= length l <= 16 -> Forall (bitem_ok u) l ->
  (runs = false -> Forall (fun x : bitem => snd (fst x) = false) l) ->
  (1 <= hc < 2 ^ 16)%N -> valid_scheduler s1 -> valid_scheduler s2 ->
  exists Ts r m, each_ok (make_bitem u) l = Ok Ts /\
    Intersect_mem Bin s1 s2 hc (map bin_ops Ts) runs true = Ok (r, m) /\
    ((rounded u < 4 * 2 ^ N.log2 hc)%N -> m_next m = 0 /\ m_freed m = []) /\
    ((4 * 2 ^ N.log2 hc <= rounded u)%N ->
     leaves (thread_block u hc) (N.to_nat (2 ^ N.log2 hc)) (map b_part l) runs m).
Proof. exact bin_leak. Qed.
Print Assumptions C40_leak_partial.

Theorem C40_fast_leak_partial : forall (u : N) (lw : nat) (l : list fitem) runs hc s1 s2,
  fast_universe u lw -> (2 ^ N.of_nat lw < u)%N -> 1 <= length l <= 16 -> Forall (fitem_ok u) l ->
  (runs = false -> Forall (fun x => f_enc x = false) l) ->
  (1 <= hc < 2 ^ 16)%N -> valid_scheduler s1 -> valid_scheduler s2 ->
  exists Ts r m, each_ok (make_fitem u lw) l = Ok Ts /\
    Intersect_mem (Fast lw) s1 s2 hc (map fast_ops Ts) runs true = Ok (r, m) /\
    ((rounded u < 2 * 2 ^ N.of_nat lw * 2 ^ N.log2 hc)%N -> m_next m = 0 /\ m_freed m = []) /\
    ((2 * 2 ^ N.of_nat lw * 2 ^ N.log2 hc <= rounded u)%N ->
     leaves (thread_block u hc) (N.to_nat (2 ^ N.log2 hc)) (map f_part l) runs m).
Proof. exact fast_leak. Qed.
Print Assumptions C40_fast_leak_partial.

(** Four threads and two shares: the first is divided, its two arrays stay. *)
Example C40_leak_example :
  let l := [(VLevel false, true, [1; 2; 9; 11]%N); (VLevel true, true, [1; 2; 9; 10]%N)] in
  Forall (bitem_ok 16) l /\ (4 * 2 ^ N.log2 4 <= rounded 16)%N /\
  (let* Ts := each_ok (make_bitem 16) l in
   let* (_, m) := Intersect_mem Bin in_order in_order 4 (map bin_ops Ts) true true in
   Ok (m_next m, length (m_freed m))) = Ok (8, 6).
Proof.
  cbv zeta. split; [|split; [discriminate|reflexivity]].
  constructor; [|constructor; [|constructor]]; sets_ok.
Qed.

Theorem C40_memory_refuted :
  ~ (forall (u : N) (l : list bitem) hc s1 s2,
       (3 <= u <= 2 ^ 48)%N -> 1 <= length l <= 16 -> Forall (bitem_ok u) l ->
       Forall (fun x : bitem => snd (fst x) = false) l ->
       (1 <= hc < 2 ^ 16)%N -> valid_scheduler s1 -> valid_scheduler s2 ->
       exists Ts r m, each_ok (make_bitem u) l = Ok Ts /\
         Intersect_mem Bin s1 s2 hc (map bin_ops Ts) false true = Ok (r, m) /\
         Permutation (m_freed m) (seq 0 (m_next m))).
Proof. exact memory_refuted. Qed.
Print Assumptions C40_memory_refuted.

Example C40_example :
  let l := [(VLevel false, true, [0; 1; 2; 3; 9; 12]%N); (VLevel true, true, [3; 5; 6; 7; 12]%N)] in
  Forall (bitem_ok 16) l /\
  (let* Ts := each_ok (make_bitem 16) l in
   let* (_, m) := Intersect_mem Bin in_order in_order 3 (map bin_ops Ts) true true in Ok m)
  = Ok (mkMem 4 [1; 0; 3; 2]).
Proof. cbv zeta. split; [|reflexivity]. constructor; [|constructor; [|constructor]]; sets_ok. Qed.
