(** Adaptive intersection: C82. *)

From Verif Require Import Base FlatTrie LevelTrie FastTrie Tries ParallelFor Intersection Calls Spec SpecTries SpecMeasures
  SpecCalls SpecSpace SpecAdaptive AdaptiveThms InterRefute.

(** However large the sets are: if some intervals prove what the result is, the calls of the
    recursive procedure that an intersection makes are the nodes of a binary tree with at most as
    many nodes on each level as there are intervals. *)
Theorem C82_adaptive : forall u (l : list bitem) (runs : bool) C s1 s2 hc,
  (2 <= u <= 2 ^ 48)%N -> 1 <= length l <= 16 -> Forall (bitem_ok u) l ->
  Forall (fun x : bitem => snd (fst x) = false) l -> (1 <= hc)%N -> certificate (map snd l) u C ->
  exists Ts r c, each_ok (make_bitem u) l = Ok Ts /\
    Intersect_calls Bin hc (map bin_ops Ts) runs = Ok (r, c) /\
    Intersect Bin s1 s2 hc (map bin_ops Ts) runs false = Ok r /\ is_intersection (map snd l) r /\
    length c <= capped (length C) (digits u + 1).
Proof. exact bin_adaptive. Qed.
Print Assumptions C82_adaptive.

(** Fast tries: there are fewer levels. *)
Theorem C82_adaptive_fast : forall u lw (l : list fitem) (runs : bool) C s1 s2 hc,
  fast_universe u lw -> 1 <= length l <= 16 -> Forall (fitem_ok u) l ->
  Forall (fun x => f_enc x = false) l -> (1 <= hc)%N -> certificate (map snd l) u C ->
  exists Ts r c, each_ok (make_fitem u lw) l = Ok Ts /\
    Intersect_calls (Fast lw) hc (map fast_ops Ts) runs = Ok (r, c) /\
    Intersect (Fast lw) s1 s2 hc (map fast_ops Ts) runs false = Ok r /\ is_intersection (map snd l) r /\
    length c <= capped (length C) (digits u - lw + 1).
Proof. exact fast_adaptive. Qed.
Print Assumptions C82_adaptive_fast.

(** With runs, an interval that all sets contain counts once, however long it is. *)
Theorem C82_adaptive_runs : forall u (l : list bitem) C s1 s2 hc,
  (2 <= u <= 2 ^ 48)%N -> 1 <= length l <= 16 -> Forall (bitem_ok u) l ->
  Forall (fun x : bitem => snd (fst x) = true) l -> (1 <= hc)%N ->
  run_certificate (map snd l) (2 ^ N.of_nat (digits u)) C ->
  exists Ts r c, each_ok (make_bitem u) l = Ok Ts /\
    Intersect_calls Bin hc (map bin_ops Ts) true = Ok (r, c) /\
    Intersect Bin s1 s2 hc (map bin_ops Ts) true false = Ok r /\ is_intersection (map snd l) r /\
    length c <= capped (2 * length C) (digits u) + 4 * length C.
Proof. exact bin_adaptive_runs. Qed.
Print Assumptions C82_adaptive_runs.

Theorem C82_adaptive_fast_runs : forall u lw (l : list fitem) C s1 s2 hc,
  fast_universe u lw -> 1 <= length l <= 16 -> Forall (fitem_ok u) l ->
  Forall (fun x => f_enc x = true) l -> (1 <= hc)%N ->
  run_certificate (map snd l) (2 ^ N.of_nat (digits u)) C ->
  exists Ts r c, each_ok (make_fitem u lw) l = Ok Ts /\
    Intersect_calls (Fast lw) hc (map fast_ops Ts) true = Ok (r, c) /\
    Intersect (Fast lw) s1 s2 hc (map fast_ops Ts) true false = Ok r /\ is_intersection (map snd l) r /\
    length c <= capped (2 * length C) (digits u - lw + 1).
Proof. exact fast_adaptive_runs. Qed.
Print Assumptions C82_adaptive_fast_runs.

(** A certificate does say what the result is: it has an interval for each of its members. *)
Theorem C82_certificate : forall sets u C r x, sets <> [] -> Forall (below u) sets -> certificate sets u C ->
  is_intersection sets r -> In x r -> In (x, x) C.
Proof. exact certificate_holds. Qed.
Print Assumptions C82_certificate.

(** {0, ..., 19} and {28, ..., 60} below 64 are told apart by two intervals: three calls.
    With {0, ..., 50} and {20, ..., 63} three intervals show the result, of 31 values. *)
Example C82_example :
  let a := map N.of_nat (seq 0 20) in let b := map N.of_nat (seq 28 33) in
  let l := [(VLevel true, false, a); (VFlat false, false, b)] in
  let a' := map N.of_nat (seq 0 51) in let b' := map N.of_nat (seq 20 44) in
  let l' := [(VLevel true, true, a'); (VLevel false, true, b')] in
  Forall (bitem_ok 64) l /\ certificate (map snd l) 64 [(0, 27); (28, 63)]%N /\
  (let* Ts := each_ok (make_bitem 64) l in
   let* (r, c) := Intersect_calls Bin 4 (map bin_ops Ts) false in Ok (length r, length c)) = Ok (0, 3) /\
  capped 2 (digits 64 + 1) = 13 /\
  Forall (bitem_ok 64) l' /\ run_certificate (map snd l') (2 ^ N.of_nat (digits 64)) [(0, 19); (20, 50); (51, 63)]%N /\
  (let* Ts := each_ok (make_bitem 64) l' in
   let* (r, c) := Intersect_calls Bin 4 (map bin_ops Ts) true in Ok (length r, length c)) = Ok (31, 16) /\
  capped (2 * 3) (digits 64) + 4 * 3 = 37.
Proof.
  cbv zeta.
  assert (U : forall x a n, In x (map N.of_nat (seq a (S n))) <-> (N.of_nat a <= x <= N.of_nat (a + n))%N).
  { intros x a n. rewrite in_map_iff. split.
    - intros (y & <- & Y). apply in_seq in Y. lia.
    - intros H. exists (N.to_nat x). split; [apply N2Nat.id|]. apply in_seq. lia. }
  split; [repeat (constructor; [sets_ok|]); constructor|].
  split.
  { cbn [map snd]. split.
    - intros x Hx. destruct (N.le_gt_cases x 27); [exists 0%N, 27%N|exists 28%N, 63%N]; (split; [cbn [In]; tauto|lia]).
    - constructor; [|constructor; [|constructor]]; left; cbn [fst snd].
      + right. left. intros x Hx I. apply U in I. cbn [fst snd] in Hx. lia.
      + left. intros x Hx I. apply U in I. cbn [fst snd] in Hx. lia. }
  split; [vm_compute; reflexivity|]. split; [vm_compute; reflexivity|].
  split; [repeat (constructor; [sets_ok|]); constructor|].
  split; [|split; vm_compute; reflexivity].
  cbn [map snd]. split.
  - intros x Hx. change (2 ^ N.of_nat (digits 64))%N with 64%N in Hx.
    destruct (N.le_gt_cases x 19); [exists 0%N, 19%N; split; [cbn [In]; tauto|lia]|].
    destruct (N.le_gt_cases x 50); [exists 20%N, 50%N|exists 51%N, 63%N]; (split; [cbn [In]; tauto|lia]).
  - constructor; [|constructor; [|constructor; [|constructor]]]; cbn [fst snd].
    + left. right. left. intros x Hx I. apply U in I. cbn [fst snd] in Hx. lia.
    + right. constructor; [|constructor; [|constructor]]; intros x Hx; apply U; lia.
    + left. left. intros x Hx I. apply U in I. cbn [fst snd] in Hx. lia.
Qed.

(** The same for fast tries with words of eight. *)
Example C82_fast_example :
  let a := map N.of_nat (seq 0 20) in let b := map N.of_nat (seq 28 33) in
  let l := [(Some 7, Some true, false, a); (None, None, false, b)] in
  let l' := [(Some 7, Some true, true, a); (None, None, true, b)] in
  fast_universe 64 3 /\ Forall (fitem_ok 64) l /\ Forall (fitem_ok 64) l' /\
  certificate (map snd l) 64 [(0, 27); (28, 63)]%N /\
  run_certificate (map snd l') (2 ^ N.of_nat (digits 64)) [(0, 27); (28, 63)]%N /\
  (let* Ts := each_ok (make_fitem 64 3) l in
   let* (r, c) := Intersect_calls (Fast 3) 4 (map fast_ops Ts) false in Ok (length r, length c)) = Ok (0, 3) /\
  capped 2 (digits 64 - 3 + 1) = 7 /\
  (let* Ts := each_ok (make_fitem 64 3) l' in
   let* (r, c) := Intersect_calls (Fast 3) 4 (map fast_ops Ts) true in Ok (length r, length c)) = Ok (0, 3) /\
  capped (2 * 2) (digits 64 - 3 + 1) = 11.
Proof.
  cbv zeta.
  assert (U : forall x a n, In x (map N.of_nat (seq a (S n))) <-> (N.of_nat a <= x <= N.of_nat (a + n))%N).
  { intros x a n. rewrite in_map_iff. split.
    - intros (y & <- & Y). apply in_seq in Y. lia.
    - intros H. exists (N.to_nat x). split; [apply N2Nat.id|]. apply in_seq. lia. }
  assert (V : covers [(0, 27); (28, 63)]%N 64).
  { intros x Hx. destruct (N.le_gt_cases x 27); [exists 0%N, 27%N|exists 28%N, 63%N]; (split; [cbn [In]; tauto|lia]). }
  assert (A0 : avoids (0, 27)%N (map N.of_nat (seq 28 33))).
  { intros x Hx I. apply U in I. cbn [fst snd] in Hx. lia. }
  assert (A1 : avoids (28, 63)%N (map N.of_nat (seq 0 20))).
  { intros x Hx I. apply U in I. cbn [fst snd] in Hx. lia. }
  split; [sets_ok|]. split; [repeat (constructor; [sets_ok|]); constructor|].
  split; [repeat (constructor; [sets_ok|]); constructor|].
  split; [|split; [|repeat split; vm_compute; reflexivity]].
  - cbn [map snd]. split; [exact V|]. constructor; [|constructor; [|constructor]]; left; [right; left|left]; assumption.
  - cbn [map snd]. split; [exact V|]. constructor; [|constructor; [|constructor]]; left; [right; left|left]; assumption.
Qed.
