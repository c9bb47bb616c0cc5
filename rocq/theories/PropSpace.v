(** Properties C78 (how much a trie stores) and C79 (how much an intersection of run-encoded
    tries does). *)

From Verif Require Import Base FlatTrie LevelTrie FastTrie ParallelFor Intersection Tries Calls Spec SpecTries
  SpecMeasures SpecSpace InterRefute SpaceThms EmptyThms.

(** C78.  A trie of n values of h digits has at most 2^l and at most n nodes on level l, of two
    bits each. *)
Theorem C78_flat : forall u s, (3 <= u <= 2 ^ 48)%N -> s <> [] -> increasing s -> below u s -> shorter 32 s ->
  exists t, flat_build s u = Ok t /\
    length (f_bTrie t) + length (f_lastLevel t) <= 2 * capped (length s) (digits u).
Proof. exact flat_space. Qed.
Print Assumptions C78_flat.

Theorem C78_level : forall il u s, (2 <= u <= 2 ^ 48)%N -> s <> [] -> increasing s -> below u s ->
  exists t, level_build il s u = Ok t /\ length (concat (l_bTrie t)) <= 2 * capped (length s) (digits u).
Proof. exact level_space. Qed.
Print Assumptions C78_level.

(** The empty set is the exception: its level-wise trie stores as many bits as the whole universe. *)
Theorem C78_level_empty : forall il u, (2 <= u <= 2 ^ 48)%N ->
  exists t, level_build il [] u = Ok t /\ length (concat (l_bTrie t)) + 2 = 2 * 2 ^ digits u /\
    Forall (eq false) (concat (l_bTrie t)).
Proof. exact empty_space. Qed.
Print Assumptions C78_level_empty.

Example C78_empty_example :
  (let* t := level_build false [] 1000 in Ok (length (concat (l_bTrie t)))) = Ok 2046 /\
  (let* t := level_build false [3; 700]%N 1000 in Ok (length (concat (l_bTrie t)))) = Ok 38.
Proof. split; vm_compute; reflexivity. Qed.

Theorem C78_fast : forall lw jh je u s, In lw [3; 4; 5; 6] -> (2 ^ N.of_nat lw < 2 * u <= 2 * 2 ^ 48)%N ->
  s <> [] -> increasing s -> below u s -> shorter 32 s ->
  exists t, fast_build lw jh je s u = Ok t /\
    length (x_bTrie t) <= 2 * capped (length s) (digits u - lw) /\
    length (x_lastLevel t) <= Nat.min (2 ^ (digits u - lw)) (length s).
Proof. exact fast_space. Qed.
Print Assumptions C78_fast.

(** With the runs of a set that consists of r intervals encoded: at most 4 r nodes too. *)
Theorem C78_flat_runs : forall u s R, (3 <= u <= 2 ^ 48)%N -> s <> [] -> increasing s -> below u s -> shorter 32 s ->
  union_of R s ->
  exists t t', flat_build s u = Ok t /\ flat_encodeRuns t = Ok t' /\
    length (f_bTrie t') + length (f_lastLevel t') <= 2 * capped (Nat.min (length s) (4 * length R)) (digits u).
Proof. exact flat_run_space. Qed.
Print Assumptions C78_flat_runs.

Theorem C78_level_runs : forall il u s R, (2 <= u <= 2 ^ 48)%N -> s <> [] -> increasing s -> below u s -> union_of R s ->
  exists t t', level_build il s u = Ok t /\ level_encodeRuns t = Ok t' /\
    length (concat (l_bTrie t')) <= 2 * capped (Nat.min (length s) (4 * length R)) (digits u).
Proof. exact level_run_space. Qed.
Print Assumptions C78_level_runs.

Theorem C78_fast_runs : forall lw jh je u s R, In lw [3; 4; 5; 6] -> (2 ^ N.of_nat lw < 2 * u <= 2 * 2 ^ 48)%N ->
  s <> [] -> increasing s -> below u s -> shorter 32 s -> union_of R s ->
  exists t t', fast_build lw jh je s u = Ok t /\ fast_encodeRuns t = Ok t' /\
    length (x_bTrie t') <= 2 * capped (Nat.min (length s) (4 * length R)) (digits u - lw) /\
    length (x_lastLevel t') <= Nat.min (length s) (4 * length R).
Proof. exact fast_run_space. Qed.
Print Assumptions C78_fast_runs.

(** In closed form: 2 n (h - j) bits and 2^(j+1) more, for every j; so never more than 2 n h. *)
Theorem C78_closed : forall c j h, j <= h -> capped c h <= 2 ^ j - 1 + c * (h - j).
Proof. exact capped_split. Qed.
Print Assumptions C78_closed.

(** The set {1, ..., 14} below 16 is one interval: four nodes on each of the lower levels, as
    many as the bound allows.  Without run encoding there are more. *)
Example C78_example :
  let s := [1; 2; 3; 4; 5; 6; 7; 8; 9; 10; 11; 12; 13; 14]%N in
  ((3 <= 16 <= 2 ^ 48)%N /\ s <> [] /\ increasing s /\ below 16 s /\ shorter 32 s /\ union_of [(1, 14)%N] s) /\
  2 * capped (Nat.min (length s) (4 * 1)) (digits 16) = 22 /\
  (let* t := flat_build s 16 in let* t' := flat_encodeRuns t in
   Ok (length (f_bTrie t) + length (f_lastLevel t), length (f_bTrie t') + length (f_lastLevel t'))) = Ok (30, 22) /\
  2 * capped (length s) (digits 16) = 30.
Proof.
  cbv zeta. split.
  - split; [split; [lia|vm_compute; discriminate]|]. split; [discriminate|]. split; [|split; [|split]].
    + repeat (constructor; [|repeat (constructor; [lia|]); constructor]). constructor.
    + repeat (constructor; [lia|]). constructor.
    + vm_compute. reflexivity.
    + intros x. split.
      * intros I. exists 1%N, 14%N. split; [left; reflexivity|]. cbn [In] in I.
        repeat (destruct I as [<-|I]; [lia|]). destruct I.
      * intros (a & b & [E|[]] & H). injection E as <- <-.
        assert (In (N.to_nat x) (seq 1 14)) as I by (apply in_seq; lia).
        apply (in_map N.of_nat) in I. rewrite N2Nat.id in I. exact I.
  - split; [|split]; vm_compute; reflexivity.
Qed.

(** C79.  The calls of an intersection of run-encoded tries: four for each interval of each set
    and each digit (eight for the last digit), and one more, however long the intervals are. *)
Theorem C79_bin : forall u (l : list bitem) Rs s1 s2 hc,
  (2 <= u <= 2 ^ 48)%N -> 1 <= length l <= 16 -> Forall (bitem_ok u) l ->
  Forall (fun x : bitem => snd (fst x) = true) l -> (1 <= hc)%N ->
  Forall2 (fun R x => union_of R (snd x)) Rs l ->
  exists Ts r c, each_ok (make_bitem u) l = Ok Ts /\
    Intersect_calls Bin hc (map bin_ops Ts) true = Ok (r, c) /\
    Intersect Bin s1 s2 hc (map bin_ops Ts) true false = Ok r /\ is_intersection (map snd l) r /\
    length c <= 1 + 4 * (digits u + 1) * list_sum (map (@length (N * N)) Rs).
Proof. exact bin_run_work. Qed.
Print Assumptions C79_bin.

Theorem C79_fast : forall u lw (l : list fitem) Rs s1 s2 hc,
  fast_universe u lw -> 1 <= length l <= 16 -> Forall (fitem_ok u) l ->
  Forall (fun x => f_enc x = true) l -> (1 <= hc)%N ->
  Forall2 (fun R x => union_of R (snd x)) Rs l ->
  exists Ts r c, each_ok (make_fitem u lw) l = Ok Ts /\
    Intersect_calls (Fast lw) hc (map fast_ops Ts) true = Ok (r, c) /\
    Intersect (Fast lw) s1 s2 hc (map fast_ops Ts) true false = Ok r /\ is_intersection (map snd l) r /\
    length c <= 1 + 4 * (digits u - lw) * list_sum (map (@length (N * N)) Rs).
Proof. exact fast_run_work. Qed.
Print Assumptions C79_fast.

(** {0, ..., 50} and {20, ..., 63} below 64: 31 common values, 16 calls. *)
Example C79_example :
  let a := map N.of_nat (seq 0 51) in let b := map N.of_nat (seq 20 44) in
  let l := [(VLevel true, true, a); (VLevel false, true, b)] in
  Forall (bitem_ok 64) l /\ Forall2 (fun R x => union_of R (snd x)) [[(0, 50)]; [(20, 63)]]%N l /\
  (let* Ts := each_ok (make_bitem 64) l in
   let* (r, c) := Intersect_calls Bin 4 (map bin_ops Ts) true in Ok (length r, length c))
  = Ok (31, 16).
Proof.
  cbv zeta. split; [repeat (constructor; [sets_ok|]); constructor|].
  assert (U : forall x a n, In x (map N.of_nat (seq a (S n))) <-> (N.of_nat a <= x <= N.of_nat (a + n))%N).
  { intros x a n. rewrite in_map_iff. split.
    - intros (y & <- & Y). apply in_seq in Y. lia.
    - intros H. exists (N.to_nat x). split; [apply N2Nat.id|]. apply in_seq. lia. }
  split.
  - constructor; [|constructor; [|constructor]]; intros x; cbn [snd]; rewrite U; split.
    + intros H. exists 0%N, 50%N. split; [left; reflexivity|exact H].
    + intros (a & b & [E|[]] & H). injection E as <- <-. exact H.
    + intros H. exists 20%N, 63%N. split; [left; reflexivity|exact H].
    + intros (a & b & [E|[]] & H). injection E as <- <-. exact H.
  - vm_compute. reflexivity.
Qed.
