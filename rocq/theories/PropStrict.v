(** Property C71: the variables an intersection reads. *)

From Verif Require Import Base FlatTrie LevelTrie FastTrie ParallelFor Intersection Tries Strict Spec SpecTries SpecMeasures
  SpecCalls SpecStrict SpecLost InterRefute StrictThms StrictPar
  StrictExact.

(** C71.  "Intersect reads no variable it has not set."  [Intersect_strict] is the sequential
    Intersect where a read of an unset flag is undefined; where it is defined it returns what
    Intersect does in the theorems of the other properties. *)
Theorem C71_agrees : forall k s1 s2 hc Ts runs r,
  Intersect_strict k hc Ts runs = Ok r -> Intersect k s1 s2 hc Ts runs false = Ok r.
Proof. exact strict_agrees. Qed.
Print Assumptions C71_agrees.

(** With runs=true no such flag is read. *)
Theorem C71_runs : forall k s1 s2 hc Ts,
  Intersect_strict k hc Ts true = Intersect k s1 s2 hc Ts true false.
Proof. exact strict_runs. Qed.
Print Assumptions C71_runs.

(** With runs=false, on plain tries: the call is defined, and returns the intersection, exactly
    when the prefixes the sets have in common are as [flags_set] says. *)
Theorem C71_flags_partial : forall (u : N) (l : list bitem) (hc : N),
  (2 <= u <= 2 ^ 48)%N -> 1 <= length l <= 16 -> Forall (bitem_ok u) l ->
  Forall (fun x : bitem => snd (fst x) = false) l -> (1 <= hc)%N ->
  exists Ts, each_ok (make_bitem u) l = Ok Ts /\
    (flags_set (common_prefix (map snd l)) 0 (digits u) ->
       exists r, Intersect_strict Bin hc (map bin_ops Ts) false = Ok r /\ is_intersection (map snd l) r) /\
    (~ flags_set (common_prefix (map snd l)) 0 (digits u) -> Intersect_strict Bin hc (map bin_ops Ts) false = UB Indeterminate).
Proof. exact bin_strict. Qed.
Print Assumptions C71_flags_partial.

(** The same for fast tries, with prefixes that leave out at least a word. *)
Theorem C71_fast_flags_partial : forall (u : N) (lw : nat) (l : list fitem) (hc : N),
  fast_universe u lw -> 1 <= length l <= 16 -> Forall (fitem_ok u) l ->
  Forall (fun x => f_enc x = false) l -> (1 <= hc)%N ->
  exists Ts, each_ok (make_fitem u lw) l = Ok Ts /\
    (flags_set (common_prefix (map snd l)) lw (digits u) ->
       exists r, Intersect_strict (Fast lw) hc (map fast_ops Ts) false = Ok r /\ is_intersection (map snd l) r) /\
    (~ flags_set (common_prefix (map snd l)) lw (digits u) ->
       Intersect_strict (Fast lw) hc (map fast_ops Ts) false = UB Indeterminate).
Proof. exact fast_strict. Qed.
Print Assumptions C71_fast_flags_partial.

(** So the call is undefined as soon as the intersection has an odd value without the even one
    before it. *)
Theorem C71_odd_refuted : forall (u : N) (l : list bitem) (hc x : N),
  (2 <= u <= 2 ^ 48)%N -> 1 <= length l <= 16 -> Forall (bitem_ok u) l ->
  Forall (fun x : bitem => snd (fst x) = false) l -> (1 <= hc)%N ->
  Forall (fun s => In x s) (map snd l) -> N.odd x = true -> ~ Forall (fun s => In (x - 1)%N s) (map snd l) ->
  exists Ts, each_ok (make_bitem u) l = Ok Ts /\ Intersect_strict Bin hc (map bin_ops Ts) false = UB Indeterminate.
Proof. exact bin_odd. Qed.
Print Assumptions C71_odd_refuted.

(** For fast tries: a common value in an odd-numbered word, one set having nothing in the word
    before it. *)
Theorem C71_fast_odd_refuted : forall (u : N) (lw : nat) (l : list fitem) (hc x : N),
  fast_universe u lw -> (2 ^ N.of_nat lw < u)%N -> 1 <= length l <= 16 -> Forall (fitem_ok u) l ->
  Forall (fun x => f_enc x = false) l -> (1 <= hc)%N ->
  Forall (fun s => In x s) (map snd l) -> N.odd (x / 2 ^ N.of_nat lw) = true ->
  Exists (fun s => forall y, In y s -> (y / 2 ^ N.of_nat lw + 1 <> x / 2 ^ N.of_nat lw)%N) (map snd l) ->
  exists Ts, each_ok (make_fitem u lw) l = Ok Ts /\ Intersect_strict (Fast lw) hc (map fast_ops Ts) false = UB Indeterminate.
Proof. exact fast_odd. Qed.
Print Assumptions C71_fast_odd_refuted.

Example C71_example :
  let good := [(VFlat false, false, [0; 1; 2; 4; 5]%N); (VLevel true, false, [0; 2; 3; 4; 7]%N)] in
  let bad := [(VFlat false, false, [0; 1; 5]%N); (VLevel true, false, [0; 5; 6]%N)] in
  let fast_good := [(None, None, false, [3; 12; 17; 30]%N); (Some 9, None, false, [3; 9; 17; 26]%N)] in
  let fast_bad := [(None, None, false, [3; 9; 26]%N); (Some 9, None, false, [9; 17; 26]%N)] in
  (Forall (bitem_ok 8) good /\ Forall (bitem_ok 8) bad /\
   Forall (fun s => In 5%N s) (map snd bad) /\ N.odd 5 = true /\ ~ Forall (fun s => In (5 - 1)%N s) (map snd bad)) /\
  (Forall (fitem_ok 32) fast_good /\ Forall (fitem_ok 32) fast_bad /\ fast_universe 32 3 /\
   Forall (fun s => In 9%N s) (map snd fast_bad) /\ N.odd (9 / 2 ^ N.of_nat 3) = true /\
   Exists (fun s => forall y, In y s -> (y / 2 ^ N.of_nat 3 + 1 <> 9 / 2 ^ N.of_nat 3)%N) (map snd fast_bad)) /\
  (let* Ts := each_ok (make_bitem 8) good in Intersect_strict Bin 1 (map bin_ops Ts) false) = Ok [0; 2; 4]%N /\
  (let* Ts := each_ok (make_bitem 8) bad in Intersect_strict Bin 1 (map bin_ops Ts) false) = UB Indeterminate /\
  (let* Ts := each_ok (make_bitem 8) bad in Intersect_strict Bin 1 (map bin_ops Ts) true) = Ok [0; 5]%N /\
  (let* Ts := each_ok (make_fitem 32 3) fast_good in Intersect_strict (Fast 3) 1 (map fast_ops Ts) false) = Ok [3; 17]%N /\
  (let* Ts := each_ok (make_fitem 32 3) fast_bad in Intersect_strict (Fast 3) 1 (map fast_ops Ts) false) = UB Indeterminate.
Proof.
  cbv zeta. split; [|split; [|repeat split; vm_compute; reflexivity]].
  - split; [constructor; [|constructor; [|constructor]]; sets_ok|].
    split; [constructor; [|constructor; [|constructor]]; sets_ok|].
    split; [cbn; repeat (apply Forall_cons; [cbn; auto 9|]); apply Forall_nil|]. split; [reflexivity|].
    intros H. inversion H as [|? ? H1]. cbn in H1. intuition discriminate.
  - split; [constructor; [|constructor; [|constructor]]; sets_ok|].
    split; [constructor; [|constructor; [|constructor]]; sets_ok|].
    split; [split; [left; reflexivity|split; [reflexivity|discriminate]]|].
    split; [cbn; repeat (apply Forall_cons; [cbn; auto 9|]); apply Forall_nil|]. split; [reflexivity|].
    apply Exists_cons_tl, Exists_cons_hd. cbn [In snd]. intros y H.
    destruct H as [<- | [<- | [<- | []]]]; vm_compute; discriminate.
Qed.

(** The same of a parallel call: [Intersect_strict_par] reads the flags strictly in every thread. *)
Theorem C71_parallel_agrees : forall k s1 s2 hc Ts runs r, Intersect_strict_par k s1 s2 hc Ts runs = Ok r ->
  Intersect k s1 s2 hc Ts runs true = Ok r.
Proof. exact strict_par_agrees. Qed.
Print Assumptions C71_parallel_agrees.

Theorem C71_parallel_runs : forall k s1 s2 hc Ts,
  Intersect_strict_par k s1 s2 hc Ts true = Intersect k s1 s2 hc Ts true true.
Proof. exact strict_par_runs. Qed.
Print Assumptions C71_parallel_runs.

(** With runs=false, on plain tries, when the work is divided (log2 hc is at most the number of
    digits less 2): each thread looks at the prefixes below the level where the work was divided,
    or one level further where shares were divided again.  The call is defined when the flags
    below the first of these levels are set, and undefined when some below the second is not;
    up to 3 processors, exactly when those below the first are not all set. *)
Theorem C71_parallel_flags_partial : forall u (l : list bitem) hc s1 s2,
  (2 <= u <= 2 ^ 48)%N -> 1 <= length l <= 16 -> Forall (bitem_ok u) l ->
  Forall (fun x : bitem => snd (fst x) = false) l -> (1 <= hc < 2 ^ 16)%N ->
  N.to_nat (N.log2 hc) + 2 <= digits u -> valid_scheduler s1 -> valid_scheduler s2 ->
  exists Ts, each_ok (make_bitem u) l = Ok Ts /\
    (flags_set (common_prefix (map snd l)) 0 (digits u - N.to_nat (N.log2 hc)) ->
       exists r, Intersect_strict_par Bin s1 s2 hc (map bin_ops Ts) false = Ok r /\ is_intersection (map snd l) r) /\
    (~ flags_set (common_prefix (map snd l)) 0 (digits u - S (N.to_nat (N.log2 hc))) ->
       Intersect_strict_par Bin s1 s2 hc (map bin_ops Ts) false = UB Indeterminate) /\
    ((hc <= 3)%N -> ~ flags_set (common_prefix (map snd l)) 0 (digits u - N.to_nat (N.log2 hc)) ->
       Intersect_strict_par Bin s1 s2 hc (map bin_ops Ts) false = UB Indeterminate).
Proof. exact bin_strict_par. Qed.
Print Assumptions C71_parallel_flags_partial.

Theorem C71_parallel_fast_flags_partial : forall u lw (l : list fitem) hc s1 s2,
  fast_universe u lw -> 1 <= length l <= 16 -> Forall (fitem_ok u) l ->
  Forall (fun x => f_enc x = false) l -> (1 <= hc < 2 ^ 16)%N ->
  N.to_nat (N.log2 hc) + 1 + lw <= digits u -> valid_scheduler s1 -> valid_scheduler s2 ->
  exists Ts, each_ok (make_fitem u lw) l = Ok Ts /\
    (flags_set (common_prefix (map snd l)) lw (digits u - N.to_nat (N.log2 hc)) ->
       exists r, Intersect_strict_par (Fast lw) s1 s2 hc (map fast_ops Ts) false = Ok r /\ is_intersection (map snd l) r) /\
    (~ flags_set (common_prefix (map snd l)) lw (digits u - S (N.to_nat (N.log2 hc))) ->
       Intersect_strict_par (Fast lw) s1 s2 hc (map fast_ops Ts) false = UB Indeterminate) /\
    ((hc <= 3)%N -> ~ flags_set (common_prefix (map snd l)) lw (digits u - N.to_nat (N.log2 hc)) ->
       Intersect_strict_par (Fast lw) s1 s2 hc (map fast_ops Ts) false = UB Indeterminate).
Proof. exact fast_strict_par. Qed.
Print Assumptions C71_parallel_fast_flags_partial.

(** Exactly, for any number of processors: the call is defined, and returns the intersection, if
    and only if the flags the threads read are set as [thread_flags_set] says. *)
Theorem C71_parallel_exact_partial : forall u (l : list bitem) hc s1 s2,
  (2 <= u <= 2 ^ 48)%N -> 1 <= length l <= 16 -> Forall (bitem_ok u) l ->
  Forall (fun x : bitem => snd (fst x) = false) l -> (1 <= hc < 2 ^ 16)%N ->
  N.to_nat (N.log2 hc) + 2 <= digits u -> valid_scheduler s1 -> valid_scheduler s2 ->
  exists Ts, each_ok (make_bitem u) l = Ok Ts /\
    (thread_flags_set (common_prefix (map snd l)) (map b_part l) 0 (digits u) (N.to_nat (N.log2 hc)) (N.to_nat (2 ^ N.log2 hc)) ->
       exists r, Intersect_strict_par Bin s1 s2 hc (map bin_ops Ts) false = Ok r /\ is_intersection (map snd l) r) /\
    (~ thread_flags_set (common_prefix (map snd l)) (map b_part l) 0 (digits u) (N.to_nat (N.log2 hc)) (N.to_nat (2 ^ N.log2 hc)) ->
       Intersect_strict_par Bin s1 s2 hc (map bin_ops Ts) false = UB Indeterminate).
Proof. exact bin_par_flags. Qed.
Print Assumptions C71_parallel_exact_partial.

Theorem C71_parallel_fast_exact_partial : forall u lw (l : list fitem) hc s1 s2,
  fast_universe u lw -> 1 <= length l <= 16 -> Forall (fitem_ok u) l ->
  Forall (fun x => f_enc x = false) l -> (1 <= hc < 2 ^ 16)%N ->
  N.to_nat (N.log2 hc) + 1 + lw <= digits u -> valid_scheduler s1 -> valid_scheduler s2 ->
  exists Ts, each_ok (make_fitem u lw) l = Ok Ts /\
    (thread_flags_set (common_prefix (map snd l)) (map f_part l) lw (digits u) (N.to_nat (N.log2 hc)) (N.to_nat (2 ^ N.log2 hc)) ->
       exists r, Intersect_strict_par (Fast lw) s1 s2 hc (map fast_ops Ts) false = Ok r /\ is_intersection (map snd l) r) /\
    (~ thread_flags_set (common_prefix (map snd l)) (map f_part l) lw (digits u) (N.to_nat (N.log2 hc)) (N.to_nat (2 ^ N.log2 hc)) ->
       Intersect_strict_par (Fast lw) s1 s2 hc (map fast_ops Ts) false = UB Indeterminate).
Proof. exact fast_par_flags. Qed.
Print Assumptions C71_parallel_fast_exact_partial.

(** With 5 processors the lists [one] have a single share in common, which is divided in halves;
    [three] have three, too many for that. *)
Example C71_parallel_exact_example :
  let one := [(VFlat false, false, [20; 22; 23]%N); (VLevel true, false, [4; 6; 20; 21; 22; 23; 31]%N)] in
  let three := [(VFlat false, false, [0; 8; 20; 22; 23]%N); (VLevel true, false, [0; 8; 20; 21; 22; 23; 31]%N)] in
  let fast_one := [(None, None, false, [33; 40]%N); (Some 9, None, false, [17; 40; 59]%N)] in
  let fast_three := [(None, None, false, [3; 17; 33; 40]%N); (Some 9, None, false, [3; 17; 40; 59]%N)] in
  (Forall (bitem_ok 32) one /\ Forall (bitem_ok 32) three /\ N.to_nat (N.log2 5) + 2 <= digits 32) /\
  (Forall (fitem_ok 64) fast_one /\ Forall (fitem_ok 64) fast_three /\ fast_universe 64 3 /\
   N.to_nat (N.log2 5) + 1 + 3 <= digits 64) /\
  (let* Ts := each_ok (make_bitem 32) one in Intersect_strict_par Bin (@concat _) (@concat _) 5 (map bin_ops Ts) false) =
    Ok [20; 22; 23]%N /\
  (let* Ts := each_ok (make_bitem 32) three in Intersect_strict_par Bin (@concat _) (@concat _) 5 (map bin_ops Ts) false) =
    UB Indeterminate /\
  (let* Ts := each_ok (make_fitem 64 3) fast_one in
   Intersect_strict_par (Fast 3) (@concat _) (@concat _) 5 (map fast_ops Ts) false) = Ok [40]%N /\
  (let* Ts := each_ok (make_fitem 64 3) fast_three in
   Intersect_strict_par (Fast 3) (@concat _) (@concat _) 5 (map fast_ops Ts) false) = UB Indeterminate.
Proof.
  cbv zeta. split; [|split; [|repeat split; vm_compute; reflexivity]].
  - split; [constructor; [|constructor; [|constructor]]; sets_ok|].
    split; [constructor; [|constructor; [|constructor]]; sets_ok|]. vm_compute; lia.
  - split; [constructor; [|constructor; [|constructor]]; sets_ok|].
    split; [constructor; [|constructor; [|constructor]]; sets_ok|].
    split; [split; [left; reflexivity|split; [reflexivity|discriminate]]|]. vm_compute; lia.
Qed.

(** So a parallel call too is undefined as soon as the intersection has an odd value without the
    even one before it. *)
Theorem C71_parallel_odd_refuted : forall u (l : list bitem) hc s1 s2 x,
  (2 <= u <= 2 ^ 48)%N -> 1 <= length l <= 16 -> Forall (bitem_ok u) l ->
  Forall (fun x : bitem => snd (fst x) = false) l -> (1 <= hc < 2 ^ 16)%N ->
  N.to_nat (N.log2 hc) + 2 <= digits u -> valid_scheduler s1 -> valid_scheduler s2 ->
  Forall (fun s => In x s) (map snd l) -> N.odd x = true -> ~ Forall (fun s => In (x - 1)%N s) (map snd l) ->
  exists Ts, each_ok (make_bitem u) l = Ok Ts /\ Intersect_strict_par Bin s1 s2 hc (map bin_ops Ts) false = UB Indeterminate.
Proof. exact bin_odd_par. Qed.
Print Assumptions C71_parallel_odd_refuted.

Theorem C71_parallel_fast_odd_refuted : forall u lw (l : list fitem) hc s1 s2 x,
  fast_universe u lw -> 1 <= length l <= 16 -> Forall (fitem_ok u) l ->
  Forall (fun x => f_enc x = false) l -> (1 <= hc < 2 ^ 16)%N ->
  N.to_nat (N.log2 hc) + 2 + lw <= digits u -> valid_scheduler s1 -> valid_scheduler s2 ->
  Forall (fun s => In x s) (map snd l) -> N.odd (x / 2 ^ N.of_nat lw) = true ->
  Exists (fun s => forall y, In y s -> (y / 2 ^ N.of_nat lw + 1 <> x / 2 ^ N.of_nat lw)%N) (map snd l) ->
  exists Ts, each_ok (make_fitem u lw) l = Ok Ts /\ Intersect_strict_par (Fast lw) s1 s2 hc (map fast_ops Ts) false = UB Indeterminate.
Proof. exact fast_odd_par. Qed.
Print Assumptions C71_parallel_fast_odd_refuted.

Example C71_parallel_example :
  let good := [(VFlat false, false, [20; 22; 23]%N); (VLevel true, false, [4; 6; 20; 21; 22; 23; 31]%N)] in
  let bad := [(VFlat false, false, [4; 5; 21]%N); (VLevel true, false, [4; 21; 30]%N)] in
  let fast_good := [(None, None, false, [33; 40]%N); (Some 9, None, false, [17; 33; 40; 59]%N)] in
  let fast_bad := [(None, None, false, [3; 9; 26]%N); (Some 9, None, false, [9; 17; 26]%N)] in
  (Forall (bitem_ok 32) good /\ Forall (bitem_ok 32) bad /\ N.to_nat (N.log2 5) + 2 <= digits 32 /\
   Forall (fun s => In 21%N s) (map snd bad) /\ N.odd 21 = true /\ ~ Forall (fun s => In (21 - 1)%N s) (map snd bad)) /\
  (Forall (fitem_ok 64) fast_good /\ Forall (fitem_ok 64) fast_bad /\ fast_universe 64 3 /\
   N.to_nat (N.log2 2) + 2 + 3 <= digits 64 /\
   Forall (fun s => In 9%N s) (map snd fast_bad) /\ N.odd (9 / 2 ^ N.of_nat 3) = true /\
   Exists (fun s => forall y, In y s -> (y / 2 ^ N.of_nat 3 + 1 <> 9 / 2 ^ N.of_nat 3)%N) (map snd fast_bad)) /\
  (let* Ts := each_ok (make_bitem 32) good in Intersect_strict Bin 5 (map bin_ops Ts) false) = UB Indeterminate /\
  (let* Ts := each_ok (make_bitem 32) good in Intersect_strict_par Bin (@concat _) (@concat _) 5 (map bin_ops Ts) false) =
    Ok [20; 22; 23]%N /\
  (let* Ts := each_ok (make_bitem 32) bad in Intersect_strict_par Bin (@concat _) (@concat _) 5 (map bin_ops Ts) false) =
    UB Indeterminate /\
  (let* Ts := each_ok (make_fitem 64 3) fast_good in Intersect_strict (Fast 3) 2 (map fast_ops Ts) false) = UB Indeterminate /\
  (let* Ts := each_ok (make_fitem 64 3) fast_good in
   Intersect_strict_par (Fast 3) (@concat _) (@concat _) 2 (map fast_ops Ts) false) = Ok [33; 40]%N /\
  (let* Ts := each_ok (make_fitem 64 3) fast_bad in
   Intersect_strict_par (Fast 3) (@concat _) (@concat _) 2 (map fast_ops Ts) false) = UB Indeterminate.
Proof.
  cbv zeta. split; [|split; [|repeat split; vm_compute; reflexivity]].
  - split; [constructor; [|constructor; [|constructor]]; sets_ok|].
    split; [constructor; [|constructor; [|constructor]]; sets_ok|].
    split; [vm_compute; lia|].
    split; [cbn; repeat (apply Forall_cons; [cbn; auto 9|]); apply Forall_nil|]. split; [reflexivity|].
    intros H. inversion H as [|? ? H1]. cbn in H1. intuition discriminate.
  - split; [constructor; [|constructor; [|constructor]]; sets_ok|].
    split; [constructor; [|constructor; [|constructor]]; sets_ok|].
    split; [split; [left; reflexivity|split; [reflexivity|discriminate]]|].
    split; [vm_compute; lia|].
    split; [cbn; repeat (apply Forall_cons; [cbn; auto 9|]); apply Forall_nil|]. split; [reflexivity|].
    apply Exists_cons_tl, Exists_cons_hd. cbn [In snd]. intros y H.
    destruct H as [<- | [<- | [<- | []]]]; vm_compute; discriminate.
Qed.

(** Tries of either kind, their runs encoded or not, with runs=false: the same with the prefixes the
    tries have, none of them inside a run.  What is returned then is the intersection less
    the runs of the tries. *)
Theorem C71_encoded_flags_partial : forall (u : N) (l : list bitem) (hc : N),
  (2 <= u <= 2 ^ 48)%N -> 1 <= length l <= 16 -> Forall (bitem_ok u) l ->
  (1 <= hc)%N ->
  exists Ts, each_ok (make_bitem u) l = Ok Ts /\
    (flags_set (bin_prefixes l) 0 (digits u) ->
       exists r, Intersect_strict Bin hc (map bin_ops Ts) false = Ok r /\
         common_where (map b_part l) (fun v => ~ Exists (run_around 4 v) (map b_part l)) r) /\
    (~ flags_set (bin_prefixes l) 0 (digits u) -> Intersect_strict Bin hc (map bin_ops Ts) false = UB Indeterminate).
Proof. exact bin_strict_any. Qed.
Print Assumptions C71_encoded_flags_partial.

Theorem C71_encoded_fast_flags_partial : forall (u : N) (lw : nat) (l : list fitem) (hc : N),
  fast_universe u lw -> 1 <= length l <= 16 -> Forall (fitem_ok u) l ->
  (1 <= hc)%N ->
  exists Ts, each_ok (make_fitem u lw) l = Ok Ts /\
    (flags_set (fast_prefixes l) lw (digits u) ->
       exists r, Intersect_strict (Fast lw) hc (map fast_ops Ts) false = Ok r /\
         common_where (map f_part l) (fun v => ~ Exists (run_around (2 * 2 ^ N.of_nat lw) v) (map f_part l)) r) /\
    (~ flags_set (fast_prefixes l) lw (digits u) ->
       Intersect_strict (Fast lw) hc (map fast_ops Ts) false = UB Indeterminate).
Proof. exact fast_strict_any. Qed.
Print Assumptions C71_encoded_fast_flags_partial.

(** In parallel, bounds and the exact condition. *)
Theorem C71_encoded_parallel_flags_partial : forall u (l : list bitem) hc s1 s2,
  (2 <= u <= 2 ^ 48)%N -> 1 <= length l <= 16 -> Forall (bitem_ok u) l ->
  (1 <= hc < 2 ^ 16)%N ->
  N.to_nat (N.log2 hc) + 2 <= digits u -> valid_scheduler s1 -> valid_scheduler s2 ->
  exists Ts, each_ok (make_bitem u) l = Ok Ts /\
    (flags_set (bin_prefixes l) 0 (digits u - N.to_nat (N.log2 hc)) ->
       exists r, Intersect_strict_par Bin s1 s2 hc (map bin_ops Ts) false = Ok r /\
         common_where (map b_part l) (fun v => ~ Exists (run_around 4 v) (map b_part l)) r) /\
    (~ flags_set (bin_prefixes l) 0 (digits u - S (N.to_nat (N.log2 hc))) ->
       Intersect_strict_par Bin s1 s2 hc (map bin_ops Ts) false = UB Indeterminate) /\
    ((hc <= 3)%N -> ~ flags_set (bin_prefixes l) 0 (digits u - N.to_nat (N.log2 hc)) ->
       Intersect_strict_par Bin s1 s2 hc (map bin_ops Ts) false = UB Indeterminate).
Proof. exact bin_strict_par_any. Qed.
Print Assumptions C71_encoded_parallel_flags_partial.

Theorem C71_encoded_parallel_fast_flags_partial : forall u lw (l : list fitem) hc s1 s2,
  fast_universe u lw -> 1 <= length l <= 16 -> Forall (fitem_ok u) l ->
  (1 <= hc < 2 ^ 16)%N ->
  N.to_nat (N.log2 hc) + 1 + lw <= digits u -> valid_scheduler s1 -> valid_scheduler s2 ->
  exists Ts, each_ok (make_fitem u lw) l = Ok Ts /\
    (flags_set (fast_prefixes l) lw (digits u - N.to_nat (N.log2 hc)) ->
       exists r, Intersect_strict_par (Fast lw) s1 s2 hc (map fast_ops Ts) false = Ok r /\
         common_where (map f_part l) (fun v => ~ Exists (run_around (2 * 2 ^ N.of_nat lw) v) (map f_part l)) r) /\
    (~ flags_set (fast_prefixes l) lw (digits u - S (N.to_nat (N.log2 hc))) ->
       Intersect_strict_par (Fast lw) s1 s2 hc (map fast_ops Ts) false = UB Indeterminate) /\
    ((hc <= 3)%N -> ~ flags_set (fast_prefixes l) lw (digits u - N.to_nat (N.log2 hc)) ->
       Intersect_strict_par (Fast lw) s1 s2 hc (map fast_ops Ts) false = UB Indeterminate).
Proof. exact fast_strict_par_any. Qed.
Print Assumptions C71_encoded_parallel_fast_flags_partial.

Theorem C71_encoded_parallel_exact_partial : forall u (l : list bitem) hc s1 s2,
  (2 <= u <= 2 ^ 48)%N -> 1 <= length l <= 16 -> Forall (bitem_ok u) l ->
  (1 <= hc < 2 ^ 16)%N ->
  N.to_nat (N.log2 hc) + 2 <= digits u -> valid_scheduler s1 -> valid_scheduler s2 ->
  exists Ts, each_ok (make_bitem u) l = Ok Ts /\
    (thread_flags_set (bin_prefixes l) (map b_part l) 0 (digits u) (N.to_nat (N.log2 hc)) (N.to_nat (2 ^ N.log2 hc)) ->
       exists r, Intersect_strict_par Bin s1 s2 hc (map bin_ops Ts) false = Ok r /\
         common_where (map b_part l) (fun v => ~ Exists (run_around 4 v) (map b_part l)) r) /\
    (~ thread_flags_set (bin_prefixes l) (map b_part l) 0 (digits u) (N.to_nat (N.log2 hc)) (N.to_nat (2 ^ N.log2 hc)) ->
       Intersect_strict_par Bin s1 s2 hc (map bin_ops Ts) false = UB Indeterminate).
Proof. exact bin_par_flags_any. Qed.
Print Assumptions C71_encoded_parallel_exact_partial.

Theorem C71_encoded_parallel_fast_exact_partial : forall u lw (l : list fitem) hc s1 s2,
  fast_universe u lw -> 1 <= length l <= 16 -> Forall (fitem_ok u) l ->
  (1 <= hc < 2 ^ 16)%N ->
  N.to_nat (N.log2 hc) + 1 + lw <= digits u -> valid_scheduler s1 -> valid_scheduler s2 ->
  exists Ts, each_ok (make_fitem u lw) l = Ok Ts /\
    (thread_flags_set (fast_prefixes l) (map f_part l) lw (digits u) (N.to_nat (N.log2 hc)) (N.to_nat (2 ^ N.log2 hc)) ->
       exists r, Intersect_strict_par (Fast lw) s1 s2 hc (map fast_ops Ts) false = Ok r /\
         common_where (map f_part l) (fun v => ~ Exists (run_around (2 * 2 ^ N.of_nat lw) v) (map f_part l)) r) /\
    (~ thread_flags_set (fast_prefixes l) (map f_part l) lw (digits u) (N.to_nat (N.log2 hc)) (N.to_nat (2 ^ N.log2 hc)) ->
       Intersect_strict_par (Fast lw) s1 s2 hc (map fast_ops Ts) false = UB Indeterminate).
Proof. exact fast_par_flags_any. Qed.
Print Assumptions C71_encoded_parallel_fast_exact_partial.

(** The run 0-3 hides the value 0 from the call, and in [bad] the flag of its block with it. *)
Example C71_encoded_example :
  let good := [(VLevel false, true, [0; 1; 2; 3; 4; 8]%N); (VFlat true, false, [0; 4; 8]%N)] in
  let bad := [(VLevel false, true, [0; 1; 2; 3; 8]%N); (VFlat true, false, [0; 8]%N)] in
  let plain := [(VFlat false, false, [0; 1; 2; 3; 8]%N); (VFlat true, false, [0; 8]%N)] in
  let fast_good := [(None, None, true, [0; 1; 2; 3; 4; 5; 6; 7; 8; 9; 10; 11; 12; 13; 14; 15; 16; 32]%N); (Some 9, None, false, [0; 16; 32]%N)] in
  let fast_bad := [(None, None, true, [0; 1; 2; 3; 4; 5; 6; 7; 8; 9; 10; 11; 12; 13; 14; 15; 32]%N); (Some 9, None, false, [0; 32]%N)] in
  (Forall (bitem_ok 16) good /\ Forall (bitem_ok 16) bad /\ N.to_nat (N.log2 5) + 2 <= digits 16) /\
  (Forall (fitem_ok 64) fast_good /\ Forall (fitem_ok 64) fast_bad /\ fast_universe 64 3 /\ N.to_nat (N.log2 2) + 1 + 3 <= digits 64) /\
  (let* Ts := each_ok (make_bitem 16) good in Intersect_strict Bin 1 (map bin_ops Ts) false) = Ok [4; 8]%N /\
  (let* Ts := each_ok (make_bitem 16) bad in Intersect_strict Bin 1 (map bin_ops Ts) false) = UB Indeterminate /\
  (let* Ts := each_ok (make_bitem 16) plain in Intersect_strict Bin 1 (map bin_ops Ts) false) = Ok [0; 8]%N /\
  (let* Ts := each_ok (make_fitem 64 3) fast_good in Intersect_strict (Fast 3) 1 (map fast_ops Ts) false) = Ok [16; 32]%N /\
  (let* Ts := each_ok (make_fitem 64 3) fast_bad in Intersect_strict (Fast 3) 1 (map fast_ops Ts) false) = UB Indeterminate /\
  (let* Ts := each_ok (make_bitem 16) bad in Intersect_strict_par Bin (@concat _) (@concat _) 5 (map bin_ops Ts) false) = Ok [8]%N /\
  (let* Ts := each_ok (make_bitem 16) bad in Intersect_strict_par Bin (@concat _) (@concat _) 2 (map bin_ops Ts) false) = UB Indeterminate /\
  (let* Ts := each_ok (make_fitem 64 3) fast_bad in
   Intersect_strict_par (Fast 3) (@concat _) (@concat _) 2 (map fast_ops Ts) false) = UB Indeterminate.
Proof.
  cbv zeta. split; [|split; [|repeat split; vm_compute; reflexivity]].
  - split; [constructor; [|constructor; [|constructor]]; sets_ok|].
    split; [constructor; [|constructor; [|constructor]]; sets_ok|]. vm_compute; lia.
  - split; [constructor; [|constructor; [|constructor]]; sets_ok|].
    split; [constructor; [|constructor; [|constructor]]; sets_ok|].
    split; [split; [left; reflexivity|split; [reflexivity|discriminate]]|]. vm_compute; lia.
Qed.
