(** Properties C58, C59: limits on the tries and the machine of an intersection. *)

From Verif Require Import Base FlatTrie LevelTrie FastTrie ParallelFor Intersection Tries Spec SpecTries SpecLimits
  ParFacts ParForThms InterLimits InterMixed WideThms.

(** C58.  "Intersect returns the intersection of any number of tries, on any machine."  False.
    A sequential call does if and only if there are 1 to 16 tries and hardware_concurrency()
    is not 0 (it is, where it is not known). *)
Theorem C58_limits_partial : forall (u : N) (l : list bitem), (2 <= u <= 2 ^ 48)%N -> Forall (bitem_ok u) l ->
  exists Ts, each_ok (make_bitem u) l = Ok Ts /\
    forall s1 s2 hc, (exists r, Intersect Bin s1 s2 hc (map bin_ops Ts) true false = Ok r /\ is_intersection (map snd l) r)
      <-> 1 <= length l <= 16 /\ (1 <= hc)%N.
Proof. exact bin_limits. Qed.
Print Assumptions C58_limits_partial.

Theorem C58_fast_limits_partial : forall (u : N) (lw : nat) (l : list fitem), fast_universe u lw -> Forall (fitem_ok u) l ->
  exists Ts, each_ok (make_fitem u lw) l = Ok Ts /\
    forall s1 s2 hc, (exists r, Intersect (Fast lw) s1 s2 hc (map fast_ops Ts) true false = Ok r /\ is_intersection (map snd l) r)
      <-> 1 <= length l <= 16 /\ (1 <= hc)%N.
Proof. exact fast_limits. Qed.
Print Assumptions C58_fast_limits_partial.

(** Whatever the flags and the schedule, what goes wrong: with more than 16 tries, and in
    parallel fewer than 65536, the local arrays are read or written past their end. *)
Theorem C58_many_refuted : forall (u : N) (l : list bitem), (2 <= u <= 2 ^ 48)%N -> 16 < length l -> Forall (bitem_ok u) l ->
  exists Ts, each_ok (make_bitem u) l = Ok Ts /\
    forall s1 s2 hc runs parallel, (1 <= hc)%N -> (parallel = true -> (N.of_nat (length l) < 2 ^ 16)%N) ->
      Intersect Bin s1 s2 hc (map bin_ops Ts) runs parallel = UB OutOfBounds.
Proof. exact bin_many. Qed.
Print Assumptions C58_many_refuted.

Theorem C58_fast_many_refuted : forall (u : N) (lw : nat) (l : list fitem),
  fast_universe u lw -> 16 < length l -> Forall (fitem_ok u) l ->
  exists Ts, each_ok (make_fitem u lw) l = Ok Ts /\
    forall s1 s2 hc runs parallel, (1 <= hc)%N -> (parallel = true -> (N.of_nat (length l) < 2 ^ 16)%N) ->
      Intersect (Fast lw) s1 s2 hc (map fast_ops Ts) runs parallel = UB OutOfBounds.
Proof. exact fast_many. Qed.
Print Assumptions C58_fast_many_refuted.

(** In parallel the number of tries is passed on as a 16-bit number.  With runs=true, a multiple
    of 65536 tries that can be split are "intersected" to the whole universe. *)
Theorem C58_wrapped_refuted : forall (u : N) (l : list bitem), (2 <= u <= 2 ^ 48)%N -> Forall (bitem_ok u) l ->
  l <> [] -> (N.of_nat (length l) mod 2 ^ 16 = 0)%N ->
  exists Ts, each_ok (make_bitem u) l = Ok Ts /\
    forall s1 s2 hc, (2 <= hc)%N -> (4 * 2 ^ N.log2 hc <= rounded u)%N ->
      exists r, Intersect Bin s1 s2 hc (map bin_ops Ts) true true = Ok r /\ forall x, In x r <-> (x < rounded u)%N.
Proof. exact bin_wrapped. Qed.
Print Assumptions C58_wrapped_refuted.

Theorem C58_fast_wrapped_refuted : forall (u : N) (lw : nat) (l : list fitem), fast_universe u lw -> Forall (fitem_ok u) l ->
  l <> [] -> (N.of_nat (length l) mod 2 ^ 16 = 0)%N ->
  exists Ts, each_ok (make_fitem u lw) l = Ok Ts /\
    forall s1 s2 hc, (2 <= hc)%N -> (2 * 2 ^ N.of_nat lw * 2 ^ N.log2 hc <= rounded u)%N ->
      exists r, Intersect (Fast lw) s1 s2 hc (map fast_ops Ts) true true = Ok r /\ forall x, In x r <-> (x < rounded u)%N.
Proof. exact fast_wrapped. Qed.
Print Assumptions C58_fast_wrapped_refuted.

Example C58_wrapped_example :
  let l := repeat (VFlat false, false, [1; 6]%N) (N.to_nat 65536) in
  (Forall (bitem_ok 8) l /\ l <> [] /\ (N.of_nat (length l) mod 2 ^ 16 = 0)%N /\ (4 * 2 ^ N.log2 2 <= rounded 8)%N) /\
  (let* Ts := each_ok (make_bitem 8) l in Intersect Bin in_order in_order 2 (map bin_ops Ts) true true)
    = Ok [0; 1; 2; 3; 4; 5; 6; 7]%N.
Proof. exact wrapped_example. Qed.

(** Otherwise, over any number of tries above 16 that can be split: the call is undefined, or only
    the first tries, as many as the number modulo 65536, have been looked at, and it returns what
    a call with these alone returns: nothing with runs=false. *)
Theorem C58_wide_partial : forall (u : N) (l : list bitem), (2 <= u <= 2 ^ 48)%N -> 16 < length l -> Forall (bitem_ok u) l ->
  let m := N.to_nat (N.of_nat (length l) mod 2 ^ 16) in
  exists Ts, each_ok (make_bitem u) l = Ok Ts /\
    forall s1 s2 hc runs, (1 <= hc < 2 ^ 16)%N -> (4 * 2 ^ N.log2 hc <= rounded u)%N ->
      m <> 0 \/ runs = false \/ hc = 1%N ->
      (exists e, Intersect Bin s1 s2 hc (map bin_ops Ts) runs true = UB e) \/
      (1 <= m <= 16 /\ exists r, Intersect Bin s1 s2 hc (map bin_ops Ts) runs true = Ok r /\
         Intersect Bin s1 s2 hc (map bin_ops (firstn m Ts)) runs true = Ok r /\ (runs = false -> r = [])).
Proof. exact bin_wide. Qed.
Print Assumptions C58_wide_partial.

Theorem C58_fast_wide_partial : forall (u : N) (lw : nat) (l : list fitem),
  fast_universe u lw -> 16 < length l -> Forall (fitem_ok u) l ->
  let m := N.to_nat (N.of_nat (length l) mod 2 ^ 16) in
  exists Ts, each_ok (make_fitem u lw) l = Ok Ts /\
    forall s1 s2 hc runs, (1 <= hc < 2 ^ 16)%N -> (2 * 2 ^ N.of_nat lw * 2 ^ N.log2 hc <= rounded u)%N ->
      m <> 0 \/ runs = false \/ hc = 1%N ->
      (exists e, Intersect (Fast lw) s1 s2 hc (map fast_ops Ts) runs true = UB e) \/
      (1 <= m <= 16 /\ exists r, Intersect (Fast lw) s1 s2 hc (map fast_ops Ts) runs true = Ok r /\
         Intersect (Fast lw) s1 s2 hc (map fast_ops (firstn m Ts)) runs true = Ok r /\ (runs = false -> r = [])).
Proof. exact fast_wide. Qed.
Print Assumptions C58_fast_wide_partial.

(** 65537 tries: the first is the whole universe, run-encoded, and is what is returned. *)
Example C58_wide_example :
  let others := repeat (VFlat false, false, [1; 6]%N) (N.to_nat 65536) in
  let first := (VLevel false, true, [0; 1; 2; 3; 4; 5; 6; 7]%N) in
  (16 < length (first :: others) /\ Forall (bitem_ok 8) (first :: others) /\
   N.to_nat (N.of_nat (length (first :: others)) mod 2 ^ 16) = 1 /\ (4 * 2 ^ N.log2 2 <= rounded 8)%N) /\
  (let* Ts := each_ok (make_bitem 8) (first :: others) in Intersect Bin in_order in_order 2 (map bin_ops Ts) true true)
    = Ok [0; 1; 2; 3; 4; 5; 6; 7]%N.
Proof. exact wide_example. Qed.

(** Without any trie the first one is read all the same. *)
Theorem C58_none_refuted : forall k s1 s2 hc runs parallel,
  Intersect k s1 s2 hc [] runs parallel = UB OutOfBounds.
Proof. exact no_tries. Qed.
Print Assumptions C58_none_refuted.

(** With hardware_concurrency() = 0 its logarithm is converted to an integer, in sequential
    calls as well. *)
Theorem C58_no_threads_refuted : forall (u : N) (l : list bitem), (2 <= u <= 2 ^ 48)%N -> l <> [] -> Forall (bitem_ok u) l ->
  exists Ts, each_ok (make_bitem u) l = Ok Ts /\
    forall s1 s2 runs parallel, Intersect Bin s1 s2 0 (map bin_ops Ts) runs parallel = UB BadCast.
Proof. exact bin_no_threads. Qed.
Print Assumptions C58_no_threads_refuted.

Theorem C58_fast_no_threads_refuted : forall (u : N) (lw : nat) (l : list fitem),
  fast_universe u lw -> l <> [] -> Forall (fitem_ok u) l ->
  exists Ts, each_ok (make_fitem u lw) l = Ok Ts /\
    forall s1 s2 runs parallel, Intersect (Fast lw) s1 s2 0 (map fast_ops Ts) runs parallel = UB BadCast.
Proof. exact fast_no_threads. Qed.
Print Assumptions C58_fast_no_threads_refuted.

(** Sixteen and seventeen copies of a set. *)
Example C58_example :
  let l := fun n => repeat (VFlat false, false, [1; 5; 7; 11]%N) n in
  Forall (bitem_ok 16) (l 17) /\
  (let* Ts := each_ok (make_bitem 16) (l 16) in Intersect Bin in_order in_order 8 (map bin_ops Ts) true false)
    = Ok [1; 5; 7; 11]%N /\
  (let* Ts := each_ok (make_bitem 16) (l 17) in Intersect Bin in_order in_order 8 (map bin_ops Ts) true false)
    = UB OutOfBounds.
Proof.
  cbv zeta. split; [|split; vm_compute; reflexivity].
  apply Forall_forall. intros x Hx. apply repeat_spec in Hx. subst x.
  repeat split; try discriminate; repeat constructor.
Qed.

(** C59.  "Tries built over different universe sizes can be intersected."  False: the result is
    the intersection if and only if all the sizes have the same next power of two, or no value
    is common to all the sets. *)
Theorem C59_mixed_universes_partial : forall (l : list (N * bitem)), 1 <= length l <= 16 ->
  Forall (fun x => (2 <= fst x <= 2 ^ 48)%N /\ bitem_ok (fst x) (snd x)) l ->
  exists Ts, each_ok (fun x => make_bitem (fst x) (snd x)) l = Ok Ts /\
    forall s1 s2 hc runs parallel, (1 <= hc)%N ->
      (runs = false -> Forall (fun x => snd (fst (snd x)) = false) l) ->
      (parallel = true -> runs = false /\ (hc < 2 ^ 16)%N /\ Forall (fun x => (3 <= fst x)%N) l /\
                          valid_scheduler s1 /\ valid_scheduler s2) ->
      exists r, Intersect Bin s1 s2 hc (map bin_ops Ts) runs parallel = Ok r /\
        (is_intersection (map (fun x => snd (snd x)) l) r <->
           (forall x y, In x l -> In y l -> rounded (fst x) = rounded (fst y)) \/
           disjoint_sets (map (fun x => snd (snd x)) l)).
Proof. exact bin_mixed. Qed.
Print Assumptions C59_mixed_universes_partial.

Theorem C59_fast_mixed_universes_partial : forall (lw : nat) (l : list (N * fitem)), 1 <= length l <= 16 ->
  Forall (fun x => fast_universe (fst x) lw /\ fitem_ok (fst x) (snd x)) l ->
  exists Ts, each_ok (fun x => make_fitem (fst x) lw (snd x)) l = Ok Ts /\
    forall s1 s2 hc runs parallel, (1 <= hc)%N ->
      (runs = false -> Forall (fun x => f_enc (snd x) = false) l) ->
      (parallel = true -> runs = false /\ (hc < 2 ^ 16)%N /\ Forall (fun x => (2 ^ N.of_nat lw < fst x)%N) l /\
                          valid_scheduler s1 /\ valid_scheduler s2) ->
      exists r, Intersect (Fast lw) s1 s2 hc (map fast_ops Ts) runs parallel = Ok r /\
        (is_intersection (map (fun x => snd (snd x)) l) r <->
           (forall x y, In x l -> In y l -> rounded (fst x) = rounded (fst y)) \/
           disjoint_sets (map (fun x => snd (snd x)) l)).
Proof. exact fast_mixed. Qed.
Print Assumptions C59_fast_mixed_universes_partial.

(** Universes of 10 and 16 values agree; universes of 10 and 17 values do not. *)
Example C59_example :
  let a := (VFlat false, false, [1; 5; 7]%N) in let b := (VLevel true, false, [0; 5; 7; 9]%N) in
  (Forall (fun x : N * bitem => (2 <= fst x <= 2 ^ 48)%N /\ bitem_ok (fst x) (snd x)) [(10%N, a); (16%N, b); (17%N, b)] /\
   rounded 10 = rounded 16 /\ rounded 10 <> rounded 17) /\
  (let* Ts := each_ok (fun x => make_bitem (fst x) (snd x)) [(10%N, a); (16%N, b)] in
   Intersect Bin in_order in_order 8 (map bin_ops Ts) true false) = Ok [5; 7]%N /\
  (let* Ts := each_ok (fun x => make_bitem (fst x) (snd x)) [(10%N, a); (17%N, b)] in
   Intersect Bin in_order in_order 8 (map bin_ops Ts) true false) = Ok [].
Proof.
  cbv zeta. split; [|split; vm_compute; reflexivity]. split; [|split; [reflexivity|discriminate]].
  repeat (constructor; [repeat split; try discriminate; repeat constructor|]). constructor.
Qed.
