(** Property C80: intersections of tries built from lists that repeat values or are out of
    order. *)

From Verif Require Import Base FlatTrie LevelTrie FastTrie ParallelFor Intersection Tries Spec SpecTries SpecOrder
  SpecLists ParForThms KeepInter.

(** C80.  "Whatever lists the tries were built from, Intersect returns the values that all of the
    tries decode to, each once and in increasing order; when the lists are sorted, these are the
    values that occur in all of the lists."  The first half, with [ks] the sets decoded; they are
    those of C56. *)
Theorem C80_any_lists_partial : forall (u : N) (l : list pitem), (2 <= u <= 2 ^ 48)%N -> 1 <= length l <= 16 ->
  Forall (fun x => list_ok u (fst x) (snd x)) l ->
  exists Ts ks r, each_ok (make_pitem u) l = Ok Ts /\
    Forall2 (kept_set 1 (rounded u)) (map snd l) ks /\
    Forall2 (fun t k => bin_decode t [] = Ok k) Ts ks /\ is_intersection ks r /\
    forall hc s1 s2, (1 <= hc < 2 ^ 16)%N -> (3 <= u \/ hc <= 3)%N -> valid_scheduler s1 -> valid_scheduler s2 ->
      Intersect Bin s1 s2 hc (map bin_ops Ts) false false = Ok r /\
      Intersect Bin s1 s2 hc (map bin_ops Ts) false true = Ok r.
Proof. exact bin_lists. Qed.
Print Assumptions C80_any_lists_partial.

(** Run-encoded tries, with the conditions of C10 and C13 on the sets kept. *)
Theorem C80_any_lists_runs_partial : forall (u : N) (l : list bitem), (2 <= u <= 2 ^ 48)%N -> 1 <= length l <= 16 ->
  Forall (fun x => list_ok u (fst (fst x)) (snd x)) l ->
  exists ks, Forall2 (kept_set 1 (rounded u)) (map snd l) ks /\
    (Forall2 (fun x k => match fst (fst x) with VFlat _ => snd (fst x) = true -> mixed_block k | _ => True end) l ks ->
     exists Ts r, each_ok (make_bitem u) l = Ok Ts /\ Forall2 (fun t k => bin_decode t [] = Ok k) Ts ks /\
       is_intersection ks r /\
       (forall s1 s2 hc, (1 <= hc)%N -> Intersect Bin s1 s2 hc (map bin_ops Ts) true false = Ok r) /\
       forall s1 s2 hc, (1 <= hc < 2 ^ 16)%N -> (3 <= u)%N -> valid_scheduler s1 -> valid_scheduler s2 ->
         Forall (no_block (thread_block u hc)) ks \/ (rounded u < 4 * 2 ^ N.log2 hc)%N ->
         Intersect Bin s1 s2 hc (map bin_ops Ts) true true = Ok r).
Proof. exact bin_lists_runs. Qed.
Print Assumptions C80_any_lists_runs_partial.

(** Fast tries; a run-encoded one decodes only where C07 says so. *)
Theorem C80_fast_any_lists_partial : forall (u : N) (lw : nat) (l : list fitem), fast_universe u lw -> 1 <= length l <= 16 ->
  Forall (fun x => fast_list_ok (snd x)) l ->
  exists Ts ks r, each_ok (make_fitem u lw) l = Ok Ts /\
    Forall2 (kept_set (2 ^ N.of_nat lw) (rounded u)) (map snd l) ks /\
    (Forall (fun x => f_enc x = true -> snd (fst (fst x)) = Some false) l ->
     Forall2 (fun t k => fast_decode t [] = Ok k) Ts ks) /\ is_intersection ks r /\
    (forall s1 s2 hc (runs : bool), (1 <= hc)%N -> (runs = false -> Forall (fun x => f_enc x = false) l) ->
       Intersect (Fast lw) s1 s2 hc (map fast_ops Ts) runs false = Ok r) /\
    (forall s1 s2 hc (runs : bool), (1 <= hc < 2 ^ 16)%N -> (2 ^ N.of_nat lw < u)%N ->
       valid_scheduler s1 -> valid_scheduler s2 ->
       (if runs then Forall (no_block (thread_block u hc)) ks \/ (rounded u < 2 * 2 ^ N.of_nat lw * 2 ^ N.log2 hc)%N
        else Forall (fun x => f_enc x = false) l) ->
       Intersect (Fast lw) s1 s2 hc (map fast_ops Ts) runs true = Ok r).
Proof. exact fast_lists. Qed.
Print Assumptions C80_fast_any_lists_partial.

(** The second half: sorted lists in which values may be repeated. *)
Theorem C80_sorted_partial : forall (u : N) (l : list pitem), (2 <= u <= 2 ^ 48)%N -> 1 <= length l <= 16 ->
  Forall (fun x => list_ok u (fst x) (snd x) /\ sorted_list u (snd x)) l ->
  exists Ts r, each_ok (make_pitem u) l = Ok Ts /\ is_intersection (map snd l) r /\
    forall hc s1 s2, (1 <= hc < 2 ^ 16)%N -> (3 <= u \/ hc <= 3)%N -> valid_scheduler s1 -> valid_scheduler s2 ->
      Intersect Bin s1 s2 hc (map bin_ops Ts) false false = Ok r /\
      Intersect Bin s1 s2 hc (map bin_ops Ts) false true = Ok r.
Proof. exact bin_sorted. Qed.
Print Assumptions C80_sorted_partial.

Theorem C80_sorted_runs_partial : forall (u : N) (l : list bitem), (2 <= u <= 2 ^ 48)%N -> 1 <= length l <= 16 ->
  Forall (fun x => list_ok u (fst (fst x)) (snd x) /\ sorted_list u (snd x) /\
    match fst (fst x) with VFlat _ => snd (fst x) = true -> mixed_block (snd x) | _ => True end) l ->
  exists Ts r, each_ok (make_bitem u) l = Ok Ts /\ is_intersection (map snd l) r /\
    (forall s1 s2 hc, (1 <= hc)%N -> Intersect Bin s1 s2 hc (map bin_ops Ts) true false = Ok r) /\
    forall s1 s2 hc, (1 <= hc < 2 ^ 16)%N -> (3 <= u)%N -> valid_scheduler s1 -> valid_scheduler s2 ->
      Forall (no_block (thread_block u hc)) (map snd l) \/ (rounded u < 4 * 2 ^ N.log2 hc)%N ->
      Intersect Bin s1 s2 hc (map bin_ops Ts) true true = Ok r.
Proof. exact bin_sorted_runs. Qed.
Print Assumptions C80_sorted_runs_partial.

(** Fast tries need the words of the values in order only. *)
Theorem C80_fast_sorted_partial : forall (u : N) (lw : nat) (l : list fitem), fast_universe u lw -> 1 <= length l <= 16 ->
  Forall (fun x => fast_list_ok (snd x) /\ words_in_order (2 ^ N.of_nat lw) (snd x) /\ below u (snd x)) l ->
  exists Ts r, each_ok (make_fitem u lw) l = Ok Ts /\ is_intersection (map snd l) r /\
    (forall s1 s2 hc (runs : bool), (1 <= hc)%N -> (runs = false -> Forall (fun x => f_enc x = false) l) ->
       Intersect (Fast lw) s1 s2 hc (map fast_ops Ts) runs false = Ok r) /\
    (forall s1 s2 hc (runs : bool), (1 <= hc < 2 ^ 16)%N -> (2 ^ N.of_nat lw < u)%N ->
       valid_scheduler s1 -> valid_scheduler s2 ->
       (if runs then Forall (no_block (thread_block u hc)) (map snd l) \/
                     (rounded u < 2 * 2 ^ N.of_nat lw * 2 ^ N.log2 hc)%N
        else Forall (fun x => f_enc x = false) l) ->
       Intersect (Fast lw) s1 s2 hc (map fast_ops Ts) runs true = Ok r).
Proof. exact fast_sorted. Qed.
Print Assumptions C80_fast_sorted_partial.

(** Out of order, distinct values of the universe are not enough: 6 is returned for the lists
    5, 2 and 6. *)
Theorem C80_out_of_order_refuted :
  ~ (forall u (l : list pitem), (2 <= u <= 2 ^ 48)%N -> 1 <= length l <= 16 ->
       Forall (fun x => list_ok u (fst x) (snd x) /\ NoDup (snd x) /\ below u (snd x)) l ->
       exists Ts r, each_ok (make_pitem u) l = Ok Ts /\ is_intersection (map snd l) r /\
         Intersect Bin in_order in_order 1 (map bin_ops Ts) false false = Ok r).
Proof. exact lists_refuted. Qed.
Print Assumptions C80_out_of_order_refuted.

Example C80_example :
  let l := [(VFlat false, [1; 1; 5; 7; 7; 7; 11]%N); (VLevel true, [0; 1; 7; 7; 11; 12; 12]%N)] in
  let b := [(VFlat true, true, [0; 1; 1; 2; 3; 9]%N); (VLevel false, true, [1; 2; 2; 3; 3]%N)] in
  let f := [(None, None, true, [9; 8; 9; 20]%N); (Some 4, None, false, [20; 8; 27]%N)] in
  (Forall (fun x => list_ok 13 (fst x) (snd x) /\ sorted_list 13 (snd x)) l /\
   mixed_block [0; 1; 1; 2; 3; 9]%N /\
   words_in_order 8 [9; 8; 9; 20]%N /\ ~ words_in_order 8 [20; 8; 27]%N) /\
  (let* Ts := each_ok (make_pitem 13) l in
   Intersect Bin in_order in_order 2 (map bin_ops Ts) false true) = Ok [1; 7; 11]%N /\
  (let* Ts := each_ok (make_bitem 13) b in
   Intersect Bin in_order in_order 1 (map bin_ops Ts) true false) = Ok [1; 2; 3]%N /\
  (let* Ts := each_ok (make_fitem 32 3) f in
   Intersect (Fast 3) in_order in_order 1 (map fast_ops Ts) true false) = Ok [20]%N.
Proof.
  cbv zeta. split; [|repeat split; vm_compute; reflexivity]. split; [|split; [|split]].
  - repeat constructor; try discriminate; cbn; lia.
  - exists 9%N, 8%N. repeat split; [cbn; tauto|cbn; intuition discriminate].
  - repeat constructor; cbn; discriminate.
  - intros H. inversion H as [|? ? ? X]; subst. inversion X; subst. cbn in *. auto.
Qed.
