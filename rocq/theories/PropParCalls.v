(** Property C83: the work of the threads of a parallel intersection. *)

From Verif Require Import Base FlatTrie LevelTrie FastTrie ParallelFor Intersection Tries Calls ParCalls
  Spec SpecTries SpecMeasures SpecCalls ParForThms CallsThms InterRefute ParCallsThms.

(** The record of calls leaves the result as it is. *)
Theorem C83_record : forall (k : kind) s1 s2 hc Ts runs,
  (let* (r, _) := Intersect_par_calls k s1 s2 hc Ts runs in Ok r) = Intersect k s1 s2 hc Ts runs true.
Proof. exact par_calls_erase. Qed.
Print Assumptions C83_record.

(** C83.  There are at most as many threads as asked for.  No prefix is looked at twice, by one
    thread or by two.  A thread looks only at prefixes the sequential call looks at, and without
    runs nothing below the levels that were divided is left out. *)
Theorem C83_threads : forall u (l : list bitem) (runs : bool) s1 s2 hc,
  (2 <= u <= 2 ^ 48)%N -> 1 <= length l <= 16 -> Forall (bitem_ok u) l ->
  (runs = false -> Forall (fun x : bitem => snd (fst x) = false) l) ->
  (1 <= hc < 2 ^ 16)%N -> (3 <= u \/ hc <= 3)%N -> valid_scheduler s1 -> valid_scheduler s2 ->
  exists Ts r cs rs c, each_ok (make_bitem u) l = Ok Ts /\
    Intersect_par_calls Bin s1 s2 hc (map bin_ops Ts) runs = Ok (r, cs) /\
    Intersect_calls Bin hc (map bin_ops Ts) runs = Ok (rs, c) /\
    NoDup (concat cs) /\ incl (concat cs) c /\ (N.of_nat (length cs) <= hc)%N /\
    (runs = false -> forall m p, In (m, p) c -> N.to_nat (N.log2 hc) < m -> In (m, p) (concat cs)).
Proof. exact bin_par_calls. Qed.
Print Assumptions C83_threads.

Theorem C83_fast_threads : forall u lw (l : list fitem) (runs : bool) s1 s2 hc,
  fast_universe u lw -> 1 <= length l <= 16 -> Forall (fitem_ok u) l ->
  (runs = false -> Forall (fun x => f_enc x = false) l) ->
  (1 <= hc < 2 ^ 16)%N -> (2 ^ N.of_nat lw < u \/ hc = 1)%N -> valid_scheduler s1 -> valid_scheduler s2 ->
  exists Ts r cs rs c, each_ok (make_fitem u lw) l = Ok Ts /\
    Intersect_par_calls (Fast lw) s1 s2 hc (map fast_ops Ts) runs = Ok (r, cs) /\
    Intersect_calls (Fast lw) hc (map fast_ops Ts) runs = Ok (rs, c) /\
    NoDup (concat cs) /\ incl (concat cs) c /\ (N.of_nat (length cs) <= hc)%N /\
    (runs = false -> forall m p, In (m, p) c -> N.to_nat (N.log2 hc) < m -> In (m, p) (concat cs)).
Proof. exact fast_par_calls. Qed.
Print Assumptions C83_fast_threads.

(** In terms of the sets. *)
Theorem C83_bound : forall u (l : list bitem) (runs : bool) s1 s2 hc,
  (2 <= u <= 2 ^ 48)%N -> 1 <= length l <= 16 -> Forall (bitem_ok u) l ->
  (runs = false -> Forall (fun x : bitem => snd (fst x) = false) l) ->
  (1 <= hc < 2 ^ 16)%N -> (3 <= u \/ hc <= 3)%N -> valid_scheduler s1 -> valid_scheduler s2 ->
  exists Ts r cs, each_ok (make_bitem u) l = Ok Ts /\
    Intersect_par_calls Bin s1 s2 hc (map bin_ops Ts) runs = Ok (r, cs) /\
    Intersect Bin s1 s2 hc (map bin_ops Ts) runs true = Ok r /\
    NoDup (concat cs) /\
    (forall m p, In (m, p) (concat cs) -> exists b q, call_at (digits u) m p b q /\ common_prefix (map snd l) b q /\
       (m = 0 \/ ~ Forall (fun x => bin_run x b p) l)) /\
    Forall (fun s => length (concat cs) <= 1 + digits u * length s) (map snd l).
Proof. exact bin_par_bound. Qed.
Print Assumptions C83_bound.

Theorem C83_fast_bound : forall u lw (l : list fitem) (runs : bool) s1 s2 hc,
  fast_universe u lw -> 1 <= length l <= 16 -> Forall (fitem_ok u) l ->
  (runs = false -> Forall (fun x => f_enc x = false) l) ->
  (1 <= hc < 2 ^ 16)%N -> (2 ^ N.of_nat lw < u \/ hc = 1)%N -> valid_scheduler s1 -> valid_scheduler s2 ->
  exists Ts r cs, each_ok (make_fitem u lw) l = Ok Ts /\
    Intersect_par_calls (Fast lw) s1 s2 hc (map fast_ops Ts) runs = Ok (r, cs) /\
    Intersect (Fast lw) s1 s2 hc (map fast_ops Ts) runs true = Ok r /\
    NoDup (concat cs) /\
    (forall m p, In (m, p) (concat cs) -> exists b q, call_at (digits u) m p b q /\ lw <= b /\ common_prefix (map snd l) b q /\
       (m = 0 \/ ~ Forall (fun x => fast_run x b p) l)) /\
    Forall (fun s => length (concat cs) <= 1 + (digits u - lw) * length s) (map snd l).
Proof. exact fast_par_bound. Qed.
Print Assumptions C83_fast_bound.

Example C83_example :
  let l := [(VFlat false, false, [1; 5; 9; 14]%N); (VLevel true, false, [1; 4; 10; 14; 15]%N)] in
  let m := [(VLevel false, true, [0; 1; 2; 3; 4; 5; 6; 7; 9]%N); (VLevel true, true, [0; 1; 2; 3; 4; 5; 6; 7; 9; 12]%N)] in
  Forall (bitem_ok 16) l /\ Forall (bitem_ok 16) m /\ valid_scheduler in_order /\ valid_scheduler backwards /\
  (let* Ts := each_ok (make_bitem 16) l in Intersect_par_calls Bin in_order backwards 4 (map bin_ops Ts) false)
  = Ok ([1; 14]%N, [[(2, 0%N); (3, 0%N); (4, 1%N)]; [(2, 4%N); (3, 4%N)]; [(2, 8%N)]; [(2, 12%N); (3, 14%N); (4, 14%N)]]) /\
  (let* Ts := each_ok (make_bitem 16) l in Intersect_calls Bin 4 (map bin_ops Ts) false)
  = Ok ([1; 14]%N, [(0, 0%N); (1, 0%N); (2, 0%N); (3, 0%N); (4, 1%N); (2, 4%N); (3, 4%N); (1, 8%N); (2, 8%N); (2, 12%N);
                    (3, 14%N); (4, 14%N)]) /\
  (let* Ts := each_ok (make_bitem 16) m in Intersect_par_calls Bin in_order backwards 4 (map bin_ops Ts) true)
  = Ok ([0; 1; 2; 3; 4; 5; 6; 7; 9]%N, [[(3, 8%N); (4, 9%N)]]).
Proof.
  cbv zeta. split; [|split; [|split; [exact in_order_valid|split; [exact backwards_valid|split; [vm_compute; reflexivity|split; vm_compute; reflexivity]]]]].
  - constructor; [|constructor; [|constructor]]; sets_ok.
  - constructor; [|constructor; [|constructor]]; sets_ok.
Qed.

(** Nothing is said of balance: here one of two threads does all the work. *)
Example C83_one_thread_example :
  let l := [(VFlat false, false, [4; 5; 7]%N); (VLevel true, false, [4; 6; 7]%N)] in
  Forall (bitem_ok 16) l /\
  (let* Ts := each_ok (make_bitem 16) l in Intersect_par_calls Bin in_order backwards 2 (map bin_ops Ts) false)
  = Ok ([4; 7]%N, [[(1, 0%N); (2, 4%N); (3, 4%N); (4, 4%N); (3, 6%N); (4, 7%N)]]) /\
  (let* Ts := each_ok (make_bitem 16) l in Intersect_calls Bin 2 (map bin_ops Ts) false)
  = Ok ([4; 7]%N, [(0, 0%N); (1, 0%N); (2, 4%N); (3, 4%N); (4, 4%N); (3, 6%N); (4, 7%N)]).
Proof.
  cbv zeta. split; [|split; vm_compute; reflexivity].
  constructor; [|constructor; [|constructor]]; sets_ok.
Qed.

Example C83_fast_example :
  let l := [(None, None, false, [3; 17; 33; 40]%N); (Some 9, None, false, [3; 17; 40; 59]%N)] in
  Forall (fitem_ok 64) l /\ fast_universe 64 3 /\
  (let* Ts := each_ok (make_fitem 64 3) l in Intersect_par_calls (Fast 3) in_order backwards 2 (map fast_ops Ts) false)
  = Ok ([3; 17; 40]%N, [[(1, 0%N); (2, 0%N); (3, 0%N); (2, 16%N); (3, 16%N)]; [(1, 32%N); (2, 32%N); (3, 40%N)]]).
Proof.
  cbv zeta. split; [|split; [|vm_compute; reflexivity]].
  - constructor; [|constructor; [|constructor]]; sets_ok.
  - split; [left; reflexivity|split; [reflexivity|discriminate]].
Qed.
