(** Property C61: the work of a sequential intersection. *)

From Verif Require Import Base FlatTrie LevelTrie FastTrie ParallelFor Intersection Tries Calls
  Spec SpecTries SpecMeasures SpecCalls CallsThms CallsMain.

(** The record of calls leaves the result as it is. *)
Theorem C61_record : forall (k : kind) s1 s2 hc Ts runs,
  (let* (r, _) := Intersect_calls k hc Ts runs in Ok r) = Intersect k s1 s2 hc Ts runs false.
Proof. exact Intersect_erase. Qed.
Print Assumptions C61_record.

(** C61.  Tries whose runs are not encoded. *)
Theorem C61_calls : forall u (l : list bitem) (runs : bool) s1 s2 hc,
  (2 <= u <= 2 ^ 48)%N -> 1 <= length l <= 16 -> Forall (bitem_ok u) l ->
  Forall (fun x : bitem => snd (fst x) = false) l -> (1 <= hc)%N ->
  exists Ts r c, each_ok (make_bitem u) l = Ok Ts /\
    Intersect_calls Bin hc (map bin_ops Ts) runs = Ok (r, c) /\
    Intersect Bin s1 s2 hc (map bin_ops Ts) runs false = Ok r /\ is_intersection (map snd l) r /\
    NoDup c /\
    forall m p, In (m, p) c <-> exists b q, call_at (digits u) m p b q /\ common_prefix (map snd l) b q.
Proof. exact bin_calls_plain. Qed.
Print Assumptions C61_calls.

(** With runs, and how many calls there are. *)
Theorem C61_calls_runs : forall u (l : list bitem) (runs : bool) s1 s2 hc,
  (2 <= u <= 2 ^ 48)%N -> 1 <= length l <= 16 -> Forall (bitem_ok u) l ->
  (runs = false -> Forall (fun x : bitem => snd (fst x) = false) l) -> (1 <= hc)%N ->
  exists Ts r c, each_ok (make_bitem u) l = Ok Ts /\
    Intersect_calls Bin hc (map bin_ops Ts) runs = Ok (r, c) /\
    Intersect Bin s1 s2 hc (map bin_ops Ts) runs false = Ok r /\ is_intersection (map snd l) r /\
    NoDup c /\
    (forall m p, In (m, p) c <-> exists b q, call_at (digits u) m p b q /\ common_prefix (map snd l) b q /\
       (m = 0 \/ ~ Forall (fun x => bin_run x b p) l)) /\
    Forall (fun s => length c <= 1 + digits u * length s) (map snd l).
Proof. exact bin_calls. Qed.
Print Assumptions C61_calls_runs.

(** Fast tries stop at words. *)
Theorem C61_fast_calls : forall u lw (l : list fitem) (runs : bool) s1 s2 hc,
  fast_universe u lw -> 1 <= length l <= 16 -> Forall (fitem_ok u) l ->
  Forall (fun x => f_enc x = false) l -> (1 <= hc)%N ->
  exists Ts r c, each_ok (make_fitem u lw) l = Ok Ts /\
    Intersect_calls (Fast lw) hc (map fast_ops Ts) runs = Ok (r, c) /\
    Intersect (Fast lw) s1 s2 hc (map fast_ops Ts) runs false = Ok r /\ is_intersection (map snd l) r /\
    NoDup c /\
    forall m p, In (m, p) c <-> exists b q, call_at (digits u) m p b q /\ lw <= b /\ common_prefix (map snd l) b q.
Proof. exact fast_calls_plain. Qed.
Print Assumptions C61_fast_calls.

Theorem C61_fast_calls_runs : forall u lw (l : list fitem) (runs : bool) s1 s2 hc,
  fast_universe u lw -> 1 <= length l <= 16 -> Forall (fitem_ok u) l ->
  (runs = false -> Forall (fun x => f_enc x = false) l) -> (1 <= hc)%N ->
  exists Ts r c, each_ok (make_fitem u lw) l = Ok Ts /\
    Intersect_calls (Fast lw) hc (map fast_ops Ts) runs = Ok (r, c) /\
    Intersect (Fast lw) s1 s2 hc (map fast_ops Ts) runs false = Ok r /\ is_intersection (map snd l) r /\
    NoDup c /\
    (forall m p, In (m, p) c <-> exists b q, call_at (digits u) m p b q /\ lw <= b /\ common_prefix (map snd l) b q /\
       (m = 0 \/ ~ Forall (fun x => fast_run x b p) l)) /\
    Forall (fun s => length c <= 1 + (digits u - lw) * length s) (map snd l).
Proof. exact fast_calls. Qed.
Print Assumptions C61_fast_calls_runs.

(** The sets {1, 5, 9} and {1, 4, 10} below 16 share the prefixes 0, 00, 01, 000, 010, 1, 10, 0001;
    010 and 10 lead nowhere.  In the second family all of 0..7 is a run in both tries. *)
Example C61_example :
  let a := [1; 5; 9]%N in let b := [1; 4; 10]%N in
  let c := [0; 1; 2; 3; 4; 5; 6; 7; 9]%N in let e := [0; 1; 2; 3; 4; 5; 6; 7; 9; 12]%N in
  let l := [(VFlat false, false, a); (VLevel false, false, b)] in
  let m := [(VLevel false, true, c); (VLevel true, true, e)] in
  Forall (bitem_ok 16) l /\ Forall (bitem_ok 16) m /\ digits 16 = 4 /\
  (let* Ts := each_ok (make_bitem 16) l in Intersect_calls Bin 4 (map bin_ops Ts) false)
  = Ok ([1%N], [(0, 0%N); (1, 0%N); (2, 0%N); (3, 0%N); (4, 1%N); (2, 4%N); (3, 4%N); (1, 8%N); (2, 8%N)]) /\
  (let* Ts := each_ok (make_bitem 16) m in Intersect_calls Bin 4 (map bin_ops Ts) true)
  = Ok (c, [(0, 0%N); (1, 0%N); (1, 8%N); (2, 8%N); (3, 8%N); (4, 9%N)]).
Proof.
  cbv zeta. split; [|split; [|split; [reflexivity|split; [vm_compute; reflexivity|vm_compute; reflexivity]]]].
  - repeat constructor; try discriminate; intros; discriminate.
  - repeat constructor; try discriminate; intros; discriminate.
Qed.
