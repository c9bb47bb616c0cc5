(** Property C88: laws of parallel intersection over run-encoded tries. *)

From Verif Require Import Base FlatTrie LevelTrie FastTrie ParallelFor Intersection Tries Serialize Tools
  Spec SpecTries SpecFiles SpecTools SpecLost SerializeThms InterRefute InterMain ParForThms ToolsThms FastToolsThms LawsThms.

(** C88.  More tries, as sets or repeated, give no new values; the same tries in another
    order or number, on other schedules, give the same vector.  A trie is told by whether
    its runs are encoded and by its set: [b_part]. *)
Theorem C88_parallel_laws : forall u (l l' : list bitem) hc s1 s2 s1' s2', (3 <= u <= 2 ^ 48)%N ->
  1 <= length l <= 16 -> 1 <= length l' <= 16 -> Forall (bitem_ok u) l -> Forall (bitem_ok u) l' ->
  incl (map b_part l) (map b_part l') -> (1 <= hc < 2 ^ 16)%N ->
  valid_scheduler s1 -> valid_scheduler s2 -> valid_scheduler s1' -> valid_scheduler s2' ->
  exists Ts Ts' r r', each_ok (make_bitem u) l = Ok Ts /\ each_ok (make_bitem u) l' = Ok Ts' /\
    Intersect Bin s1 s2 hc (map bin_ops Ts) true true = Ok r /\
    Intersect Bin s1' s2' hc (map bin_ops Ts') true true = Ok r' /\
    incl r' r /\ (incl (map b_part l') (map b_part l) -> r' = r).
Proof. exact bin_laws. Qed.
Print Assumptions C88_parallel_laws.

Theorem C88_fast_parallel_laws : forall u lw (l l' : list fitem) hc s1 s2 s1' s2',
  fast_universe u lw -> (2 ^ N.of_nat lw < u)%N ->
  1 <= length l <= 16 -> 1 <= length l' <= 16 -> Forall (fitem_ok u) l -> Forall (fitem_ok u) l' ->
  incl (map f_part l) (map f_part l') -> (1 <= hc < 2 ^ 16)%N ->
  valid_scheduler s1 -> valid_scheduler s2 -> valid_scheduler s1' -> valid_scheduler s2' ->
  exists Ts Ts' r r', each_ok (make_fitem u lw) l = Ok Ts /\ each_ok (make_fitem u lw) l' = Ok Ts' /\
    Intersect (Fast lw) s1 s2 hc (map fast_ops Ts) true true = Ok r /\
    Intersect (Fast lw) s1' s2' hc (map fast_ops Ts') true true = Ok r' /\
    incl r' r /\ (incl (map f_part l') (map f_part l) -> r' = r).
Proof. exact fast_laws_par. Qed.
Print Assumptions C88_fast_parallel_laws.

(** One trie by itself loses nothing. *)
Theorem C88_one : forall u (x : bitem) hc s1 s2, (3 <= u <= 2 ^ 48)%N -> bitem_ok u x -> (1 <= hc < 2 ^ 16)%N ->
  valid_scheduler s1 -> valid_scheduler s2 ->
  exists t r, make_bitem u x = Ok t /\ Intersect Bin s1 s2 hc [bin_ops t] true true = Ok r /\
    NoDup r /\ forall v, In v r <-> In v (snd x).
Proof. exact bin_one. Qed.
Print Assumptions C88_one.

Theorem C88_fast_one : forall u lw (x : fitem) hc s1 s2, fast_universe u lw -> (2 ^ N.of_nat lw < u)%N -> fitem_ok u x ->
  (1 <= hc < 2 ^ 16)%N -> valid_scheduler s1 -> valid_scheduler s2 ->
  exists t r, make_fitem u lw x = Ok t /\ Intersect (Fast lw) s1 s2 hc [fast_ops t] true true = Ok r /\
    NoDup r /\ forall v, In v r <-> In v (snd x).
Proof. exact fast_one. Qed.
Print Assumptions C88_fast_one.

(** The answers of one query log: a query with more ids gets no other values, one with the
    same ids in another order or number gets the same answer. *)
Theorem C88_queries : forall fm min_size max_size rank_type block levelwise one u lists hc sched queries,
  formats_ok fm -> collection_ok one u lists -> (3 <= u)%N ->
  loadable_options rank_type block levelwise ->
  Forall (stored_ok u (built_variant rank_type levelwise) true) (kept_lists min_size max_size lists) ->
  (1 <= hc < 2 ^ 16)%N ->
  (forall nq rep, valid_scheduler (fst (sched nq rep)) /\ valid_scheduler (snd (sched nq rep))) ->
  Forall (query_ok (kept_lists min_size max_size lists)) queries ->
  exists file rs,
    build_tries fm min_size max_size rank_type block true levelwise (collection_file one u lists) = Ok file /\
    query_log fm sched hc true file queries = Ok rs /\ length rs = length queries /\
    forall i j q q' r r', nth_error queries i = Some q -> nth_error queries j = Some q' -> incl q q' ->
      nth_error rs i = Some (Some r) -> nth_error rs j = Some (Some r') ->
      incl r' r /\ (incl q' q -> r' = r).
Proof. exact query_laws. Qed.
Print Assumptions C88_queries.

Theorem C88_fast_queries :
  forall fm junk min_size max_size rank_type levelwise lw one u lists blank hc sched queries,
  formats_ok fm -> collection_ok one u lists -> fast_universe u lw -> (2 ^ N.of_nat lw < u)%N ->
  (rank_type < 2 ^ 32)%N -> rank_type <> 1%N ->
  junk_ok junk -> blank_ok blank -> Forall (fast_ok u) (kept_lists min_size max_size lists) ->
  (1 <= hc < 2 ^ 16)%N ->
  (forall nq rep, valid_scheduler (fst (sched nq rep)) /\ valid_scheduler (snd (sched nq rep))) ->
  queries <> [] -> Forall (query_ok (kept_lists min_size max_size lists)) queries ->
  exists file rs,
    build_fast_tries fm junk min_size max_size rank_type true levelwise lw (collection_file one u lists)
      = Ok file /\
    fast_query_log fm blank sched hc true file queries = Ok rs /\ length rs = length queries /\
    forall i j q q' r r', nth_error queries i = Some q -> nth_error queries j = Some q' -> incl q q' ->
      nth_error rs i = Some (Some r) -> nth_error rs j = Some (Some r') ->
      incl r' r /\ (incl q' q -> r' = r).
Proof. exact fast_query_laws. Qed.
Print Assumptions C88_fast_queries.

(** Three tries that lose the value 9: two of them already do; in another order and with
    one of them twice the answer is the same. *)
Example C88_example :
  let z := map N.of_nat (seq 0 16) in
  let a := (VLevel false, true, z ++ [50; 60]%N) in let b := (VLevel true, true, [1; 9; 50; 60]%N) in
  let c := (VLevel false, true, [9; 40; 50]%N) in
  Forall (bitem_ok 64) [a; b; c] /\ incl (map b_part [b; a]) (map b_part [c; a; b; a]) /\
  (let* Ts := each_ok (make_bitem 64) [b; a] in
   Intersect Bin in_order in_order 4 (map bin_ops Ts) true true) = Ok [50; 60]%N /\
  (let* Ts := each_ok (make_bitem 64) [a; b; c] in
   Intersect Bin in_order in_order 4 (map bin_ops Ts) true true) = Ok [50]%N /\
  (let* Ts := each_ok (make_bitem 64) [c; a; b; a] in
   Intersect Bin in_order in_order 4 (map bin_ops Ts) true true) = Ok [50]%N.
Proof.
  cbv zeta. split; [constructor; [|constructor; [|constructor; [|constructor]]]; sets_ok|].
  split; [intros x [E|[E|[]]]; subst x; cbn [map In]; tauto|]. repeat split; vm_compute; reflexivity.
Qed.

(** The collection of C36_runs_example, which shows that the other hypotheses hold: the
    query for both lists answers a part of the query for one, and the same when its ids
    are swapped and repeated. *)
Example C88_queries_example :
  let lists := [map N.of_nat (seq 0 32) ++ [40; 50]; [3; 5; 30; 40; 51]]%N in
  let queries := [[0; 1]; [1]; [1; 0; 1]]%N in
  let sched := (fun _ _ => (in_order, backwards)) : nat -> nat -> scheduler * scheduler in
  Forall (query_ok (kept_lists 0 100 lists)) queries /\
  (let* file := build_tries plain_formats 0 100 0 512 true true (collection_file 1 64 lists) in
   query_log plain_formats sched 4 true file queries)
    = Ok [Some [40]; Some [3; 5; 30; 40; 51]; Some [40]]%N /\
  (let* file := build_fast_tries plain_formats (fun _ => mkJunk None (Some false) 77 0) 0 100 0 true false 3 (collection_file 1 64 lists) in
   fast_query_log plain_formats (fun lw => fast_default lw 0 0 None false None) sched 4 true file queries)
    = Ok [Some [40]; Some [3; 5; 30; 40; 51]; Some [40]]%N.
Proof.
  cbv zeta. split; [|split; vm_compute; reflexivity].
  repeat first [apply Forall_cons | apply Forall_nil]; split; try discriminate; repeat constructor.
Qed.

(** What does not hold: that larger sets give at least the values of smaller ones.  Adding
    values to a set, so that it has a run where the other has none, removes values of the
    answer. *)
Theorem C88_larger_sets_refuted : exists (x x' y : bitem) r r',
  Forall (bitem_ok 64) [x; x'; y] /\ fst x = fst x' /\ incl (snd x) (snd x') /\
  (let* Ts := each_ok (make_bitem 64) [x; y] in
   Intersect Bin in_order in_order 4 (map bin_ops Ts) true true) = Ok r /\
  (let* Ts := each_ok (make_bitem 64) [x'; y] in
   Intersect Bin in_order in_order 4 (map bin_ops Ts) true true) = Ok r' /\
  In 9%N r /\ ~ In 9%N r'.
Proof. exact larger_lose. Qed.
Print Assumptions C88_larger_sets_refuted.
