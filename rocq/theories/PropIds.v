(** C66: which list an id of the query log means. *)

From Verif Require Import Base FastTrie ParallelFor Intersection Tries Serialize Tools
  Spec SpecTries SpecFiles SpecTools SpecIds ToolsThms ParForThms IdsThms.

(** Each id means one list of the complete collection: the one that is kept and has that
    many kept lists before it; a query by ids is answered with the intersection of these
    lists. *)
Theorem C66_ids_partial :
  forall fm min_size max_size rank_type block runs levelwise one u lists hc parallel sched queries positions,
  formats_ok fm -> collection_ok one u lists -> (2 <= u)%N ->
  loadable_options rank_type block levelwise ->
  Forall (stored_ok u (built_variant rank_type levelwise) runs) (kept_lists min_size max_size lists) ->
  exact_mode u runs parallel hc sched (kept_lists min_size max_size lists) ->
  Forall2 (same_query min_size max_size lists) queries positions ->
  exists file rs,
    build_tries fm min_size max_size rank_type block runs levelwise (collection_file one u lists) = Ok file /\
    query_log fm sched hc parallel file queries = Ok rs /\
    Forall2 (answers lists) positions rs.
Proof. exact ids_mean_positions. Qed.
Print Assumptions C66_ids_partial.

Theorem C66_fast_ids_partial :
  forall fm junk min_size max_size rank_type runs levelwise lw one u lists blank hc parallel sched queries positions,
  formats_ok fm -> collection_ok one u lists -> fast_universe u lw -> (rank_type < 2 ^ 32)%N -> rank_type <> 1%N ->
  junk_ok junk -> blank_ok blank -> Forall (fast_ok u) (kept_lists min_size max_size lists) ->
  fast_exact_mode u lw runs parallel hc sched (kept_lists min_size max_size lists) ->
  queries <> [] -> Forall2 (same_query min_size max_size lists) queries positions ->
  exists file rs,
    build_fast_tries fm junk min_size max_size rank_type runs levelwise lw (collection_file one u lists) = Ok file /\
    fast_query_log fm blank sched hc parallel file queries = Ok rs /\
    Forall2 (answers lists) positions rs.
Proof. exact fast_ids_mean_positions. Qed.
Print Assumptions C66_fast_ids_partial.

(** Missing for the full property: it holds for the positions up to which every list was
    kept ... *)
Theorem C66_positions_partial :
  forall fm min_size max_size rank_type block runs levelwise one u lists hc parallel sched queries,
  formats_ok fm -> collection_ok one u lists -> (2 <= u)%N ->
  loadable_options rank_type block levelwise ->
  Forall (stored_ok u (built_variant rank_type levelwise) runs) (kept_lists min_size max_size lists) ->
  exact_mode u runs parallel hc sched (kept_lists min_size max_size lists) ->
  Forall (unshifted min_size max_size lists) queries ->
  exists file rs,
    build_tries fm min_size max_size rank_type block runs levelwise (collection_file one u lists) = Ok file /\
    query_log fm sched hc parallel file queries = Ok rs /\
    Forall2 (answers lists) queries rs.
Proof. exact positions_are_ids. Qed.
Print Assumptions C66_positions_partial.

Theorem C66_fast_positions_partial :
  forall fm junk min_size max_size rank_type runs levelwise lw one u lists blank hc parallel sched queries,
  formats_ok fm -> collection_ok one u lists -> fast_universe u lw -> (rank_type < 2 ^ 32)%N -> rank_type <> 1%N ->
  junk_ok junk -> blank_ok blank -> Forall (fast_ok u) (kept_lists min_size max_size lists) ->
  fast_exact_mode u lw runs parallel hc sched (kept_lists min_size max_size lists) ->
  queries <> [] -> Forall (unshifted min_size max_size lists) queries ->
  exists file rs,
    build_fast_tries fm junk min_size max_size rank_type runs levelwise lw (collection_file one u lists) = Ok file /\
    fast_query_log fm blank sched hc parallel file queries = Ok rs /\
    Forall2 (answers lists) queries rs.
Proof. exact fast_positions_are_ids. Qed.
Print Assumptions C66_fast_positions_partial.

(** ... and for no other position: the tool answers with a later list, or reads outside
    its array of tries (fast tries: through a null pointer). *)
Theorem C66_positions_refuted :
  forall fm min_size max_size rank_type block runs levelwise one u lists hc parallel sched p,
  formats_ok fm -> collection_ok one u lists -> (2 <= u)%N ->
  loadable_options rank_type block levelwise ->
  Forall (stored_ok u (built_variant rank_type levelwise) runs) (kept_lists min_size max_size lists) ->
  exact_mode u runs parallel hc sched (kept_lists min_size max_size lists) ->
  shifted min_size max_size lists p ->
  exists file,
    build_tries fm min_size max_size rank_type block runs levelwise (collection_file one u lists) = Ok file /\
    (query_log fm sched hc parallel file [[p]] = UB OutOfBounds \/
     exists p', (p < p' < N.of_nat (length lists))%N /\
       query_log fm sched hc parallel file [[p]] = Ok [Some (nth (N.to_nat p') lists [])]).
Proof. exact positions_shifted. Qed.
Print Assumptions C66_positions_refuted.

Theorem C66_fast_positions_refuted :
  forall fm junk min_size max_size rank_type runs levelwise lw one u lists blank hc parallel sched p,
  formats_ok fm -> collection_ok one u lists -> fast_universe u lw -> (rank_type < 2 ^ 32)%N -> rank_type <> 1%N ->
  junk_ok junk -> blank_ok blank -> Forall (fast_ok u) (kept_lists min_size max_size lists) ->
  fast_exact_mode u lw runs parallel hc sched (kept_lists min_size max_size lists) ->
  shifted min_size max_size lists p ->
  exists file,
    build_fast_tries fm junk min_size max_size rank_type runs levelwise lw (collection_file one u lists) = Ok file /\
    (fast_query_log fm blank sched hc parallel file [[p]] = UB NullDeref \/
     exists p', (p < p' < N.of_nat (length lists))%N /\
       fast_query_log fm blank sched hc parallel file [[p]] = Ok [Some (nth (N.to_nat p') lists [])]).
Proof. exact fast_positions_shifted. Qed.
Print Assumptions C66_fast_positions_refuted.

(** A list of at most [min_size] values leaves no trace in the file, nor does one of more
    than [max_size]. *)
Theorem C66_dropped_partial : forall fm min_size max_size rank_type block runs levelwise one u before l after,
  collection_ok one u (before ++ l :: after) -> ~ is_kept min_size max_size l ->
  build_tries fm min_size max_size rank_type block runs levelwise (collection_file one u (before ++ l :: after))
  = build_tries fm min_size max_size rank_type block runs levelwise (collection_file one u (before ++ after)).
Proof. exact dropped_list. Qed.
Print Assumptions C66_dropped_partial.

Theorem C66_fast_dropped_partial : forall fm junk min_size max_size rank_type runs levelwise lw one u before l after,
  collection_ok one u (before ++ l :: after) -> ~ is_kept min_size max_size l ->
  build_fast_tries fm junk min_size max_size rank_type runs levelwise lw (collection_file one u (before ++ l :: after))
  = build_fast_tries fm junk min_size max_size rank_type runs levelwise lw (collection_file one u (before ++ after)).
Proof. exact fast_dropped_list. Qed.
Print Assumptions C66_fast_dropped_partial.

(** Three lists, of which the second has exactly [min_size] values and is left out: id 1
    means the third list, and position 2 is no id. *)
Example C66_example :
  let lists := [[1; 4; 9; 12]; [5; 6]; [3; 4; 5; 9]]%N in
  (collection_ok 1 13 lists /\ loadable_options 0 512 false /\
   Forall (stored_ok 13 (built_variant 0 false) false) (kept_lists 2 100 lists) /\
   same_query 2 100 lists [0; 1]%N [0; 2]%N /\ unshifted 2 100 lists [0]%N /\
   shifted 2 100 lists 1 /\ shifted 2 100 lists 2 /\ ~ is_kept 2 100 [5; 6]%N) /\
  (let* file := build_tries plain_formats 2 100 0 512 false false (collection_file 1 13 lists) in
   query_log plain_formats (fun _ _ => (in_order, in_order)) 1 false file [[0; 1]; [0]; [1]]%N)
    = Ok [Some [4; 9]; Some [1; 4; 9; 12]; Some [3; 4; 5; 9]]%N /\
  (let* file := build_tries plain_formats 2 100 0 512 false false (collection_file 1 13 lists) in
   query_log plain_formats (fun _ _ => (in_order, in_order)) 1 false file [[2]]%N) = UB OutOfBounds.
Proof.
  cbv zeta. split; [|split; vm_compute; reflexivity].
  split; [|split; [|split; [|split; [|split; [|split; [|split]]]]]].
  - split; [reflexivity|split; [reflexivity|split; [reflexivity|split; repeat constructor]]].
  - repeat split; try reflexivity; discriminate.
  - cbn. unfold stored_ok, plain_ok. 
    repeat (constructor; [split; [|split; [discriminate|discriminate]]|]); try constructor;
      repeat split; try discriminate; repeat constructor; vm_compute; reflexivity.
  - split; [discriminate|].
    repeat (constructor; [split; [eexists; split; [reflexivity|split; vm_compute; (reflexivity || discriminate)]|reflexivity]|]).
    constructor.
  - split; [split; [discriminate|repeat constructor]|].
    repeat constructor; vm_compute; (reflexivity || discriminate).
  - split; [reflexivity|]. apply Exists_cons_tl. apply Exists_cons_hd. intros (H & _). vm_compute in H. discriminate.
  - split; [reflexivity|]. apply Exists_cons_tl. apply Exists_cons_hd. intros (H & _). vm_compute in H. discriminate.
  - intros (H & _). vm_compute in H. discriminate.
Qed.
