(** C97: how deep the recursive procedures nest. *)

From Verif Require Import Base FlatTrie LevelTrie FastTrie ParallelFor Intersection Tries Spec SpecTries
  SpecMeasures SpecEnds SpecDepth InterRefute DepthThms.

(** C97.  Intersections of objects in any state, loaded or damaged too: from level [l] of tries of
    [h] levels, at most [h - l] nested calls. *)
Theorem C97_intersect : forall ts n h l roots active p r, l <= h ->
  nested_at_most (h - l) (fun d => AND Bin (map bin_ops ts) n h d l roots p r) /\
  nested_at_most (h - l) (fun d => runsAND Bin (map bin_ops ts) n h d l roots active p r).
Proof. exact and_depth. Qed.
Print Assumptions C97_intersect.

Theorem C97_intersect_fast : forall lw ts n h l roots active p r, lw <= 6 -> l < h ->
  nested_at_most (h - 1 - l) (fun d => AND (Fast lw) (map fast_ops ts) n h d l roots p r) /\
  nested_at_most (h - 1 - l) (fun d => runsAND (Fast lw) (map fast_ops ts) n h d l roots active p r).
Proof. exact fast_and_depth. Qed.
Print Assumptions C97_intersect_fast.

(** The division of the work among threads, down to level [cut]. *)
Theorem C97_divide : forall ts n h runs l cut roots active p st, l <= cut ->
  nested_at_most (cut - l) (fun d => partialAND Bin (map bin_ops ts) n h runs d l cut roots active p st).
Proof. exact partial_depth. Qed.
Print Assumptions C97_divide.

Theorem C97_divide_fast : forall lw ts n h runs l cut roots active p st, l <= cut ->
  nested_at_most (cut - l) (fun d => partialAND (Fast lw) (map fast_ops ts) n h runs d l cut roots active p st).
Proof. exact fast_partial_depth. Qed.
Print Assumptions C97_divide_fast.

(** Run encoding.  Here fuel [n] allows [n] calls in all, the first included. *)
Theorem C97_encode : forall t st l id b, let T := bin_ops t in l < t_height T ->
  nested_at_most (t_height T - 1 - l)
    (fun d => writeCompressTrie (t_height T) (t_getNode T) (t_getLeft T) (t_getRight T) (S d) st l id b).
Proof. exact encode_depth. Qed.
Print Assumptions C97_encode.

Theorem C97_encode_fast : forall t st ws l id b, l < x_height t ->
  nested_at_most (x_height t - 1 - l) (fun d => fast_writeCompress (S d) t st ws l id b).
Proof. exact fast_encode_depth. Qed.
Print Assumptions C97_encode_fast.

(** Decoding, to level [stop]: the height, and in encoded level-wise tries height_with_runs, which
    a damaged file can make larger than the height. *)
Theorem C97_decode : forall t stop values p id l, let T := bin_ops t in l <= stop ->
  nested_at_most (stop - l)
    (fun d => recursiveDecode (t_height T) stop (t_getNode T) (t_getLeft T) (t_getRight T) d values p id l) /\
  nested_at_most (stop - l)
    (fun d => runsRecursiveDecode (t_height T) stop (t_getNode T) (t_getLeft T) (t_getRight T) d values p id l).
Proof. exact decode_depth. Qed.
Print Assumptions C97_decode.

Theorem C97_decode_level : forall t stop values p id l, let T := level_ops t in l <= t_height T ->
  nested_at_most (S (t_height T - l))
    (fun d => runsRecursiveDecode (t_height T) stop (t_getNode T) (t_getLeft T) (t_getRight T) d values p id l).
Proof. exact level_decode_depth. Qed.
Print Assumptions C97_decode_level.

(** Fast tries of height 0 are excluded: decoding them nests without end (C76). *)
Theorem C97_decode_fast_partial : forall t values p id l, words_fit t -> l < x_height t ->
  nested_at_most (x_height t - 1 - l) (fun d => fast_recursiveDecode d t values p id l) /\
  nested_at_most (x_height t - 1 - l) (fun d => fast_runsRecursiveDecode d t values p id l).
Proof. exact fast_decode_depth. Qed.
Print Assumptions C97_decode_fast_partial.

(** The height is the number of binary digits of the universe, whatever the set. *)
Theorem C97_height : forall u (x : bitem), (2 <= u <= 2 ^ 48)%N -> bitem_ok u x ->
  exists t, make_bitem u x = Ok t /\ t_height (bin_ops t) = digits u /\ digits u <= 48.
Proof. exact made_height. Qed.
Print Assumptions C97_height.

Theorem C97_height_fast : forall u lw (x : fitem), fast_universe u lw -> fitem_ok u x ->
  exists t, make_fitem u lw x = Ok t /\ x_height t = S (digits u - lw) /\ digits u <= 48.
Proof. exact fast_made_height. Qed.
Print Assumptions C97_height_fast.

(** The bounds are reached: {1, 9} below 16 takes four nested calls, and three are not enough. *)
Example C97_example :
  bitem_ok 16 (VFlat false, false, [1; 9]%N) /\ digits 16 = 4 /\
  (let* t := make_bitem 16 (VFlat false, false, [1; 9]%N) in
   let T := bin_ops t in
   Ok (recursiveDecode 4 4 (t_getNode T) (t_getLeft T) (t_getRight T) 3 [] 0 0 0,
       recursiveDecode 4 4 (t_getNode T) (t_getLeft T) (t_getRight T) 4 [] 0 0 0,
       runsAND Bin [T; T] 2 4 3 0 init_roots init_active 0 [],
       runsAND Bin [T; T] 2 4 4 0 init_roots init_active 0 []))
  = Ok (OutOfFuel, Ok [1; 9], OutOfFuel, Ok [1; 9])%N.
Proof. split; [sets_ok; discriminate|split; vm_compute; reflexivity]. Qed.
