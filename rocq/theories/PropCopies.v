(** Property C39: copies of tries. *)

From Verif Require Import Base FlatTrie LevelTrie FastTrie ParallelFor Intersection Tries Copies Spec
  SpecTries SpecFiles SpecCopies InterRefute CopiesThms.

(** C39.  Full claim: whatever later happens to the original, the copy decodes to what
    the original held.  That is false (below).  Proved: for every reachable memory and
    every later history that leaves alone both the copy and the object whose bits the
    original's rank structure points to (the original itself unless that is a copy too).
    Other objects may be built, copied, encoded, overwritten and destroyed in between. *)
Theorem C39_copies_partial : forall before m a o es m',
  run [] before = Ok m -> at_address m a = Ok o ->
  run m (Copy a :: es) = Ok m' ->
  Forall (fun e => ~ touches (length m) e /\ ~ touches (o_src o) e) es ->
  decode_at m' (length m) = decode_at m a.
Proof. exact copies_partial. Qed.
Print Assumptions C39_copies_partial.

(** Conversely the original does not depend on its copies. *)
Theorem C39_original_partial : forall before m a o es m',
  run [] before = Ok m -> at_address m a = Ok o ->
  run m (Copy a :: es) = Ok m' ->
  Forall (fun e => ~ touches a e /\ ~ touches (o_src o) e) es ->
  decode_at m' a = decode_at m a.
Proof. exact original_partial. Qed.
Print Assumptions C39_original_partial.

(** A run-encoded trie, copied; then another trie is built, encoded, and destroyed, and
    the copy copied again and destroyed. *)
Example C39_example :
  let before := [Make (MakeBin (VFlat false)) [0; 1; 2; 3; 9]%N 13%N; Encode 0] in
  let es := [Make (MakeFast 3 None None) [5; 70]%N 100%N; Encode 2; Decode 0; Copy 1; Destroy 2; Decode 1] in
  exists m m', run [] before = Ok m /\ (exists o, at_address m 0 = Ok o /\ o_src o = 0) /\
    run m (Copy 0 :: es) = Ok m' /\
    Forall (fun e => ~ touches 1 e /\ ~ touches 0 e) es /\
    decode_at m' 1 = Ok [0; 1; 2; 3; 9]%N.
Proof.
  cbv zeta. eexists. eexists. split; [vm_compute; reflexivity|].
  split; [eexists; split; [vm_compute; reflexivity|reflexivity]|].
  split; [vm_compute; reflexivity|]. split; [|vm_compute; reflexivity].
  repeat (constructor; [cbn [touches]; split; intro; try assumption; discriminate|]). constructor.
Qed.

(** For every set whose decoding needs a rank query: once the original is destroyed
    the copy cannot be decoded, whatever else happens.  Copying and destroying the
    original is what a growing std::vector of tries does with each element. *)
Theorem C39_copies_refuted : forall k s u m, needs_rank k s u ->
  let a := length m in
  let c := S a in
  exists m1 m2,
    run m [Make k s u; Copy a] = Ok m1 /\ decode_at m1 a = Ok s /\ decode_at m1 c = Ok s /\
    run m1 [Destroy a] = Ok m2 /\
    forall es m3, run m2 es = Ok m3 -> Forall (fun e => ~ touches c e) es ->
      decode_at m3 c = UB OutOfBounds.
Proof. exact copy_of_destroyed. Qed.
Print Assumptions C39_copies_refuted.

(** Three classes; and a copy whose original is run-encoded instead of destroyed. *)
Example C39_refuted_example :
  needs_rank (MakeBin (VFlat true)) [1; 5; 9]%N 13%N /\ needs_rank (MakeBin (VLevel false)) [1; 5; 9]%N 13%N /\
  needs_rank (MakeFast 3 None None) [1; 5; 9]%N 13%N /\
  (let* m := run [] [Make (MakeBin (VFlat true)) [0; 1; 2; 3; 9]%N 13%N; Copy 0; Encode 0] in
   Ok (decode_at m 0, decode_at m 1)) = Ok (Ok [0; 1; 2; 3; 9]%N, UB OutOfBounds).
Proof.
  split; [|split; [|split; [|vm_compute; reflexivity]]].
  - split; [split; discriminate|]. split; [discriminate|]. sets_ok.
  - split; [split; discriminate|]. split; [discriminate|]. sets_ok.
  - split; [split; [cbn; auto|split; [reflexivity|discriminate]]|]. split; [reflexivity|]. sets_ok.
Qed.
