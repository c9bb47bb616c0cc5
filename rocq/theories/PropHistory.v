(** C67: programs that construct, encode, store, load, decode, intersect and delete tries in
    any order. *)

From Verif Require Import Base FlatTrie LevelTrie FastTrie ParallelFor Intersection Tries Serialize SerializeThms
  Spec SpecTries SpecFiles SpecHistory History ParForThms HistoryThms.

(** Every allowed program runs without undefined behaviour, and each vector it shows holds
    the common values, in increasing order, of the sets that the ideal objects hold. *)
Theorem C67_histories : forall c sched hc steps shown,
  codecs_ok c -> (1 <= hc)%N ->
  (forall n, valid_scheduler (fst (sched n)) /\ valid_scheduler (snd (sched n))) ->
  ideal_program (bin_rules hc) steps shown ->
  exists vs, run_program (bin_interface c sched hc) steps = Ok vs /\ Forall2 is_intersection shown vs.
Proof. exact bin_histories. Qed.
Print Assumptions C67_histories.

Theorem C67_fast_histories : forall c lw junk sched hc steps shown,
  codecs_ok c -> (1 <= hc)%N ->
  (forall n k, (fst (junk n k) < 2 ^ 16)%N /\ (snd (junk n k) < 256)%N) ->
  (forall n, valid_scheduler (fst (sched n)) /\ valid_scheduler (snd (sched n))) ->
  ideal_program (fast_rules lw hc) steps shown ->
  exists vs, run_program (fast_interface c lw junk sched hc) steps = Ok vs /\ Forall2 is_intersection shown vs.
Proof. exact fast_histories. Qed.
Print Assumptions C67_fast_histories.

(** A plain and an encoded trie stored in one file, loaded into new objects and over a used
    one, encoded after loading, intersected with and without runs, in parallel. *)
Definition example_program : list (step bin_new) :=
  [ New 0 (FromSet (VFlat false) [0; 1; 2; 3; 9; 12]%N 13);
    New 1 (FromSet (VLevel false) [2; 3; 9; 12]%N 13);
    EncodeRuns 0; Store [0; 1] 7;
    New 2 (Default (VFlat false)); New 3 (FromSet (VLevel false) [5]%N 6);
    Restore [2; 3] 7; Meet [1; 3] false true; EncodeRuns 3; Delete 0;
    Meet [2; 3; 1] true false; Decode 2; Decode 3 ].

Lemma example_allowed : ideal_program (bin_rules 8) example_program
  [ [[2; 3; 9; 12]; [2; 3; 9; 12]]; [[0; 1; 2; 3; 9; 12]; [2; 3; 9; 12]; [2; 3; 9; 12]];
    [[0; 1; 2; 3; 9; 12]]; [[2; 3; 9; 12]] ]%N.
Proof.
  assert (P1 : plain_ok 13 (VFlat false) [0; 1; 2; 3; 9; 12]%N).
  { split; [repeat constructor|]. split; [repeat constructor|]. split; [discriminate|]. split; [discriminate|reflexivity]. }
  assert (P2 : plain_ok 13 (VLevel false) [2; 3; 9; 12]%N) by (split; [repeat constructor|split; [repeat constructor|exact I]]).
  assert (P3 : plain_ok 6 (VLevel false) [5]%N) by (split; [repeat constructor|split; [repeat constructor|exact I]]).
  assert (P4 : stored_ok 13 (VFlat false) true [0; 1; 2; 3; 9; 12]%N).
  { split; auto. split; [discriminate|]. intros _. exists 9%N, 8%N.
    split; [cbn; tauto|]. split; [cbn; intuition discriminate|reflexivity]. }
  assert (P5 : stored_ok 13 (VLevel false) true [2; 3; 9; 12]%N) by (split; auto; split; [discriminate|exact I]).
  unfold ideal_program, example_program.
  refine (steps_one _ _ _ _ _ _ _ [] _ _ _); [apply ideal_new; cbn; split; [reflexivity|split; [split; vm_compute; congruence|exact P1]]|].
  refine (steps_one _ _ _ _ _ _ _ [] _ _ _); [apply ideal_new; cbn; split; [reflexivity|split; [split; vm_compute; congruence|exact P2]]|].
  refine (steps_one _ _ _ _ _ _ _ [] _ _ _); [eapply ideal_encode; [reflexivity|cbn; split; [reflexivity|exact P4]]|].
  refine (steps_one _ _ _ _ _ _ _ [] _ _ _).
  { eapply ideal_store; [repeat constructor|]. repeat constructor; do 4 eexists; (split; [reflexivity|split; discriminate]). }
  refine (steps_one _ _ _ _ _ _ _ [] _ _ _); [apply ideal_new; reflexivity|].
  refine (steps_one _ _ _ _ _ _ _ [] _ _ _); [apply ideal_new; cbn; split; [reflexivity|split; [split; vm_compute; congruence|exact P3]]|].
  refine (steps_one _ _ _ _ _ _ _ [] _ _ _).
  { eapply ideal_load_file; [reflexivity|]. eapply load_one; [reflexivity|reflexivity|].
    eapply load_one; [reflexivity|reflexivity|]. apply load_none. }
  refine (steps_one _ _ _ _ _ _ _ [_] _ _ _).
  { eapply ideal_meet; [repeat constructor|]. split; [cbn; lia|]. exists 13%N. split; [|split; [|discriminate]].
    - repeat constructor; do 2 eexists; (split; [reflexivity|split; [reflexivity|discriminate]]).
    - intros _. split; [reflexivity|left; vm_compute; discriminate]. }
  refine (steps_one _ _ _ _ _ _ _ [] _ _ _); [eapply ideal_encode; [reflexivity|cbn; split; [reflexivity|exact P5]]|].
  refine (steps_one _ _ _ _ _ _ _ [] _ _ _); [apply ideal_delete|].
  refine (steps_one _ _ _ _ _ _ _ [_] _ _ _).
  { eapply ideal_meet; [repeat constructor|]. split; [cbn; lia|]. exists 13%N. split; [|split; discriminate].
    repeat constructor; do 2 eexists; (split; [reflexivity|split; [discriminate|discriminate]]). }
  refine (steps_one _ _ _ _ _ _ _ [_] _ _ _); [eapply ideal_decode; [reflexivity|do 3 eexists; reflexivity]|].
  refine (steps_one _ _ _ _ _ _ _ [_] _ _ _); [eapply ideal_decode; [reflexivity|do 3 eexists; reflexivity]|].
  apply steps_none.
Qed.

Example C67_example :
  run_program (bin_interface plain_codecs (fun _ => (in_order, backwards)) 8) example_program
  = Ok [[2; 3; 9; 12]; [2; 3; 9; 12]; [0; 1; 2; 3; 9; 12]; [2; 3; 9; 12]]%N.
Proof. vm_compute. reflexivity. Qed.

(** Fast tries over words of 8 bits: one is stored plain, loaded and then encoded. *)
Definition fast_example_program : list (step fast_new) :=
  [ New 0 (FastFromSet [0; 1; 2; 3; 4; 5; 6; 7; 8; 9; 10; 11; 12; 13; 14; 15; 40]%N 64 None None);
    New 1 (FastFromSet [3; 9; 40; 41]%N 64 None (Some false));
    Store [1; 0; 1] 2; New 3 (FastDefault 5 6 None true None); New 4 (FastDefault 1 2 None false (Some true));
    Restore [3; 4] 2; EncodeRuns 4; EncodeRuns 3; Meet [4; 3; 0] true false; Decode 3; Meet [0; 1] false true ].

Lemma fast_example_allowed : ideal_program (fast_rules 3 2) fast_example_program
  [ [[0; 1; 2; 3; 4; 5; 6; 7; 8; 9; 10; 11; 12; 13; 14; 15; 40]; [3; 9; 40; 41];
     [0; 1; 2; 3; 4; 5; 6; 7; 8; 9; 10; 11; 12; 13; 14; 15; 40]];
    [[3; 9; 40; 41]];
    [[0; 1; 2; 3; 4; 5; 6; 7; 8; 9; 10; 11; 12; 13; 14; 15; 40]; [3; 9; 40; 41]] ]%N.
Proof.
  assert (U : fast_universe 64 3) by (split; [left; reflexivity|split; vm_compute; congruence]).
  assert (P1 : fast_ok 64 [0; 1; 2; 3; 4; 5; 6; 7; 8; 9; 10; 11; 12; 13; 14; 15; 40]%N).
  { split; [discriminate|]. split; [repeat constructor|]. split; [repeat constructor|reflexivity]. }
  assert (P2 : fast_ok 64 [3; 9; 40; 41]%N).
  { split; [discriminate|]. split; [repeat constructor|]. split; [repeat constructor|reflexivity]. }
  unfold ideal_program, fast_example_program.
  refine (steps_one _ _ _ _ _ _ _ [] _ _ _).
  { apply ideal_new. exists false. split; [reflexivity|]. split; [discriminate|]. split; [exact U|]. split; [exact P1|].
    intros h X. discriminate. }
  refine (steps_one _ _ _ _ _ _ _ [] _ _ _).
  { apply ideal_new. exists true. split; [reflexivity|]. split; [reflexivity|]. split; [exact U|]. split; [exact P2|].
    intros h X. discriminate. }
  refine (steps_one _ _ _ _ _ _ _ [] _ _ _).
  { eapply ideal_store; [repeat constructor|]. repeat constructor; do 4 eexists; reflexivity. }
  refine (steps_one _ _ _ _ _ _ _ [] _ _ _); [apply ideal_new; reflexivity|].
  refine (steps_one _ _ _ _ _ _ _ [] _ _ _); [apply ideal_new; reflexivity|].
  refine (steps_one _ _ _ _ _ _ _ [] _ _ _).
  { eapply ideal_load_file; [reflexivity|]. eapply load_one; [reflexivity|reflexivity|].
    eapply load_one; [reflexivity|reflexivity|]. apply load_none. }
  refine (steps_one _ _ _ _ _ _ _ [] _ _ _); [eapply ideal_encode; [reflexivity|reflexivity]|].
  refine (steps_one _ _ _ _ _ _ _ [] _ _ _); [eapply ideal_encode; [reflexivity|reflexivity]|].
  refine (steps_one _ _ _ _ _ _ _ [_] _ _ _).
  { eapply ideal_meet; [repeat constructor|]. split; [cbn; lia|]. exists 64%N. split; [|split; discriminate].
    repeat constructor; do 2 eexists; (split; [reflexivity|discriminate]). }
  refine (steps_one _ _ _ _ _ _ _ [_] _ _ _).
  { eapply ideal_decode; [reflexivity|]. do 3 eexists. split; [reflexivity|reflexivity]. }
  refine (steps_one _ _ _ _ _ _ _ [_] _ _ _).
  { eapply ideal_meet; [repeat constructor|]. split; [cbn; lia|]. exists 64%N. split; [|split; [|discriminate]].
    - repeat constructor; do 2 eexists; (split; [reflexivity|reflexivity]).
    - intros _. split; [reflexivity|left; reflexivity]. }
  apply steps_none.
Qed.

Example C67_fast_example :
  run_program (fast_interface plain_codecs 3 (fun _ _ => (77, 1)%N) (fun _ => (in_order, backwards)) 2) fast_example_program
  = Ok [[3; 9; 40]; [3; 9; 40; 41]; [3; 9; 40]]%N.
Proof. vm_compute. reflexivity. Qed.
