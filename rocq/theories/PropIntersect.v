(** Properties C09, C10, C11, C16, C30, C31, C32: sequential intersection. *)

From Coq Require Import Permutation.
From Verif Require Import Base FlatTrie LevelTrie FastTrie ParallelFor Intersection Tries Spec SpecTries
  InterLaws InterRefute ParForThms HalfWord.

(** C09.  The result does not depend on the number of hardware threads. *)
Theorem C09_sequential_intersection : forall (u : N) (l : list pitem),
  (2 <= u <= 2 ^ 48)%N -> 1 <= length l <= 16 -> Forall (pitem_ok u) l ->
  exists Ts r, each_ok (make_pitem u) l = Ok Ts /\ is_intersection (map snd l) r /\
    forall s1 s2 hc, (1 <= hc)%N -> Intersect Bin s1 s2 hc (map bin_ops Ts) false false = Ok r.
Proof. exact bin_plain_sequential. Qed.
Print Assumptions C09_sequential_intersection.

(** Four tries, one of each class; and a family with an empty set. *)
Example C09_example :
  let l := [(VFlat false, [1; 5; 7; 11]%N); (VFlat true, [0; 1; 2; 3; 7; 11; 12]%N);
            (VLevel false, [1; 7; 8; 11]%N); (VLevel true, [1; 6; 11]%N)] in
  let l' := [(VFlat false, [1; 5]%N); (VLevel true, [])] in
  (1 <= length l <= 16 /\ Forall (pitem_ok 13) l /\ Forall (pitem_ok 13) l') /\
  (let* Ts := each_ok (make_pitem 13) l in Intersect Bin in_order in_order 8 (map bin_ops Ts) false false)
    = Ok [1; 11]%N /\
  (let* Ts := each_ok (make_pitem 13) l' in Intersect Bin in_order in_order 8 (map bin_ops Ts) false false)
    = Ok [].
Proof. cbv zeta. split; [|split; reflexivity]. repeat split; try (cbn; lia); repeat (constructor; [sets_ok|]); constructor. Qed.

(** C10.  Full claim: for any nonempty sets.  Proved when every encoded flat trie
    has an aligned block of four values that is neither full nor empty (see C06);
    false otherwise. *)
Theorem C10_runs_intersection_partial : forall (u : N) (l : list bitem),
  (2 <= u <= 2 ^ 48)%N -> 1 <= length l <= 16 -> Forall (bitem_ok u) l ->
  exists Ts r, each_ok (make_bitem u) l = Ok Ts /\ is_intersection (map snd l) r /\
    forall s1 s2 hc, (1 <= hc)%N -> Intersect Bin s1 s2 hc (map bin_ops Ts) true false = Ok r.
Proof. exact bin_runs_seq. Qed.
Print Assumptions C10_runs_intersection_partial.

Example C10_example :
  let l := [(VFlat false, true, [0; 1; 2; 3; 4; 5; 6; 7; 9; 12]%N); (VLevel true, true, [3; 4; 5; 6; 7; 12]%N);
            (VLevel false, false, [0; 3; 5; 12; 13]%N)] in
  (1 <= length l <= 16 /\ Forall (bitem_ok 16) l) /\
  (let* Ts := each_ok (make_bitem 16) l in Intersect Bin in_order in_order 1 (map bin_ops Ts) true false)
    = Ok [3; 5; 12]%N.
Proof.
  cbv zeta. split; [|reflexivity]. split; [cbn; lia|].
  constructor; [|constructor; [|constructor; [|constructor]]]; try sets_ok.
  exists 9%N, 8%N. repeat split; cbn; auto 12. intuition discriminate.
Qed.

Theorem C10_runs_intersection_refuted :
  ~ (forall (u : N) (l : list bitem), (2 <= u <= 2 ^ 48)%N -> 1 <= length l <= 16 ->
       Forall (fun x : bitem => plain_ok u (fst (fst x)) (snd x) /\ snd x <> []) l ->
       exists Ts r, each_ok (make_bitem u) l = Ok Ts /\ is_intersection (map snd l) r /\
         forall s1 s2 hc, (1 <= hc)%N -> Intersect Bin s1 s2 hc (map bin_ops Ts) true false = Ok r).
Proof. exact runs_sequential_refuted. Qed.
Print Assumptions C10_runs_intersection_refuted.

(** The flag matters: run-encoded tries intersected with runs=false. *)
Theorem C10_wrong_flag_refuted :
  ~ (forall (u : N) (l : list bitem), (3 <= u <= 2 ^ 48)%N -> 1 <= length l <= 16 -> Forall (bitem_ok u) l ->
       exists Ts r, each_ok (make_bitem u) l = Ok Ts /\ is_intersection (map snd l) r /\
         Intersect Bin in_order in_order 1 (map bin_ops Ts) false false = Ok r).
Proof. exact wrong_flag_refuted. Qed.
Print Assumptions C10_wrong_flag_refuted.

(** C11.  Plain tries with runs=false; plain and encoded tries with runs=true. *)
Theorem C11_fast_intersection : forall (u : N) (lw : nat) (l : list fitem) (runs : bool),
  fast_universe u lw -> 1 <= length l <= 16 -> Forall (fitem_ok u) l ->
  (runs = false -> Forall (fun x => f_enc x = false) l) ->
  exists Ts r, each_ok (make_fitem u lw) l = Ok Ts /\ is_intersection (map snd l) r /\
    forall s1 s2 hc, (1 <= hc)%N -> Intersect (Fast lw) s1 s2 hc (map fast_ops Ts) runs false = Ok r.
Proof. exact fast_seq_result. Qed.
Print Assumptions C11_fast_intersection.

Example C11_example :
  let l := [(None, None, true, [0; 1; 2; 3; 4; 5; 6; 7; 8; 9; 10; 11; 12; 13; 14; 15; 40; 47]%N);
            (Some 9, Some true, false, [2; 9; 40; 63]%N)] in
  (fast_universe 64 3 /\ 1 <= length l <= 16 /\ Forall (fitem_ok 64) l) /\
  (let* Ts := each_ok (make_fitem 64 3) l in
   Intersect (Fast 3) in_order in_order 1 (map fast_ops Ts) true false) = Ok [2; 9; 40]%N.
Proof.
  cbv zeta. split; [|reflexivity]. split; [split; [left; reflexivity|split; [reflexivity|discriminate]]|].
  split; [cbn; lia|]. constructor; [|constructor; [|constructor]]; sets_ok.
Qed.

(** C16.  No method other than getHeight is called: the tries are arbitrary, and
    in particular all their other methods may be undefined. *)
Theorem C16_height_mismatch : forall k s1 s2 hc (Ts : list trie_ops) runs parallel T T',
  In T Ts -> In T' Ts -> t_height T <> t_height T' ->
  Intersect_mem k s1 s2 hc Ts runs parallel = Ok ([], mkMem 0 []).
Proof. exact height_mismatch. Qed.
Print Assumptions C16_height_mismatch.

(** For tries built over universes that need different numbers of bits. *)
Theorem C16_universe_mismatch : forall u u' (x x' : bitem) t t' l k s1 s2 hc runs parallel,
  (2 <= u <= 2 ^ 48)%N -> (2 <= u' <= 2 ^ 48)%N -> rounded u <> rounded u' ->
  bitem_ok u x -> bitem_ok u' x' -> make_bitem u x = Ok t -> make_bitem u' x' = Ok t' ->
  In (bin_ops t) l -> In (bin_ops t') l ->
  Intersect_mem k s1 s2 hc l runs parallel = Ok ([], mkMem 0 []).
Proof. exact universe_mismatch. Qed.
Print Assumptions C16_universe_mismatch.

Example C16_example :
  let bad := fun h => mkOps h (fun _ _ => UB NullDeref) (fun _ _ => UB NullDeref) (fun _ _ => UB NullDeref)
                            (fun _ => UB NullDeref) in
  Intersect_mem Bin in_order in_order 4 [bad 3; bad 3; bad 4] true true = Ok ([], mkMem 0 []) /\
  Intersect_mem Bin in_order in_order 4 [bad 3; bad 3; bad 3] true true = UB NullDeref /\
  rounded 16 <> rounded 17.
Proof. repeat split; discriminate. Qed.

(** C30.  Decoding, then intersecting: the plain tries, the run-encoded tries and
    the fast tries of the same sets. *)
Theorem C30_variants_decode : forall u lw il jh je s, (3 <= u <= 2 ^ 48)%N -> fast_universe u lw ->
  s <> [] -> increasing s -> below u s -> shorter 32 s ->
  exists tf tl tx, flat_build s u = Ok tf /\ level_build il s u = Ok tl /\ fast_build lw jh je s u = Ok tx /\
    flat_decode tf [] = Ok s /\ level_decode tl [] = Ok s /\ fast_decode tx [] = Ok s.
Proof. exact variants_decode. Qed.
Print Assumptions C30_variants_decode.

Theorem C30_variants_intersect : forall u lw (l : list pitem) (lb : list bitem) (lf : list fitem) runs,
  (2 <= u <= 2 ^ 48)%N -> 1 <= length l <= 16 -> fast_universe u lw ->
  map snd lb = map snd l -> map snd lf = map snd l ->
  Forall (pitem_ok u) l -> Forall (bitem_ok u) lb -> Forall (fitem_ok u) lf ->
  (runs = false -> Forall (fun x => f_enc x = false) lf) ->
  exists Ts Tb Tf r,
    each_ok (make_pitem u) l = Ok Ts /\ each_ok (make_bitem u) lb = Ok Tb /\
    each_ok (make_fitem u lw) lf = Ok Tf /\
    forall s1 s2 hc, (1 <= hc)%N ->
      Intersect Bin s1 s2 hc (map bin_ops Ts) false false = Ok r /\
      Intersect Bin s1 s2 hc (map bin_ops Tb) true false = Ok r /\
      Intersect (Fast lw) s1 s2 hc (map fast_ops Tf) runs false = Ok r.
Proof. exact variants_agree. Qed.
Print Assumptions C30_variants_intersect.

Example C30_example :
  let a := [0; 1; 2; 3; 4; 5; 6; 7; 9; 12]%N in let b := [3; 5; 6; 7; 12]%N in
  let l := [(VFlat false, a); (VLevel true, b)] in
  let lb := [(VLevel false, true, a); (VLevel true, true, b)] in
  let lf := [(None, None, true, a); (None, None, true, b)] in
  (fast_universe 16 3 /\ Forall (pitem_ok 16) l /\ Forall (bitem_ok 16) lb /\ Forall (fitem_ok 16) lf /\
   map snd lb = map snd l /\ map snd lf = map snd l) /\
  (let* Ts := each_ok (make_fitem 16 3) lf in
   Intersect (Fast 3) in_order in_order 1 (map fast_ops Ts) true false) = Ok b.
Proof.
  cbv zeta. split; [|reflexivity]. split; [split; [left; reflexivity|split; [reflexivity|discriminate]]|].
  split; [constructor; [|constructor; [|constructor]]; sets_ok|].
  split; [constructor; [|constructor; [|constructor]]; sets_ok|].
  split; [constructor; [|constructor; [|constructor]]; sets_ok|]. split; reflexivity.
Qed.

(** C31.  One trie. *)
Theorem C31_single_trie : forall u (x : pitem) s1 s2 hc, (2 <= u <= 2 ^ 48)%N -> pitem_ok u x -> (1 <= hc)%N ->
  exists t r, make_pitem u x = Ok t /\ bin_decode t [] = Ok r /\
    Intersect Bin s1 s2 hc [bin_ops t] false false = Ok r.
Proof. exact single_is_decode. Qed.
Print Assumptions C31_single_trie.

Theorem C31_single_trie_runs : forall u (x : bitem) s1 s2 hc, (2 <= u <= 2 ^ 48)%N -> bitem_ok u x -> (1 <= hc)%N ->
  exists t r, make_bitem u x = Ok t /\ bin_decode t [] = Ok r /\
    Intersect Bin s1 s2 hc [bin_ops t] true false = Ok r.
Proof. exact single_is_decode_runs. Qed.
Print Assumptions C31_single_trie_runs.

Theorem C31_single_trie_fast : forall u lw (x : fitem) runs s1 s2 hc, fast_universe u lw -> fitem_ok u x ->
  (runs = false -> f_enc x = false) -> (f_enc x = true -> snd (fst (fst x)) = Some false) -> (1 <= hc)%N ->
  exists t r, make_fitem u lw x = Ok t /\ fast_decode t [] = Ok r /\
    Intersect (Fast lw) s1 s2 hc [fast_ops t] runs false = Ok r.
Proof. exact single_is_decode_fast. Qed.
Print Assumptions C31_single_trie_fast.

(** Order, repetition (families with the same members give the same result) and
    monotonicity (a larger family gives a smaller result). *)
Theorem C31_laws : forall u (l l' : list pitem) s1 s2 hc, (2 <= u <= 2 ^ 48)%N ->
  1 <= length l <= 16 -> 1 <= length l' <= 16 -> Forall (pitem_ok u) l -> Forall (pitem_ok u) l' ->
  (forall x, In x l -> In x l') -> (1 <= hc)%N ->
  exists Ts Ts' r r', each_ok (make_pitem u) l = Ok Ts /\ each_ok (make_pitem u) l' = Ok Ts' /\
    Intersect Bin s1 s2 hc (map bin_ops Ts) false false = Ok r /\
    Intersect Bin s1 s2 hc (map bin_ops Ts') false false = Ok r' /\
    (forall x, In x r' -> In x r) /\ ((forall x, In x l' -> In x l) -> r' = r).
Proof. exact plain_laws. Qed.
Print Assumptions C31_laws.

Theorem C31_laws_runs : forall u (l l' : list bitem) s1 s2 hc, (2 <= u <= 2 ^ 48)%N ->
  1 <= length l <= 16 -> 1 <= length l' <= 16 -> Forall (bitem_ok u) l -> Forall (bitem_ok u) l' ->
  (forall x, In x l -> In x l') -> (1 <= hc)%N ->
  exists Ts Ts' r r', each_ok (make_bitem u) l = Ok Ts /\ each_ok (make_bitem u) l' = Ok Ts' /\
    Intersect Bin s1 s2 hc (map bin_ops Ts) true false = Ok r /\
    Intersect Bin s1 s2 hc (map bin_ops Ts') true false = Ok r' /\
    (forall x, In x r' -> In x r) /\ ((forall x, In x l' -> In x l) -> r' = r).
Proof. exact runs_laws. Qed.
Print Assumptions C31_laws_runs.

Theorem C31_laws_fast : forall u lw runs (l l' : list fitem) s1 s2 hc, fast_universe u lw ->
  1 <= length l <= 16 -> 1 <= length l' <= 16 -> Forall (fitem_ok u) l -> Forall (fitem_ok u) l' ->
  (runs = false -> Forall (fun x => f_enc x = false) (l ++ l')) ->
  (forall x, In x l -> In x l') -> (1 <= hc)%N ->
  exists Ts Ts' r r', each_ok (make_fitem u lw) l = Ok Ts /\ each_ok (make_fitem u lw) l' = Ok Ts' /\
    Intersect (Fast lw) s1 s2 hc (map fast_ops Ts) runs false = Ok r /\
    Intersect (Fast lw) s1 s2 hc (map fast_ops Ts') runs false = Ok r' /\
    (forall x, In x r' -> In x r) /\ ((forall x, In x l' -> In x l) -> r' = r).
Proof. exact fast_laws. Qed.
Print Assumptions C31_laws_fast.

Example C31_example :
  let a : pitem := (VFlat false, [1; 5; 7; 11]%N) in let b : pitem := (VLevel true, [1; 7; 8]%N) in
  Forall (pitem_ok 13) [a; b] /\
  (let* Ts := each_ok (make_pitem 13) [b; a; b; b] in
   Intersect Bin in_order in_order 8 (map bin_ops Ts) false false) = Ok [1; 7]%N /\
  (let* Ts := each_ok (make_pitem 13) [a] in
   Intersect Bin in_order in_order 8 (map bin_ops Ts) false false) = Ok [1; 5; 7; 11]%N.
Proof. cbv zeta. split; [|split; reflexivity]. constructor; [|constructor; [|constructor]]; sets_ok. Qed.

(** C32.  Full claim: everything also works at u = 1, u = 2 and in one word.
    Proved: level-wise tries at u = 2 and fast tries of one word, sequentially
    (instances of C02, C03, C09, C11 whose hypotheses allow them). *)
Theorem C32_level_two_values_partial : forall il s, increasing s -> below 2 s ->
  (exists t, level_build il s 2 = Ok t /\ level_decode t [] = Ok s) /\
  (forall (l : list pitem), 1 <= length l <= 16 -> Forall (pitem_ok 2) l ->
   exists Ts r, each_ok (make_pitem 2) l = Ok Ts /\ is_intersection (map snd l) r /\
     forall s1 s2 hc, (1 <= hc)%N -> Intersect Bin s1 s2 hc (map bin_ops Ts) false false = Ok r).
Proof. exact level_two_values. Qed.
Print Assumptions C32_level_two_values_partial.

Theorem C32_fast_one_word_partial : forall lw u jh je s, In lw [3; 4; 5; 6] ->
  (2 ^ N.of_nat lw < 2 * u)%N -> (u <= 2 ^ N.of_nat lw)%N -> fast_ok u s ->
  (exists t, fast_build lw jh je s u = Ok t /\ fast_decode t [] = Ok s) /\
  (forall (l : list fitem), 1 <= length l <= 16 -> Forall (fitem_ok u) l -> Forall (fun x => f_enc x = false) l ->
   exists Ts r, each_ok (make_fitem u lw) l = Ok Ts /\ is_intersection (map snd l) r /\
     forall s1 s2 hc, (1 <= hc)%N -> Intersect (Fast lw) s1 s2 hc (map fast_ops Ts) false false = Ok r).
Proof. exact fast_one_word. Qed.
Print Assumptions C32_fast_one_word_partial.

(** Missing: the constructors at u = 1, flat tries at u = 2, fast tries in half a
    word, and the parallel calls of C12; all are false (below, and in C12). *)
Theorem C32_universe_one_fails : forall v s, bin_build v s 1 = UB BadCast.
Proof. exact universe_one. Qed.
Print Assumptions C32_universe_one_fails.

Theorem C32_universe_one_fast_fails : forall lw jh je s, fast_build lw jh je s 1 = UB BadCast.
Proof. exact universe_one_fast. Qed.
Print Assumptions C32_universe_one_fast_fails.

Theorem C32_universe_two_flat_fails : forall s, increasing s -> below 2 s -> s <> [] ->
  exists t, flat_build s 2 = Ok t /\ forall v, flat_decode t v = UB OutOfBounds.
Proof. exact universe_two_flat. Qed.
Print Assumptions C32_universe_two_flat_fails.

Theorem C32_half_word_fails : forall (lw : nat) (jh : option nat) (je : option bool) (u : N) (s : list N),
  In lw [3; 4; 5; 6] -> (2 <= u)%N -> (2 * u <= 2 ^ N.of_nat lw)%N -> shorter 32 s -> s <> [] ->
  fast_build lw jh je s u = UB (if (2 ^ N.of_nat lw <? 4 * u)%N then BadShift else BadCast).
Proof. exact half_word. Qed.
Print Assumptions C32_half_word_fails.

Example C32_example :
  (let* t := level_build false [1]%N 2 in level_decode t []) = Ok [1]%N /\
  (let* t := fast_build 6 None None [0; 63]%N 64 in fast_decode t []) = Ok [0; 63]%N /\
  (let* t := fast_build 3 None None [0; 3]%N 4 in fast_decode t []) = UB BadShift /\
  (let* t := fast_build 5 None None [0; 3]%N 8 in fast_decode t []) = UB BadCast.
Proof. repeat split. Qed.
