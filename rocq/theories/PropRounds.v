(** C98: how many searches a Barbay-Kenyon call makes, and what each costs. *)

From Verif Require Import Base Spec SpecBarbay SpecAdaptive SpecEnds SpecRounds Reference BarbayWork.

(** C98, part: for every proof [C] of the intersection, however short, a call makes at most one
    round of searches for each interval of [C], if the sets end with the same value. *)
Theorem C98_same_end_partial : forall first others out u C L, let sets := first :: others in
  bk_family sets -> Forall (below u) sets -> certificate sets u C ->
  Forall (fun s => last s 0%N = L) sets ->
  rounds_at_most (length sets * length C) (fun n => barbayKenyon n sets (length sets) out).
Proof. exact barbay_rounds_same_end. Qed.
Print Assumptions C98_same_end_partial.

(** Any sets: as many rounds more as there are sets. *)
Theorem C98_any_partial : forall first others out u C, let sets := first :: others in
  bk_family sets -> Forall (below u) sets -> certificate sets u C ->
  rounds_at_most (length sets * (length C + length sets)) (fun n => barbayKenyon n sets (length sets) out).
Proof. exact barbay_rounds. Qed.
Print Assumptions C98_any_partial.

(** One search: doubling steps, then halving steps. *)
Theorem C98_search : forall arr x p, let n := N.of_nat (length arr) in
  increasing arr -> (p < n)%N -> (nth (N.to_nat p) arr 0 <= x)%N ->
  exists i, es_loop (S (length arr)) arr n x (p + 1) = Ok i /\
    rounds_at_most (N.to_nat (N.log2_up n)) (fun f => es_loop f arr n x (p + 1)) /\
    rounds_at_most (S (N.to_nat (N.log2 n))) (fun f => bs_loop f arr (i / 2) (N.min i (n - 1)) x).
Proof. exact search_rounds. Qed.
Print Assumptions C98_search.

(** The further rounds are needed.  Two intervals prove that the four sets below have nothing in
    common; after two rounds of four searches the call still goes on, because it goes back when
    a set has been gone through. *)
Theorem C98_same_bound_refuted :
  ~ (forall first others u C, let sets := first :: others in
       bk_family sets -> Forall (below u) sets -> certificate sets u C ->
       ends (barbayKenyon (length sets * length C) sets (length sets) [])).
Proof. exact more_rounds. Qed.
Print Assumptions C98_same_bound_refuted.

Example C98_example :
  bk_family four /\ Forall (below 6) four /\ certificate four 6 [(0, 2); (3, 5)]%N /\
  barbayKenyon 8 four 4 [] = OutOfFuel /\ barbayKenyon 10 four 4 [] = Ok [] /\
  es_loop 20 [1; 3; 5; 7; 9; 11; 13]%N 7 9 1 = Ok 8%N /\
  bs_loop 4 [1; 3; 5; 7; 9; 11; 13]%N 4 6 9 = Ok (inl 4%N) /\ N.log2_up 7 = 3%N.
Proof.
  split; [exact four_family|]. split; [exact four_below|]. split; [exact four_certificate|]. vm_compute. repeat split.
Qed.
