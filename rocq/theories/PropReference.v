(** Properties C25, C26, C27: the reference intersections. *)

From Coq Require Import Permutation Sorted.
From Verif Require Import Base Spec SpecBarbay Reference ReferenceFacts BarbayFacts BarbayThms BarbayExact BarbayEnds.

(** C25: for every order in which std::sort may leave the sets, the result is the
    intersection and the argument is only reordered. *)
Theorem C25_force_brute : forall sort S, valid_sort sort ->
  S <> [] -> (N.of_nat (length S) < 65536)%N -> Forall increasing S ->
  exists r S', forceBruteIntersection sort S = Ok (r, S') /\
    is_intersection S r /\ Permutation S S'.
Proof. exact force_brute_ok. Qed.
Print Assumptions C25_force_brute.

Example C25_sort_exists : valid_sort size_sort.
Proof. exact size_sort_valid. Qed.

Example C25_run :
  forceBruteIntersection size_sort [[1; 4; 6; 9]; [2; 4; 9]; [0; 4; 5; 9]]%N
  = Ok ([4; 9], [[2; 4; 9]; [1; 4; 6; 9]; [0; 4; 5; 9]])%N.
Proof. reflexivity. Qed.

(** C26: whatever the lists contain and however long it ran, a completed call only
    appended values that are in all the sets. *)
Theorem C26_barbay_sound : forall fuel sets out r, 2 <= length sets ->
  barbayKenyon fuel sets (length sets) out = Ok r ->
  exists new, r = out ++ new /\ forall x, In x new -> Forall (fun s => In x s) sets.
Proof. exact bk_sound. Qed.
Print Assumptions C26_barbay_sound.

Example C26_run :
  barbayKenyon 20 [[2; 5; 8]; [1; 2; 3; 8]; [0; 2; 7; 8]]%N 3 [77]%N = Ok [77; 2; 8]%N.
Proof. reflexivity. Qed.

(** C27, the part that holds: if no set starts after the first value of the first set
    and all sets end with the same value, the call ends within the given number of
    iterations, reads only inside the lists, and appends exactly the intersection.
    Missing: all other families, where the claim is false (below). *)
Theorem C27_barbay_complete_partial : forall sets L e rest others out fuel,
  2 <= length sets ->
  Forall increasing sets ->
  Forall (fun s => (N.of_nat (length s) < 2 ^ 31)%N) sets ->
  Forall (fun s => s <> []) sets ->
  Forall (fun s => last s 0%N = L) sets -> (L < 2 ^ 64 - 1)%N ->
  sets = (e :: rest) :: others ->
  Forall (fun s => (hd 0 s <= e)%N) sets ->
  length sets * length (concat sets) <= fuel ->
  exists r, barbayKenyon fuel sets (length sets) out = Ok (out ++ r) /\
            is_intersection sets r.
Proof.
  exact (fun sets L e rest others out fuel H1 H2 H3 H4 H5 H6 =>
           bk_complete sets L out H1 H2 H3 H4 H5 H6 e rest others fuel).
Qed.
Print Assumptions C27_barbay_complete_partial.

Example C27_hypotheses : exists r,
  barbayKenyon 100 [[2; 5; 8]; [1; 2; 3; 8]; [0; 2; 7; 8]]%N 3 [77]%N = Ok ([77]%N ++ r) /\
  is_intersection [[2; 5; 8]; [1; 2; 3; 8]; [0; 2; 7; 8]]%N r.
Proof.
  apply (C27_barbay_complete_partial [[2; 5; 8]; [1; 2; 3; 8]; [0; 2; 7; 8]]%N 8%N 2%N [5; 8]%N
           [[1; 2; 3; 8]; [0; 2; 7; 8]]%N [77]%N 100);
    repeat (first [apply Forall_cons | apply Forall_nil | apply SSorted_cons | apply SSorted_nil
                  | reflexivity | discriminate | (cbn; lia)]).
Qed.

(** C27 as stated is false: 5 is lost although it is in both sets. *)
Theorem C27_barbay_complete_refuted :
  ~ (forall sets, 2 <= length sets -> Forall increasing sets -> Forall (fun s => s <> []) sets ->
     exists fuel r, barbayKenyon fuel sets (length sets) [] = Ok r /\ is_intersection sets r).
Proof. exact bk_incomplete. Qed.
Print Assumptions C27_barbay_complete_refuted.

(** And every call whose second set is a single value above the start of the first
    reads outside that set. *)
Theorem C27_barbay_out_of_bounds_refuted : forall fuel x l y others out,
  (x < y)%N -> x <> (2 ^ 64 - 1)%N ->
  barbayKenyon (S fuel) ((x :: l) :: [y] :: others) (length ((x :: l) :: [y] :: others)) out
  = UB OutOfBounds.
Proof. exact bk_short_second. Qed.
Print Assumptions C27_barbay_out_of_bounds_refuted.

Example C27_lost : barbayKenyon 20 [[1; 5; 9]; [5; 9; 10]]%N 2 [] = Ok [9]%N.
Proof. reflexivity. Qed.

(** C27 for any family: the call ends within the given number of iterations.  Either it
    reads outside a list, which needs a set of one value after the start of the first
    set or sets with different ends, or it appends all the common values but at most
    the smallest.  Missing: the value and the reads, that is the full claim, which is
    false (above and below). *)
Theorem C27_barbay_outcome_partial : forall first others out fuel,
  bk_family (first :: others) ->
  length (first :: others) * length (concat (first :: others)) <= fuel ->
  barbayKenyon fuel (first :: others) (length (first :: others)) out = UB OutOfBounds /\
  bk_risky first others
  \/
  exists r, barbayKenyon fuel (first :: others) (length (first :: others)) out = Ok (out ++ r) /\
    all_but_first first others r.
Proof. exact bk_any. Qed.
Print Assumptions C27_barbay_outcome_partial.

(** Whenever the second set starts after the first, its first value is not returned,
    though it be in all the sets. *)
Theorem C27_first_value_lost_refuted : forall first second others out fuel r,
  bk_family (first :: second :: others) -> (hd 0 first < hd 0 second)%N ->
  barbayKenyon fuel (first :: second :: others) (length (first :: second :: others)) out = Ok r ->
  exists new, r = out ++ new /\ ~ In (hd 0%N second) new.
Proof. exact bk_first_lost. Qed.
Print Assumptions C27_first_value_lost_refuted.

(** With two sets, a call that returns appends the intersection, without the first
    value of the second set if that set starts after the first. *)
Theorem C27_two_sets_partial : forall a b out fuel r,
  bk_family [a; b] -> length (a ++ b) * 2 <= fuel ->
  barbayKenyon fuel [a; b] 2 out = Ok r ->
  exists c, is_intersection [a; b] c /\
    r = out ++ (if (hd 0 a <? hd 0 b)%N then filter (fun x => negb (N.eqb x (hd 0 b))) c else c)%N.
Proof. exact bk_two. Qed.
Print Assumptions C27_two_sets_partial.

(** With any number of sets, a call that returns appends the intersection, without the
    values that the first pass over the sets goes by.  Missing: the calls that do not
    return. *)
Theorem C27_exact_partial : forall first others out fuel r,
  bk_family (first :: others) ->
  length (first :: others) * length (concat (first :: others)) <= fuel ->
  barbayKenyon fuel (first :: others) (length (first :: others)) out = Ok r ->
  exists c, is_intersection (first :: others) c /\
    r = out ++ filter (fun x => negb (existsb (N.eqb x) (passed_by (hd 0%N first) others))) c.
Proof. exact bk_exact. Qed.
Print Assumptions C27_exact_partial.

(** The third set starts after 3, to which the second set has led: 5 is lost.  In the other
    order the same sets give the whole intersection. *)
Example C27_exact_hypotheses :
  bk_family [[1; 5; 9]; [0; 3; 5; 9]; [5; 7; 9]]%N /\
  passed_by 1 [[0; 3; 5; 9]; [5; 7; 9]]%N = [5]%N /\
  barbayKenyon 90 [[1; 5; 9]; [0; 3; 5; 9]; [5; 7; 9]]%N 3 [4]%N = Ok [4; 9]%N /\
  passed_by 5 [[1; 5; 9]; [0; 3; 5; 9]]%N = [] /\
  barbayKenyon 90 [[5; 7; 9]; [1; 5; 9]; [0; 3; 5; 9]]%N 3 [4]%N = Ok [4; 5; 9]%N.
Proof.
  split; [|repeat split]. split; [cbn; lia|].
  repeat (first [apply conj | apply Forall_cons | apply Forall_nil | apply SSorted_cons
                | apply SSorted_nil | reflexivity | discriminate]).
Qed.

(** A first pass that comes to a set of one value after the value looked for reads outside
    that set. *)
Theorem C27_reads_past_refuted : forall first others out fuel,
  bk_family (first :: others) ->
  length (first :: others) * length (concat (first :: others)) <= fuel ->
  reads_past (hd 0%N first) others = true ->
  barbayKenyon fuel (first :: others) (length (first :: others)) out = UB OutOfBounds.
Proof. exact bk_reads_past. Qed.
Print Assumptions C27_reads_past_refuted.

(** If all sets end with the same value, every other call returns, and what it appends is
    known.  So for these families every outcome is known.  Missing: which calls read outside a
    list after the first pass when the ends differ. *)
Theorem C27_same_end_partial : forall first others out fuel L,
  bk_family (first :: others) ->
  Forall (fun s => last s 0%N = L) (first :: others) ->
  length (first :: others) * length (concat (first :: others)) <= fuel ->
  reads_past (hd 0%N first) others = false ->
  exists c, is_intersection (first :: others) c /\
    barbayKenyon fuel (first :: others) (length (first :: others)) out
    = Ok (out ++ filter (fun x => negb (existsb (N.eqb x) (passed_by (hd 0%N first) others))) c).
Proof. exact bk_same_end. Qed.
Print Assumptions C27_same_end_partial.

(** The set [9] is harmless when the one before it has led to 9. *)
Example C27_same_end_example :
  bk_family [[1; 5; 9]; [0; 9]; [9]]%N /\
  reads_past 1 [[0; 9]; [9]]%N = false /\ passed_by 1 [[0; 9]; [9]]%N = [] /\
  barbayKenyon 90 [[1; 5; 9]; [0; 9]; [9]]%N 3 [4]%N = Ok [4; 9]%N /\
  bk_family [[1; 5; 9]; [9]; [0; 9]]%N /\ reads_past 1 [[9]; [0; 9]]%N = true /\
  barbayKenyon 90 [[1; 5; 9]; [9]; [0; 9]]%N 3 [4]%N = UB OutOfBounds /\
  reads_past 1 [[0; 3; 9]; [9]]%N = true /\
  barbayKenyon 90 [[1; 5; 9]; [0; 3; 9]; [9]]%N 3 [4]%N = UB OutOfBounds.
Proof.
  split; [|split; [reflexivity|split; [reflexivity|split; [reflexivity|split; [|repeat split]]]]];
    (split; [cbn; lia|]);
    repeat (first [apply conj | apply Forall_cons | apply Forall_nil | apply SSorted_cons
                  | apply SSorted_nil | reflexivity | discriminate]).
Qed.

Example C27_family : bk_family [[1; 5; 9]; [5; 9; 10]; [2; 5]]%N.
Proof.
  split; [cbn; lia|].
  repeat (first [apply conj | apply Forall_cons | apply Forall_nil | apply SSorted_cons
                | apply SSorted_nil | reflexivity | discriminate]).
Qed.

(** The smallest value lost; going back to the end of a set and returning; and a read
    past the end after going back. *)
Example C27_outcomes :
  barbayKenyon 30 [[1; 5; 9]; [5; 9; 10]]%N 2 [7]%N = Ok [7; 9]%N /\
  barbayKenyon 30 [[1; 5; 9]; [5; 9; 10]; [2; 5]]%N 3 [] = Ok [] /\
  barbayKenyon 30 [[4; 9]; [1; 2; 3]; [4]]%N 3 [] = UB OutOfBounds.
Proof. repeat split. Qed.
