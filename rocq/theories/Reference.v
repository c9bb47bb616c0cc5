(** Model of the reference intersections: forceBruteIntersection of
    src/intersection.cpp and src/barbay_and_kenyon.cpp. *)

From Coq Require Import Permutation Sorted.
From Verif Require Import Base.

(** std::set_intersection on two ranges, src/intersection.cpp:36-38. *)
Fixpoint set_intersection (a b : list N) : list N :=
  match a with
  | [] => []
  | x :: a' =>
    (fix inner (b : list N) : list N :=
       match b with
       | [] => []
       | y :: b' =>
         if N.ltb x y then set_intersection a' b
         else if N.ltb y x then inner b'
         else x :: set_intersection a' b'
       end) b
  end.

(** std::sort by size, src/intersection.cpp:26-30: any reordering of the sets by
    nondecreasing size (std::sort is not stable). *)
Definition valid_sort (sort : list (list N) -> list (list N)) : Prop :=
  forall S, Permutation S (sort S) /\
            StronglySorted (fun a b => length a <= length b) (sort S).

(** forceBruteIntersection: src/intersection.cpp:25-42, and the same code for the fast
    tries, src/fastTrieIntersection.cpp:20-37.  Result: the intersection
    and the new content of S.  The loop counter is a uint16_t: with 65536 sets or
    more it never reaches the end. *)
Definition forceBruteIntersection (sort : list (list N) -> list (list N)) (S : list (list N))
  : result (list N * list (list N)) :=
  let S' := sort S in
  let* first := vget S' 0 in
  if N.leb 65536 (N.of_nat (length S')) then OutOfFuel
  else Ok (fold_left set_intersection (tl S') first, S').

(** The loop of binarySearch: src/barbay_and_kenyon.cpp:8-21.  [inl pos] is the
    return inside the loop, [inr (low, high)] the values after it.  [mid] is an int:
    indices of 2^31 - 1 or more are outside the model ([mid + 1] overflows). *)
Fixpoint bs_loop (fuel : nat) (array : list N) (low high x : N) : result (N + N * N) :=
  if N.leb low high then
    match fuel with
    | O => OutOfFuel
    | S fuel' =>
      let mid := (low + (high - low) / 2)%N in
      if N.leb (2 ^ 31 - 1) mid then UB Unmodelled
      else
        let* a := vgetN array mid in
        if N.eqb a x then Ok (inl mid)
        else if N.ltb a x then bs_loop fuel' array (mid + 1) high x
        else bs_loop fuel' array low (if N.eqb mid 0 then 2 ^ 64 - 1 else mid - 1)%N x
    end
  else Ok (inr (low, high)).

(** binarySearch: src/barbay_and_kenyon.cpp:7-30.  [high < 0] is never true. *)
Definition binarySearch (array : list N) (low high x size : N) : result N :=
  let* o := bs_loop (S (length array)) array low high x in
  match o with
  | inl mid => Ok mid
  | inr (low, high) =>
    if N.ltb (size - 1) low then Ok high
    else
      let* a := vgetN array low in
      let* b := vgetN array high in
      Ok (if N.ltb a b then high else low)
  end.

(** The doubling loop: src/barbay_and_kenyon.cpp:41-43. *)
Fixpoint es_loop (fuel : nat) (arr : list N) (n x i : N) : result N :=
  if N.ltb i n then
    let* a := vgetN arr i in
    if N.leb a x then
      match fuel with
      | O => OutOfFuel
      | S fuel' => es_loop fuel' arr n x (i * 2)
      end
    else Ok i
  else Ok i.

(** exponentialSearch: src/barbay_and_kenyon.cpp:33-45. *)
Definition exponentialSearch (arr : list N) (n x initial_position : N) : result N :=
  let* a := vgetN arr initial_position in
  if N.eqb a x then Ok initial_position
  else if N.ltb x a then Ok (initial_position + 1)%N
  else
    let* z := vgetN arr (n - 1) in
    if N.ltb z x then Ok (n - 1)%N
    else
      let* i := es_loop (S (length arr)) arr n x (initial_position + 1) in
      binarySearch arr (i / 2) (N.min i (n - 1)) x n.

(** The loop of barbayKenyon: src/barbay_and_kenyon.cpp:59-100.  [OutOfFuel] when
    [fuel] iterations are not enough. *)
Fixpoint bk_loop (fuel : nat) (sets : list (list N)) (k : nat) (positions : list N)
         (e : N) (i occr : nat) (out : list N) : result (list N) :=
  if N.eqb e (2 ^ 64 - 1) then Ok out
  else
    match fuel with
    | O => OutOfFuel
    | S fuel' =>
      let* set := vget sets i in
      let* p := vget positions i in
      let size := N.of_nat (length set) in
      let* pos := exponentialSearch set size e p in
      let* v := vgetN set pos in
      let occr := if N.eqb v e then S occr else occr in
      let* positions := (if N.eqb v e then vset positions i pos else Ok positions) in
      let out := if N.eqb v e && (occr =? k) then out ++ [e] else out in
      if (occr =? k) || negb (N.eqb v e) then
        let* p := vget positions i in
        if N.eqb (p + 1) size then Ok out
        else if occr =? k then
          let* e' := vgetN set (pos + 1) in
          let* positions := vset positions i (pos + 1)%N in
          bk_loop fuel' sets k positions e' ((i + 1) mod k) 1 out
        else
          let* positions := vset positions i pos in
          bk_loop fuel' sets k positions v ((i + 1) mod k) 1 out
      else bk_loop fuel' sets k positions e ((i + 1) mod k) occr out
    end.

(** barbayKenyon: src/barbay_and_kenyon.cpp:48-102. *)
Definition barbayKenyon (fuel : nat) (sets : list (list N)) (k : nat) (intersection : list N)
  : result (list N) :=
  if k =? 0 then UB DivZero
  else
    let* s0 := vget sets 0 in
    let* e := vget s0 0 in
    let* _ := vget sets 1 in
    bk_loop fuel sets k (repeat 0%N k) e 1 1 intersection.
