(** Model of the size measures of tools/measures.cpp and tools/pom.cpp. *)

From Verif Require Import Base FlatTrie.

(** [floor(log2(g))] used as an integer: tools/measures.cpp:25, 33, 69-70,
    tools/pom.cpp:99, 104.  log2(0) is -inf and its conversion undefined.
    Simplification: log2 is a double in the code; its floor is exact up to 2^48 and
    the model stops there.  The sums are also formed in double precision, which is
    exact below 2^53; the model adds without bound. *)
Definition floor_log2 (g : N) : result N :=
  if N.eqb g 0 then UB BadCast
  else if N.ltb (2 ^ 48) g then UB Unmodelled
  else Ok (N.log2 g).

(** [a - b] on uint64_t.  tools/measures.cpp:28-29, 60-66. *)
Definition sub64 (a b : N) : N := ((a + 2 ^ 64 - b) mod 2 ^ 64)%N.

(** The loop of Gap: tools/measures.cpp:26-35.  [i] is a uint32_t: for vectors of
    2^32 elements or more the code does not terminate; the model ignores this. *)
Fixpoint gap_loop (x_i1 : N) (v : list N) (gap : N) : result N :=
  match v with
  | [] => Ok gap
  | x_i :: v' =>
    let g_i := sub64 (sub64 x_i x_i1) 1 in
    let g_i := if N.eqb g_i 0 then 1%N else g_i in
    let* b := floor_log2 g_i in
    gap_loop x_i v' (gap + (b + 1))
  end.

(** Gap: tools/measures.cpp:15-37. *)
Definition Gap (v : list N) : result N :=
  match v with
  | [] => UB OutOfBounds
  | x :: v' =>
    let g_1 := if N.leb x 0 then 1%N else x in
    let* b := floor_log2 g_1 in
    gap_loop x v' (0 + (b + 1))
  end.

(** The loop of Rle: tools/measures.cpp:58-74. *)
Fixpoint rle_loop (v : list N) (x runLength rle : N) : result N :=
  match v with
  | [] => Ok rle
  | x_i :: v' =>
    let delta := sub64 x_i x in
    if N.eqb delta 1 then rle_loop v' x_i (runLength + 1) rle
    else
      let sub0 := sub64 (sub64 delta 1) 1 in
      let sub1 := sub64 runLength 1 in
      let sub0 := if N.eqb sub0 0 then 1%N else sub0 in
      let sub1 := if N.eqb sub1 0 then 1%N else sub1 in
      let* b0 := floor_log2 sub0 in
      let* b1 := floor_log2 sub1 in
      rle_loop v' x_i 1 (rle + (b0 + 1) + (b1 + 1))
  end.

(** Rle: tools/measures.cpp:39-92. *)
Definition Rle (v : list N) : result N :=
  match v with
  | [] => UB OutOfBounds
  | x :: v' =>
    if N.eqb x 0 then rle_loop v' 0 1 0
    else rle_loop v 0 1 0
  end.

(** Trie: tools/measures.cpp:95-104. *)
Definition Trie (v : list N) (u : N) (encodeRuns : bool) : result nat :=
  let* t := flat_build v u in
  let* t := (if encodeRuns then flat_encodeRuns t else Ok t) in
  flat_trieMeasure t.

(** The loop of prefixOf: tools/pom.cpp:14-24. *)
Fixpoint prefixOf_loop (i : nat) (x y : N) (shift : nat) : result N :=
  match i with
  | O => Ok x
  | S i' =>
    let bx := N.land (N.shiftr x (N.of_nat i')) 1 in
    let by' := N.land (N.shiftr y (N.of_nat i')) 1 in
    if N.eqb bx by' then prefixOf_loop i' x y (S shift)
    else if 64 <=? shift then UB BadShift
    else Ok (N.land x (N.shiftr (2 ^ 64 - 1) (N.of_nat shift)))
  end.

(** prefixOf: tools/pom.cpp:9-26, for uint_type = uint64_t.  Shifting the values by
    64 or more is undefined. *)
Definition prefixOf (x y : N) (nBits : nat) : result N :=
  if 64 <? nBits then UB BadShift else prefixOf_loop nBits x y 0.

(** The suffixes of one list and the size of their Elias-gamma codes:
    tools/pom.cpp:94-106.  [prev] is s[i-1]. *)
Fixpoint pom_loop (prev : option N) (v : list N) (sp : list N) (bits : N)
  : result (list N * N) :=
  match v with
  | [] => Ok (sp, bits)
  | x :: v' =>
    let* xp := match prev with None => Ok x | Some y => prefixOf x y 64 end in
    let* b := floor_log2 xp in
    pom_loop (Some x) v' (sp ++ [xp]) (bits + (2 * b + 1))
  end.

(** From the first value on: tools/pom.cpp:94-106. *)
Definition pom_list (v : list N) : result (list N * N) := pom_loop None v [] 0.
