(** Prelude of the model: outcomes of C++ computations, vectors, bit vectors,
    counted loops.  Nothing here is specific to one file of /repo; the comments
    say which C++ or sdsl construct each definition stands for. *)

From Coq Require Export List Arith NArith Bool Lia.
Export ListNotations.

(** Why a C++ execution has no defined result.  No code of its own: accesses such as
    include/flatBinTrie.hpp:92 (index), include/flatBinTrie.hpp:67 (unset variable),
    src/intersection.cpp:76 (shift), tools/intersection_query_log.cpp:215 (bool) and
    src/intersection.cpp:423 (delete[]) can end this way. *)
Inductive ub :=
| OutOfBounds      (* vector, array or bit-vector access past the end *)
| Indeterminate    (* use of an uninitialised variable or member *)
| BadShift         (* shift count negative or >= 64 *)
| BadCast          (* floating value not representable in the target integer *)
| NullDeref        (* use of a null or invalid pointer *)
| DivZero          (* integer division by zero *)
| BadFree          (* double free *)
| Dangling         (* use of a destroyed object *)
| Unmodelled.      (* outside the range covered by the model *)

(** Outcome of a C++ computation.  [OutOfFuel] is only produced by loops with an explicit bound
    and is never a normal result.  No code of its own: what calling any function of /repo gives,
    e.g. decode, include/binaryTrie.hpp:28. *)
Inductive result (A : Type) :=
| Ok (a : A)
| UB (e : ub)
| OutOfFuel.
Arguments Ok {A} a.
Arguments UB {A} e.
Arguments OutOfFuel {A}.

(** No code of its own: the sequence of two statements, e.g. include/flatBinTrie.hpp:280-282. *)
Definition bind {A B} (m : result A) (f : A -> result B) : result B :=
  match m with
  | Ok a => f a
  | UB e => UB e
  | OutOfFuel => OutOfFuel
  end.

Notation "'let*' x := m 'in' k" := (bind m (fun x => k))
  (at level 200, x pattern, m at level 100, k at level 200, right associativity).

(** [v[i]] on a std::vector, array or sdsl bit vector.  E.g. include/flatBinTrie.hpp:69,
    include/binTrie.hpp:153, src/intersection.cpp:57. *)
Definition vget {A} (v : list A) (i : nat) : result A :=
  match nth_error v i with
  | Some a => Ok a
  | None => UB OutOfBounds
  end.

(** [v[i]] where the index is a 64-bit value that may be huge.  E.g.
    tools/intersection_query_log.cpp:133, include/flatBinTrie.hpp:69. *)
Definition vgetN {A} (v : list A) (i : N) : result A :=
  if N.ltb i (N.of_nat (length v)) then vget v (N.to_nat i) else UB OutOfBounds.

(** [v[i] = x].  E.g. include/flatBinTrie.hpp:92, include/binTrie.hpp:83,
    src/intersection.cpp:60. *)
Definition vset {A} (v : list A) (i : nat) (x : A) : result (list A) :=
  if i <? length v then Ok (firstn i v ++ x :: skipn (S i) v)
  else UB OutOfBounds.

(** [v.pop_back()] (undefined on an empty vector).  include/flatBinTrie.hpp:310-312,
    include/binTrie.hpp:273-275, include/fastBinaryTrie.hpp:277-281. *)
Definition vpop {A} (v : list A) : result (list A) :=
  match v with
  | [] => UB OutOfBounds
  | _ => Ok (removelast v)
  end.

(** Read of a possibly uninitialised variable.  E.g. ll, lr, rl and rr:
    include/flatBinTrie.hpp:67-82; existLeft and existRight: src/intersection.cpp:146-182. *)
Definition oget {A} (o : option A) : result A :=
  match o with
  | Some a => Ok a
  | None => UB Indeterminate
  end.

(** Read of an element of an array of possibly uninitialised cells.  E.g.
    src/intersection.cpp:53-64, 88-95. *)
Definition aget {A} (v : list (option A)) (i : nat) : result A :=
  let* o := vget v i in oget o.

(** [bit_vector(n, 0)].  include/flatBinTrie.hpp:38-39, include/binTrie.hpp:34,
    include/fastBinaryTrie.hpp:42. *)
Definition bv_make (n : nat) : list bool := repeat false n.

(** [bit_vector::resize(n)]; every call in the modelled code shrinks.
    include/flatBinTrie.hpp:138-139, include/binTrie.hpp:111, include/fastBinaryTrie.hpp:146. *)
Definition bv_resize (v : list bool) (n : nat) : list bool :=
  firstn n v ++ repeat false (n - length v).

(** No code of its own: the number of ones, which sdsl counts for
    include/flatBinTrie.hpp:140. *)
Fixpoint count_true (v : list bool) : nat :=
  match v with
  | [] => 0
  | true :: v' => S (count_true v')
  | false :: v' => count_true v'
  end.

(** sdsl [rank_support(i)]: number of ones in [0,i), defined for i <= size.  Called at
    include/flatBinTrie.hpp:213, 225, include/binTrie.hpp:166, 174,
    include/fastBinaryTrie.hpp:181, 189. *)
Definition rank1 (v : list bool) (i : nat) : result nat :=
  if i <=? length v then Ok (count_true (firstn i v)) else UB OutOfBounds.

(** No code of its own: the conversion of a bool or a bit to an integer, e.g.
    include/flatBinTrie.hpp:198-201. *)
Definition b2N (b : bool) : N := if b then 1%N else 0%N.

(** The two bits of a node as the integer [(left << 1) | right].
    include/flatBinTrie.hpp:198-201, include/binTrie.hpp:152-154,
    include/fastBinaryTrie.hpp:162-170. *)
Definition node_code (l r : bool) : N := N.lor (N.shiftl (b2N l) 1) (b2N r).

(** [for (i = start; i < start + n; ++i) s = f(i, s)].  E.g. src/intersection.cpp:56-68,
    include/parallel_for.hpp:43-61. *)
Fixpoint for_loop {S : Type} (n start : nat) (f : nat -> S -> result S) (s : S)
  : result S :=
  match n with
  | O => Ok s
  | Datatypes.S n' => let* s' := f start s in for_loop n' (Datatypes.S start) f s'
  end.

(** [(uint64_t)1 << k].  E.g. include/flatBinTrie.hpp:405, src/intersection.cpp:76, 99. *)
Definition shl1 (k : nat) : result N :=
  if k <? 64 then Ok (N.shiftl 1 (N.of_nat k)) else UB BadShift.

(** The values [below, below+1, ..., below+n-1].  The values of the loops at
    include/flatBinTrie.hpp:425-427 and src/intersection.cpp:79-81. *)
Fixpoint nrange (below : N) (n : nat) : list N :=
  match n with
  | O => []
  | S n' => below :: nrange (N.succ below) n'
  end.

(** [for (uint64_t i = below; i <= above; ++i) v.push_back(i)].  Simplification: with [above] =
    2^64-1 the loop does not end; that needs a trie of height 64 or more.
    include/flatBinTrie.hpp:425-427, include/binTrie.hpp:380-382,
    include/fastBinaryTrie.hpp:396-398, src/intersection.cpp:79-81,
    src/fastTrieIntersection.cpp:88-90. *)
Definition push_range (v : list N) (below above : N) : list N :=
  v ++ nrange below (N.to_nat (N.succ above - below)).

(** Height of the trie over universe [u]:
    include/flatBinTrie.hpp:32, include/flatBinTrie_il.hpp:30,
    include/binTrie.hpp:30, include/binTrie_il.hpp:33,
    include/fastBinaryTrie.hpp:38: [floor(log2(u - 1)) + 1].
    [u] is a uint64_t: u = 1 gives log2(0) = -inf, whose conversion to uint16_t
    is undefined; u = 0 wraps to 2^64-1.  Simplification: log2 is computed in
    double precision by the code; it is exact for u <= 2^48 and the model stops
    there. *)
Definition height_of (u : N) : result nat :=
  if N.eqb u 1 then UB BadCast
  else if N.eqb u 0 then UB Unmodelled
  else if N.ltb (2 ^ 48) u then UB Unmodelled
  else Ok (N.to_nat (N.succ (N.log2 (u - 1)))).
