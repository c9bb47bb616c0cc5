(** The part of the breadth-first construction shared, line by line, by the
    constructors of all trie variants. *)

From Verif Require Import Base.

(** A [tuple<uint64_t,uint64_t,uint64_t>] (l, r, n) of the construction queue: the segment
    set[l..r] and its number of elements.  include/flatBinTrie.hpp:41-44,
    include/binTrie.hpp:38-42, include/fastBinaryTrie.hpp:44-47. *)
Definition seg := (N * N * N)%type.

(** Locals written by the splitting loop: left_elements, right_elements and
    ll, lr, rl, rr (the last four start uninitialised).
    include/flatBinTrie.hpp:62-67. *)
Record split_out := mkSplit {
  so_left  : N;
  so_right : N;
  so_ll : option N;
  so_lr : option N;
  so_rl : option N;
  so_rr : option N
}.

(** Their values before the loop: include/flatBinTrie.hpp:62-67. *)
Definition split_init : split_out := mkSplit 0 0 None None None None.

(** The arithmetic of uint64_t: include/flatBinTrie.hpp:66-82. *)
Definition wrap64 (x : N) : N := N.modulo x (2 ^ 64).

(** The loop [for (i = l; i < r+1; ++i)] that looks for the first element whose
    bit number [sh] is set.
    include/flatBinTrie.hpp:68-82, include/flatBinTrie_il.hpp:66-80,
    include/binTrie.hpp:64-78, include/binTrie_il.hpp:66-80,
    include/fastBinaryTrie.hpp:81-95.
    [(set[i] >> sh) & 1] is [N.testbit].  [r+1] wraps at 2^64, which happens for
    the empty set of a level-wise trie, where r = 2^64-1. *)
Fixpoint split_loop (fuel : nat) (set : list N) (sh : nat) (l r i : N)
         (o : split_out) : result split_out :=
  if N.ltb i (wrap64 (r + 1)) then
    match fuel with
    | O => OutOfFuel
    | S fuel' =>
      let* x := vgetN set i in
      if N.testbit x (N.of_nat sh) then
        Ok (mkSplit (so_left o) (r - i + 1) (so_ll o) (so_lr o) (Some i) (Some r))
      else
        split_loop fuel' set sh l r (i + 1)
          (mkSplit (so_left o + 1) (so_right o)
                   (if N.eqb i l then Some l else so_ll o) (Some i)
                   (so_rl o) (so_rr o))
    end
  else Ok o.

(** Same, with the shift count [j-1] of a [uint8_t j]: j = 0 would shift by -1 and j > 64 by 64
    or more.  include/flatBinTrie.hpp:66-82, include/binTrie.hpp:62-78. *)
Definition split (set : list N) (j : nat) (l r : N) : result split_out :=
  if (j =? 0) || (64 <? j) then UB BadShift
  else split_loop (S (length set)) set (j - 1) l r l split_init.

(** [left_split(ll, lr, left_elements)] when left_elements > 0.  include/flatBinTrie.hpp:93,
    include/binTrie.hpp:85, include/fastBinaryTrie.hpp:104. *)
Definition left_seg (o : split_out) : result seg :=
  let* ll := oget (so_ll o) in
  let* lr := oget (so_lr o) in
  Ok (ll, lr, so_left o).

(** [right_split(rl, rr, right_elements)] when right_elements > 0.  include/flatBinTrie.hpp:111,
    include/binTrie.hpp:100, include/fastBinaryTrie.hpp:120. *)
Definition right_seg (o : split_out) : result seg :=
  let* rl := oget (so_rl o) in
  let* rr := oget (so_rr o) in
  Ok (rl, rr, so_right o).
