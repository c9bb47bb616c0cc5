(** Properties C56, C57: constructors given lists that are not sorted, or values that are not
    below the universe. *)

From Verif Require Import Base FlatTrie LevelTrie FastTrie Spec SpecTries SpecOrder Tries KeepThms KeepSet.

(** C56.  "A trie built from a list of distinct values, in any order, decodes to the set of these
    values."  False.  What holds: it does if and only if the list is sorted; for fast tries, if
    and only if the words of the values come in order. *)
Theorem C56_flat_any_order_partial : forall (u : N) (l : list N),
  (3 <= u <= 2 ^ 48)%N -> l <> [] -> shorter 32 l -> NoDup l -> below u l ->
  exists t r, flat_build l u = Ok t /\ flat_decode t [] = Ok r /\ (is_set_of l r <-> nondecreasing l).
Proof. exact flat_any_order. Qed.
Print Assumptions C56_flat_any_order_partial.

Theorem C56_level_any_order_partial : forall (il : bool) (u : N) (l : list N),
  (2 <= u <= 2 ^ 48)%N -> l <> [] -> shorter 64 l -> NoDup l -> below u l ->
  exists t r, level_build il l u = Ok t /\ level_decode t [] = Ok r /\
    (is_set_of l r <-> nondecreasing l).
Proof. exact level_any_order. Qed.
Print Assumptions C56_level_any_order_partial.

Theorem C56_fast_any_order_partial : forall (lw : nat) (jh : option nat) (je : option bool) (u : N) (l : list N),
  fast_universe u lw -> l <> [] -> shorter 32 l -> NoDup l -> below u l ->
  exists t r, fast_build lw jh je l u = Ok t /\ fast_decode t [] = Ok r /\
    (is_set_of l r <-> words_in_order (2 ^ N.of_nat lw) l).
Proof. exact fast_any_order. Qed.
Print Assumptions C56_fast_any_order_partial.

(** What is built from any list at all: the trie, bit for bit, of the list [s] of the values
    kept.  A value becomes the least number, from the one kept before it upwards, that has all
    of its binary ones. *)
Theorem C56_flat_any_list_partial : forall (u : N) (l : list N),
  (3 <= u <= 2 ^ 48)%N -> l <> [] -> shorter 32 l ->
  exists t s r, kept 1 0 (wrapped (rounded u) l) s /\ flat_build l u = Ok t /\ flat_build s u = Ok t /\
    flat_decode t [] = Ok r /\ is_set_of s r.
Proof. exact flat_any_list. Qed.
Print Assumptions C56_flat_any_list_partial.

Theorem C56_level_any_list_partial : forall (il : bool) (u : N) (l : list N),
  (2 <= u <= 2 ^ 48)%N -> l <> [] -> shorter 64 l ->
  exists t s r, kept 1 0 (wrapped (rounded u) l) s /\ level_build il l u = Ok t /\
    level_build il s u = Ok t /\ level_decode t [] = Ok r /\ is_set_of s r.
Proof. exact level_any_list. Qed.
Print Assumptions C56_level_any_list_partial.

Theorem C56_fast_any_list_partial : forall (lw : nat) (jh : option nat) (je : option bool) (u : N) (l : list N),
  fast_universe u lw -> l <> [] -> shorter 32 l ->
  exists t s r, kept (2 ^ N.of_nat lw) 0 (wrapped (rounded u) l) s /\
    fast_build lw jh je l u = Ok t /\ fast_build lw jh je s u = Ok t /\
    fast_decode t [] = Ok r /\ is_set_of s r.
Proof. exact fast_any_list. Qed.
Print Assumptions C56_fast_any_list_partial.

(** Hence it is the trie of a set within the rounded universe, bit for bit, run-encoded or not. *)
Theorem C56_any_set_partial : forall (u : N) (v : variant) (l : list N),
  (2 <= u <= 2 ^ 48)%N /\ match v with VFlat _ => (3 <= u)%N | VLevel _ => True end ->
  l <> [] -> shorter 32 l ->
  exists r, kept_set 1 (rounded u) l r /\ r <> [] /\ plain_ok (rounded u) v r /\
    forall enc, bin_make u v enc l = bin_make (rounded u) v enc r.
Proof. exact bin_any_set. Qed.
Print Assumptions C56_any_set_partial.

Theorem C56_fast_any_set_partial : forall (u : N) (lw : nat) (l : list N),
  fast_universe u lw -> l <> [] -> shorter 32 l ->
  exists r, kept_set (2 ^ N.of_nat lw) (rounded u) l r /\ fast_universe (rounded u) lw /\
    fast_ok (rounded u) r /\
    forall jh je enc, fast_make u lw jh je enc l = fast_make (rounded u) lw jh je enc r.
Proof. exact fast_any_kept. Qed.
Print Assumptions C56_fast_any_set_partial.

(** [kept] relates a list to at most one list. *)
Theorem C56_kept_unique : forall w p l s s', kept w p l s -> kept w p l s' -> s = s'.
Proof. exact KeepOrder.kept_unique. Qed.
Print Assumptions C56_kept_unique.

Theorem C56_any_order_refuted : exists (u : N) (l : list N) t r,
  (3 <= u <= 2 ^ 48)%N /\ l <> [] /\ shorter 32 l /\ NoDup l /\ below u l /\
  flat_build l u = Ok t /\ flat_decode t [] = Ok r /\ ~ is_set_of l r.
Proof. exact any_order_fails. Qed.
Print Assumptions C56_any_order_refuted.

(** 2 after 5 becomes 6; 20, 9, 11 (words 2, 1, 1) become 20, 25, 27 with words of eight, and
    9, 8, 20 are in the order of their words. *)
Example C56_example :
  kept 1 0 [5; 2; 7]%N [5; 6; 7]%N /\
  (let* t := flat_build [5; 2; 7]%N 8 in flat_decode t []) = Ok [5; 6; 7]%N /\
  (let* t := level_build false [5; 2; 7]%N 8 in level_decode t []) = Ok [5; 6; 7]%N /\
  (let* t := fast_build 3 None None [20; 9; 11]%N 32 in fast_decode t []) = Ok [20; 25; 27]%N /\
  (let* t := fast_build 3 None None [9; 8; 20]%N 32 in fast_decode t []) = Ok [8; 9; 20]%N /\
  bin_make 7 (VFlat false) true [5; 2; 7]%N = bin_make 8 (VFlat false) true [5; 6; 7]%N /\
  fast_make 31 3 None None true [20; 9; 11]%N = fast_make 32 3 None None true [20; 25; 27]%N.
Proof. split; [exact kept_example|]. repeat split; vm_compute; reflexivity. Qed.

(** C57.  "Values at or above the universe size are kept out of the trie, and do not disturb the
    members."  False.  What holds for every increasing list: no member of the universe, rounded
    up to a power of two, is lost; the rest of the list comes back only if it lies in the rounded
    universe as well. *)
Theorem C57_flat_outside_partial : forall (u : N) (s : list N),
  (3 <= u <= 2 ^ 48)%N -> s <> [] -> shorter 32 s -> increasing s ->
  exists t r, flat_build s u = Ok t /\ flat_decode t [] = Ok r /\
    (forall x, In x s -> (x < rounded u)%N -> In x r) /\ below (rounded u) r /\
    (r = s <-> below (rounded u) s).
Proof. exact flat_outside. Qed.
Print Assumptions C57_flat_outside_partial.

Theorem C57_level_outside_partial : forall (il : bool) (u : N) (s : list N),
  (2 <= u <= 2 ^ 48)%N -> s <> [] -> shorter 64 s -> increasing s ->
  exists t r, level_build il s u = Ok t /\ level_decode t [] = Ok r /\
    (forall x, In x s -> (x < rounded u)%N -> In x r) /\ below (rounded u) r /\
    (r = s <-> below (rounded u) s).
Proof. exact level_outside. Qed.
Print Assumptions C57_level_outside_partial.

Theorem C57_fast_outside_partial : forall (lw : nat) (jh : option nat) (je : option bool) (u : N) (s : list N),
  fast_universe u lw -> s <> [] -> shorter 32 s -> increasing s ->
  exists t r, fast_build lw jh je s u = Ok t /\ fast_decode t [] = Ok r /\
    (forall x, In x s -> (x < rounded u)%N -> In x r) /\ below (rounded u) r /\
    (r = s <-> below (rounded u) s).
Proof. exact fast_outside. Qed.
Print Assumptions C57_fast_outside_partial.

(** A value outside that no one gave appears: 17 in a universe of 12 values is kept as 3, after 2. *)
Theorem C57_outside_refuted : exists (u : N) (s : list N) t r x,
  (3 <= u <= 2 ^ 48)%N /\ s <> [] /\ shorter 32 s /\ increasing s /\
  flat_build s u = Ok t /\ flat_decode t [] = Ok r /\ In x r /\ (x < u)%N /\ ~ In x s.
Proof. exact outside_fails. Qed.
Print Assumptions C57_outside_refuted.

Example C57_example :
  (increasing [2; 17]%N /\ rounded 12 = 16%N) /\
  (let* t := flat_build [2; 17]%N 12 in flat_decode t []) = Ok [2; 3]%N /\
  (let* t := level_build true [2; 13; 15]%N 12 in level_decode t []) = Ok [2; 13; 15]%N /\
  (let* t := fast_build 3 None None [2; 17]%N 12 in fast_decode t []) = Ok [1; 2]%N.
Proof. repeat split; repeat constructor; vm_compute; reflexivity. Qed.
