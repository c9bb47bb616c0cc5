(** Preconditions of the property theorems about tries. *)

From Verif Require Import Base FlatTrie LevelTrie FastTrie Tries Spec.

(** The sets a variant can hold: flat tries need a nonempty set of fewer than 2^32
    values and a universe of at least three values. *)
Definition plain_ok (u : N) (v : variant) (s : list N) : Prop :=
  increasing s /\ below u s /\
  match v with
  | VFlat _ => (3 <= u)%N /\ s <> [] /\ shorter 32 s
  | VLevel _ => True
  end.

(** The sets a variant can hold after encodeRuns ([enc] = true), or plain
    ([enc] = false) in an intersection over runs: nonempty, and for an encoded flat
    trie some aligned block of four values is neither full nor empty. *)
Definition stored_ok (u : N) (v : variant) (enc : bool) (s : list N) : Prop :=
  plain_ok u v s /\ s <> [] /\
  match v with
  | VFlat _ => enc = true -> mixed_block s
  | VLevel _ => True
  end.

(** The universes a fast trie with words of 2^lw bits can serve. *)
Definition fast_universe (u : N) (lw : nat) : Prop :=
  In lw [3; 4; 5; 6] /\ (2 ^ N.of_nat lw < 2 * u <= 2 * 2 ^ 48)%N.

(** The sets it can hold. *)
Definition fast_ok (u : N) (s : list N) : Prop :=
  s <> [] /\ increasing s /\ below u s /\ shorter 32 s.

(** No aligned block of [b] values is contained in [s]. *)
Definition no_block (b : N) (s : list N) : Prop :=
  forall q, exists x, (x / b = q)%N /\ ~ In x s.

(** Size of the universe rounded up to a power of two. *)
Definition rounded (u : N) : N := (2 ^ N.log2_up u)%N.

(** The blocks that a parallel intersection on [hc] threads never splits further. *)
Definition thread_block (u hc : N) : N := (rounded u / 2 ^ N.log2 hc)%N.

(** One trie of a family: its variant and its set ([pitem]); whether its runs are
    encoded as well ([bitem]). *)
Definition pitem := (variant * list N)%type.
Definition make_pitem (u : N) (x : pitem) : result bin_trie := bin_build (fst x) (snd x) u.
Definition pitem_ok (u : N) (x : pitem) : Prop := plain_ok u (fst x) (snd x).

Definition bitem := (variant * bool * list N)%type.
Definition make_bitem (u : N) (x : bitem) : result bin_trie := bin_make u (fst (fst x)) (snd (fst x)) (snd x).
Definition bitem_ok (u : N) (x : bitem) : Prop := stored_ok u (fst (fst x)) (snd (fst x)) (snd x).

(** One fast trie: the contents of the memory of the two members the constructor may leave
    unwritten, whether runs are encoded, and the set. *)
Definition fitem := (option nat * option bool * bool * list N)%type.
Definition f_enc (x : fitem) : bool := snd (fst x).
Definition make_fitem (u : N) (lw : nat) (x : fitem) : result fast :=
  fast_make u lw (fst (fst (fst x))) (snd (fst (fst x))) (f_enc x) (snd x).
Definition fitem_ok (u : N) (x : fitem) : Prop := fast_ok u (snd x).
