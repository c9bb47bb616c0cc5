(** Specification for C96: how much of a stored collection of fast tries the input decides. *)

From Verif Require Import Base FastTrie Tries Serialize Tools Spec.

(** Both runs end in the same way; if they end normally, what they give is related. *)
Definition same_way {A} (R : A -> A -> Prop) (x y : result A) : Prop :=
  match x, y with
  | Ok a, Ok b => R a b
  | UB e, UB e' => e = e'
  | OutOfFuel, OutOfFuel => True
  | _, _ => False
  end.

(** The same bytes, but for those at the places [free]. *)
Definition same_but (free : list nat) (r r' : list N) : Prop :=
  length r = length r' /\ forall p, ~ In p free -> nth_error r p = nth_error r' p.

(** The places, in a stored fast trie, of members that nothing wrote: byte 4, and before
    encodeRuns() also bytes 2 and 3. *)
Definition unset_bytes (runs : bool) : list nat := if runs then [4] else [2; 3; 4].

(** Two files of fast tries with one header of 20 bytes; record by record, the stored tries
    have the same bytes but for these.  A record has at least 14 bytes. *)
Definition same_files (runs : bool) (f f' : list N) : Prop :=
  exists head records records',
    f = head ++ concat records /\ f' = head ++ concat records' /\ length head = 20 /\
    Forall (fun r => 14 <= length r) records /\
    Forall2 (same_but (unset_bytes runs)) records records'.

(** The bytes that two unset members can hold: a uint16_t and a byte. *)
Definition held_ok (v : N * N) : Prop := (fst v < 2 ^ 16)%N /\ (snd v < 256)%N.

(** The stored tries of the lists, when the memory of each holds the values beside it. *)
Definition records_of (c : codecs) (u : N) (lw : nat) (runs : bool) (kept : list (list N))
           (held : list (N * N)) : result (list (list N)) :=
  each_ok (fun p => let* t := fast_make u lw None None runs (fst p) in
                    Ok (fst (fast_serialize c (fst (snd p)) (snd (snd p)) t)))
          (combine kept held).

(** The header: rank type, two flags, word size, number of lists, first word and universe. *)
Definition fast_head (rank_type : N) (runs levelwise : bool) (lw : nat) (n : nat) (one u : N) : list N :=
  le_bytes 4 rank_type ++ [bool_byte runs] ++ [bool_byte levelwise] ++ le_bytes 2 (wbits lw)
  ++ le_bytes 4 (N.of_nat n) ++ le_bytes 4 one ++ le_bytes 4 u.
