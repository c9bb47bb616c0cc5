(** What the theorems about files that end too early assume of the stored formats. *)

From Verif Require Import Base Serialize Tools SpecFiles.

(** load() does not succeed on a proper part of what serialize() wrote, nor on
    nothing. *)
Definition bv_needs_all (c : bv_codec) : Prop :=
  (forall v p q, bv_fits v -> bv_ser c v = p ++ q -> q <> [] -> forall x, bv_load c p <> Ok x) /\
  (forall x, bv_load c [] <> Ok x).

(** The same of a rank structure; one that stores nothing (rank_support_il) reads
    nothing. *)
Definition rank_needs_all (c : rank_codec) : Prop :=
  (forall v p q, bv_fits v -> rk_ser c v = p ++ q -> q <> [] -> forall x, rk_load c p v <> Ok x) /\
  (forall v r rest, rk_load c [] v = Ok (r, rest) -> rest = []).

Definition codecs_need_all (c : codecs) : Prop :=
  bv_needs_all (c_bv c) /\ bv_needs_all (c_last c) /\ rank_needs_all (c_rank c).

Definition formats_need_all (fm : formats) : Prop :=
  codecs_need_all (fm_v fm) /\ codecs_need_all (fm_v5 fm) /\ forall b, codecs_need_all (fm_il fm b).

(** A file of which only the first [p] bytes were written. *)
Definition cut_at (p : nat) (file : list N) : list N := firstn p file.
