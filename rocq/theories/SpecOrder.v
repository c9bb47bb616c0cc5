(** What a constructor keeps of a list that need not be sorted or below the universe.
    Nothing here refers to tries. *)

From Verif Require Import Spec.

(** Every one of the binary digits of [x] is also in [y]. *)
Definition covers (y x : N) : Prop := N.land x y = x.

(** [y] is the least number from [p] upwards that covers [x]. *)
Definition least_cover (p x y : N) : Prop :=
  (p <= y)%N /\ covers y x /\ forall z, (p <= z)%N -> covers z x -> (y <= z)%N.

(** [kept w p l s]: with words of [w] values, each value of [l] is kept as the value at
    the same place in [s].  The place within the word never changes; the word becomes the
    least one, from the word [p] kept last upwards, whose number covers that of the value's
    word.  With [w] = 1 words are single values. *)
Inductive kept (w : N) : N -> list N -> list N -> Prop :=
| kept_nil : forall p, kept w p [] []
| kept_cons : forall p x l q s,
    least_cover p (x / w) q -> kept w q l s ->
    kept w p (x :: l) (q * w + x mod w :: s)%N.

(** The values of [l] in a universe of [r] values, where larger ones wrap around. *)
Definition wrapped (r : N) (l : list N) : list N := map (fun x => x mod r)%N l.

(** The words of the values of [l], in the order of [l], never go down. *)
Definition words_in_order (w : N) (l : list N) : Prop :=
  nondecreasing (map (fun x => x / w)%N l).

(** The set kept by a trie over a universe rounded up to [r]: [s'] are the values of [l] as
    kept, in order and without repetition. *)
Definition kept_set (w r : N) (l s' : list N) : Prop :=
  exists s, kept w 0 (wrapped r l) s /\ is_set_of s s'.
