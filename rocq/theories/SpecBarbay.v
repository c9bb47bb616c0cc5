(** Specification for C27: the families of sets and the outcomes of a call. *)

From Verif Require Import Base Spec.

(** At least two nonempty increasing sets, short enough for the int positions of the
    search, of values below the one that ends the walk. *)
Definition bk_family (sets : list (list N)) : Prop :=
  2 <= length sets /\ Forall increasing sets /\
  Forall (fun s => (N.of_nat (length s) < 2 ^ 31)%N) sets /\
  Forall (fun s => s <> []) sets /\
  Forall (Forall (fun x => x < 2 ^ 64 - 1)%N) sets.

(** A set of one value after the start of the first set, or sets that do not all end
    with the same value. *)
Definition bk_risky (first : list N) (others : list (list N)) : Prop :=
  (exists s, In s others /\ length s = 1 /\ (hd 0 first < hd 0 s)%N) \/
  (exists s t, In s (first :: others) /\ In t (first :: others) /\ (last s 0 < last t 0)%N).

(** All the common values, or all but the smallest, which is not in front in the first
    set and is in front in another. *)
Definition all_but_first (first : list N) (others : list (list N)) (r : list N) : Prop :=
  is_intersection (first :: others) r \/
  exists x, is_intersection (first :: others) (x :: r) /\ (hd 0 first < x)%N /\
    exists s, In s others /\ hd 0%N s = x.

(** The values that the first pass over the sets goes by.  It looks for [e] in each of
    [others] in turn.  A set that starts after [e] is entered at its second value, which is
    looked for from then on; otherwise it goes on with the first value of the set that is at
    least [e], or the last of the set if there is none. *)
Fixpoint passed_by (e : N) (others : list (list N)) : list N :=
  match others with
  | [] => []
  | s :: rest =>
    if (e <? hd 0 s)%N then hd 0%N s :: passed_by (nth 1 s 0%N) rest
    else passed_by (hd (last s 0%N) (filter (N.leb e) s)) rest
  end.

(** Whether the first pass reads outside a set: it does when it comes to a set of one value
    after [e].  A set of one value before [e] ends the call. *)
Fixpoint reads_past (e : N) (others : list (list N)) : bool :=
  match others with
  | [] => false
  | s :: rest =>
    if (e <? hd 0 s)%N then (length s =? 1) || reads_past (nth 1 s 0%N) rest
    else if (last s 0 <? e)%N && (length s =? 1) then false
    else reads_past (hd (last s 0%N) (filter (N.leb e) s)) rest
  end.
