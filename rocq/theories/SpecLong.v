(** How much of a list a 32-bit count of its values covers.  Nothing here refers to tries. *)

From Verif Require Import Spec.

(** The number of values seen by a program that counts the [n > 0] values of a list with
    32 bits and numbers the last one [n - 1]. *)
Definition seen (n : N) : N := ((n - 1) mod 2 ^ 32 + 1)%N.

Definition seen_part (s : list N) : list N := firstn (N.to_nat (seen (N.of_nat (length s)))) s.
