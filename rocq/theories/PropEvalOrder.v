(** Property C72: serialize() of flat tries, and the order of evaluation. *)

From Verif Require Import Base FlatTrie LevelTrie FastTrie Tries Serialize EvalOrder Spec SpecFiles SpecMeasures SpecLayout
  EvalOrderThms.

(** C72.  "What serialize() writes does not depend on the compiler, and load() reads it back."
    False.  From left to right serialize() is as in C19. *)
Theorem C72_left_first_partial : forall c t, flat_serialize_order c false t = flat_serialize c t.
Proof. exact left_first. Qed.
Print Assumptions C72_left_first_partial.

(** The value returned is the number of bytes in either order. *)
Theorem C72_count : forall c o t,
  snd (flat_serialize_order c o t) = N.of_nat (length (fst (flat_serialize_order c o t))).
Proof. exact order_count. Qed.
Print Assumptions C72_count.

(** From right to left, flatBinTrie (both bit vectors have the same format): whenever load()
    reads the bytes at all, the last level and the others are exchanged. *)
Theorem C72_right_first_refuted : forall c u enc s t old rest t' rest',
  codecs_ok c -> c_bv c = c_last c ->
  bin_make u (VFlat false) enc s = Ok (BFlat t) -> fits (BFlat t) ->
  flat_load c old (fst (flat_serialize_order c true t) ++ rest) = Ok (t', rest') ->
  f_height t' = f_height t /\ f_bTrie t' = f_lastLevel t /\ f_lastLevel t' = f_bTrie t.
Proof. exact right_first. Qed.
Print Assumptions C72_right_first_refuted.

(** So a plain trie comes back exactly when the bits of its last level are those of all the
    others together. *)
Theorem C72_right_first_partial : forall c u s old rest,
  codecs_ok c -> c_bv c = c_last c ->
  (3 <= u <= 2 ^ 48)%N -> s <> [] -> increasing s -> below u s -> shorter 32 s ->
  exists t, flat_build s u = Ok t /\
    (flat_load c old (fst (flat_serialize_order c true t) ++ rest) = Ok (t, rest) <->
     concat (removelast (set_levels (digits u) s)) = last (set_levels (digits u) s) []).
Proof. exact right_first_exact. Qed.
Print Assumptions C72_right_first_partial.

(** The set {1, 4, 5, 6, 7, 9} below 16 comes back as {8, 9, 10, 11, 14}; {5, 6, 7} below 8
    comes back. *)
Example C72_example :
  codecs_ok plain_codecs /\ c_bv plain_codecs = c_last plain_codecs /\
  (exists t t', bin_make 16 (VFlat false) false [1; 4; 5; 6; 7; 9]%N = Ok (BFlat t) /\ fits (BFlat t) /\
     flat_load plain_codecs t (fst (flat_serialize_order plain_codecs true t) ++ [7]%N) = Ok (t', [7]%N) /\
     flat_decode t [] = Ok [1; 4; 5; 6; 7; 9]%N /\ flat_decode t' [] = Ok [8; 9; 10; 11; 14]%N) /\
  concat (removelast (set_levels (digits 8) [5; 6; 7]%N)) = last (set_levels (digits 8) [5; 6; 7]%N) [] /\
  concat (removelast (set_levels (digits 8) [5; 6]%N)) <> last (set_levels (digits 8) [5; 6]%N) [].
Proof.
  split; [exact SerializeThms.plain_codecs_ok|]. split; [reflexivity|]. split.
  - do 2 eexists. split; [vm_compute; reflexivity|]. split; [split; reflexivity|].
    split; [vm_compute; reflexivity|]. split; vm_compute; reflexivity.
  - split; [vm_compute; reflexivity|vm_compute; discriminate].
Qed.
