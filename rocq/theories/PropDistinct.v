(** Different sets are stored as different tries: C101. *)

From Verif Require Import Base FlatTrie LevelTrie FastTrie Tries Serialize Spec SpecTries SpecMeasures
  SpecFiles SpecDistinct DistinctThms EmptyThms.

(** C101.  Two tries of bits, of any kinds, over any universes, with or without encoded
    runs: if they have the same number of levels and the same bits, they were made of the
    same set.  Also where a trie with encoded runs cannot be decoded (C06, C33).  Conversely the
    set, the number of levels and run encoding decide the bits, whatever the kind. *)
Theorem C101_bits : forall u v enc s u' v' enc' s',
  (2 <= u <= 2 ^ 48)%N -> plain_ok u v s ->
  (2 <= u' <= 2 ^ 48)%N -> plain_ok u' v' s' ->
  exists t t', bin_make u v enc s = Ok t /\ bin_make u' v' enc' s' = Ok t' /\
    (stored_bits t = stored_bits t' -> s = s') /\
    (s = s' -> digits u = digits u' -> enc = enc' -> stored_bits t = stored_bits t').
Proof. exact all_bits. Qed.
Print Assumptions C101_bits.

(** The same for fast tries with words of one size, whatever their members held before. *)
Theorem C101_fast_bits : forall lw u jh je enc s u' jh' je' enc' s',
  fast_universe u lw -> fast_ok u s -> fast_universe u' lw -> fast_ok u' s' ->
  exists t t', fast_make u lw jh je enc s = Ok t /\ fast_make u' lw jh' je' enc' s' = Ok t' /\
    (fast_stored_bits t = fast_stored_bits t' -> s = s') /\
    (s = s' -> digits u = digits u' -> enc = enc' -> fast_stored_bits t = fast_stored_bits t').
Proof. exact fast_bits_decide. Qed.
Print Assumptions C101_fast_bits.

(** Files of tries of different sets differ, and none is the beginning of the other: a
    file cannot be taken for one of another set, nor can a part of it. *)
Theorem C101_files : forall c v u enc s u' enc' s',
  codecs_ok c -> v <> VLevel true ->
  (2 <= u <= 2 ^ 48)%N -> plain_ok u v s ->
  (2 <= u' <= 2 ^ 48)%N -> plain_ok u' v s' ->
  exists t t' f f' n n', bin_make u v enc s = Ok t /\ bin_make u' v enc' s' = Ok t' /\
    bin_serialize c t = Ok (f, n) /\ bin_serialize c t' = Ok (f', n') /\
    (s <> s' -> ~ exists e, f' = f ++ e).
Proof. exact all_files. Qed.
Print Assumptions C101_files.

(** For fast tries too, whatever the bytes of members never written. *)
Theorem C101_fast_files : forall c lw u jh je enc s j1 j2 u' jh' je' enc' s' j1' j2',
  codecs_ok c ->
  fast_universe u lw -> fast_ok u s -> u16_member jh -> (j1 < 2 ^ 16)%N -> (j2 < 256)%N ->
  fast_universe u' lw -> fast_ok u' s' -> u16_member jh' -> (j1' < 2 ^ 16)%N -> (j2' < 256)%N ->
  exists t t', fast_make u lw jh je enc s = Ok t /\ fast_make u' lw jh' je' enc' s' = Ok t' /\
    (s <> s' -> ~ exists e, fst (fast_serialize c j1' j2' t') = fst (fast_serialize c j1 j2 t) ++ e).
Proof. exact fast_files_prefix. Qed.
Print Assumptions C101_fast_files.

(** The number of levels is needed: the same bits are one set in universe 8 and another
    one in universe 16.  With encoded runs, the whole universe is one node 00. *)
Example C101_levels_matter :
  exists t t', bin_make 8 (VLevel false) true [0; 1; 2; 3; 4; 5; 6; 7]%N = Ok t /\
    bin_make 16 (VFlat false) true [0; 1; 2; 3; 4; 5; 6; 7; 8; 9; 10; 11; 12; 13; 14; 15]%N = Ok t' /\
    stored_bits t = (3, [false; false]) /\ stored_bits t' = (4, [false; false]).
Proof. do 2 eexists. split; [vm_compute; reflexivity|]. split; [vm_compute; reflexivity|]. vm_compute; auto. Qed.

Example C101_holds :
  plain_ok 8 (VFlat false) [1; 5]%N /\ plain_ok 16 (VLevel true) [1; 5]%N /\ plain_ok 16 (VLevel false) [] /\
  fast_universe 64 3 /\ fast_ok 64 [1; 5; 60]%N.
Proof.
  unfold plain_ok, fast_ok.
  repeat split; try discriminate; try (left; reflexivity); repeat constructor; try discriminate.
Qed.

(** One set over universes of 6 and of 8, in two kinds of trie. *)
Example C101_same_bits :
  exists t t', bin_make 6 (VFlat true) false [1; 5]%N = Ok t /\ bin_make 8 (VLevel true) false [1; 5]%N = Ok t' /\
    stored_bits t = (3, [true; true; true; false; true; false; false; true; false; true]) /\
    stored_bits t' = stored_bits t.
Proof. do 2 eexists. split; [vm_compute; reflexivity|]. split; [vm_compute; reflexivity|]. vm_compute; auto. Qed.

(** Words of another size: the same levels, bits and words, another set. *)
Example C101_words_matter :
  exists t t', fast_make 64 3 None None false [0; 56]%N = Ok t /\ fast_make 128 4 None None false [0; 112]%N = Ok t' /\
    fast_stored_bits t = fast_stored_bits t'.
Proof. do 2 eexists. split; [vm_compute; reflexivity|]. split; [vm_compute; reflexivity|]. vm_compute; auto. Qed.

(** The empty set and the whole universe, with encoded runs and without. *)
Example C101_empty :
  exists t t' r r', bin_make 4 (VLevel false) false [] = Ok t /\ bin_make 4 (VLevel false) true [] = Ok t' /\
    bin_make 4 (VLevel false) false [0; 1; 2; 3]%N = Ok r /\ bin_make 4 (VLevel false) true [0; 1; 2; 3]%N = Ok r' /\
    stored_bits t = (2, [false; false; false; false; false; false]) /\ stored_bits t' = (2, []) /\
    stored_bits r = (2, [true; true; true; true; true; true]) /\ stored_bits r' = (2, [false; false]).
Proof. do 4 eexists. do 4 (split; [vm_compute; reflexivity|]). vm_compute; auto. Qed.
