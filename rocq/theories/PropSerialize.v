(** Storing tries in streams: C19, C20, C21, C22, C44, C47.

    The theorems hold for all formats of the sdsl structures that read back what they
    wrote ([codecs_ok]). *)

From Verif Require Import Base FlatTrie LevelTrie FastTrie Tries Serialize Spec SpecTries SpecFiles
  SerializeThms EmptyThms.

(** C19.  flatBinTrie, flatBinTrie_il and binTrie: load() on the bytes written by
    serialize(), whatever follows them in the stream and whatever the receiving object
    held, gives back the same trie and leaves the rest of the stream. *)
Theorem C19_serialization_round_trip : forall c u v enc s t old rest,
  codecs_ok c -> v <> VLevel true ->
  bin_make u v enc s = Ok t -> fits t -> same_class t old ->
  exists bytes, bin_serialize c t = Ok (bytes, N.of_nat (length bytes)) /\
    bin_load c old (bytes ++ rest) = Ok (t, rest).
Proof. exact serialization_round_trip. Qed.
Print Assumptions C19_serialization_round_trip.

(** In particular every set that the variant can hold comes back. *)
Theorem C19_stored_set : forall c u v enc s old rest,
  codecs_ok c -> v <> VLevel true ->
  (2 <= u <= 2 ^ 48)%N -> stored_ok u v enc s -> has_class v old ->
  exists t bytes, bin_make u v enc s = Ok t /\
    bin_serialize c t = Ok (bytes, N.of_nat (length bytes)) /\
    bin_load c old (bytes ++ rest) = Ok (t, rest) /\ bin_decode t [] = Ok s.
Proof. exact stored_set. Qed.
Print Assumptions C19_stored_set.

(** Also the empty set, which only level-wise tries can hold. *)
Theorem C19_empty_set : forall c u old rest,
  codecs_ok c -> (2 <= u <= 2 ^ 48)%N -> has_class (VLevel false) old ->
  exists t bytes, bin_make u (VLevel false) false [] = Ok t /\
    bin_serialize c t = Ok (bytes, N.of_nat (length bytes)) /\
    bin_load c old (bytes ++ rest) = Ok (t, rest) /\ bin_decode t [] = Ok [].
Proof. exact empty_file. Qed.
Print Assumptions C19_empty_set.

Example C19_codecs : codecs_ok plain_codecs.
Proof. exact plain_codecs_ok. Qed.

(** A trie stored with runs encoded, loaded over another one, with two more bytes behind. *)
Example C19_example :
  exists t old bytes n,
    bin_make 16 (VFlat false) true [1; 4; 5; 6; 7; 9]%N = Ok t /\
    bin_make 1000 (VFlat false) false [3; 999]%N = Ok old /\
    bin_serialize plain_codecs t = Ok (bytes, n) /\ n = 46%N /\
    bin_load plain_codecs old (bytes ++ [7; 8]%N) = Ok (t, [7; 8]%N) /\
    bin_decode t [] = Ok [1; 4; 5; 6; 7; 9]%N.
Proof.
  do 4 eexists. split; [vm_compute; reflexivity|]. split; [vm_compute; reflexivity|].
  split; [vm_compute; reflexivity|]. split; [reflexivity|]. split; vm_compute; reflexivity.
Qed.

(** C20.  The same for fast tries loaded into an object whose last level is empty, as in
    a new object.  Members that are indeterminate in the stored trie (their bytes are
    [j1], [j2]) have some value in the loaded one. *)
Theorem C20_fast_serialization_round_trip : forall c u lw jh je enc s t old j1 j2 rest,
  codecs_ok c -> In lw [3; 4; 5; 6] -> u16_member jh ->
  fast_make u lw jh je enc s = Ok t -> fast_fits t ->
  x_lw old = lw -> x_lastLevel old = [] -> (j1 < 2 ^ 16)%N -> (j2 < 256)%N ->
  exists t', fast_load c old (fst (fast_serialize c j1 j2 t) ++ rest) = Ok (t', rest) /\
    refines t t' /\ (forall v r, fast_decode t v = Ok r -> fast_decode t' v = Ok r).
Proof. exact fast_serialization_round_trip. Qed.
Print Assumptions C20_fast_serialization_round_trip.

Theorem C20_fast_stored_set : forall c u lw jh je enc s old j1 j2 rest,
  codecs_ok c -> fast_universe u lw -> fast_ok u s -> u16_member jh ->
  (enc = true -> je = Some false) ->
  x_lw old = lw -> x_lastLevel old = [] -> (j1 < 2 ^ 16)%N -> (j2 < 256)%N ->
  exists t t', fast_make u lw jh je enc s = Ok t /\
    fast_load c old (fst (fast_serialize c j1 j2 t) ++ rest) = Ok (t', rest) /\
    fast_decode t' [] = Ok s.
Proof. exact fast_stored_set. Qed.
Print Assumptions C20_fast_stored_set.

Example C20_example :
  exists t t',
    fast_make 64 3 None None false [1; 4; 5; 6; 7; 60]%N = Ok t /\
    fast_load plain_codecs (fast_default 3 77 5 None true None)
      (fst (fast_serialize plain_codecs 513 200 t) ++ [7; 8]%N) = Ok (t', [7; 8]%N) /\
    x_empty_trie t' = None /\ x_height_with_runs t' = Some 513 /\
    fast_decode t' [] = Ok [1; 4; 5; 6; 7; 60]%N.
Proof.
  do 2 eexists. split; [vm_compute; reflexivity|]. split; [vm_compute; reflexivity|].
  split; [reflexivity|]. split; vm_compute; reflexivity.
Qed.

(** C21.  The value returned by serialize() is the number of bytes written. *)
Theorem C21_serialize_count_partial : forall c t bytes n,
  bin_serialize c t = Ok (bytes, n) -> n = N.of_nat (length bytes).
Proof. exact serialize_count. Qed.
Print Assumptions C21_serialize_count_partial.

(** It is not for fast tries, unless the words of the last level take 16 bytes: the code
    adds sizeof(lastLevel) = 24 for an 8-byte length and the words. *)
Theorem C21_fast_count_refuted : forall c j1 j2 t,
  snd (fast_serialize c j1 j2 t) = N.of_nat (length (fst (fast_serialize c j1 j2 t))) <->
  length (x_lastLevel t) * wbytes (x_lw t) = 16.
Proof. exact fast_serialize_count_iff. Qed.
Print Assumptions C21_fast_count_refuted.

Example C21_example :
  exists t, fast_make 64 3 None None false [1; 4; 5; 6; 7; 60]%N = Ok t /\
    snd (fast_serialize plain_codecs 0 0 t) = 54%N /\
    length (fst (fast_serialize plain_codecs 0 0 t)) = 40.
Proof. eexists. split; [vm_compute; reflexivity|]. split; vm_compute; reflexivity. Qed.

(** C22.  Loading over a fast trie that already holds words: the loaded words come after
    the old ones, and the object is the stored trie exactly when there were none. *)
Theorem C22_load_over_partial : forall c u lw jh je enc s t old j1 j2 rest,
  codecs_ok c -> In lw [3; 4; 5; 6] -> u16_member jh ->
  fast_make u lw jh je enc s = Ok t -> fast_fits t ->
  x_lw old = lw -> (j1 < 2 ^ 16)%N -> (j2 < 256)%N ->
  exists t', fast_load c old (fst (fast_serialize c j1 j2 t) ++ rest) = Ok (t', rest) /\
    x_lastLevel t' = x_lastLevel old ++ x_lastLevel t /\ x_bTrie t' = x_bTrie t /\
    x_height t' = x_height t /\ (refines t t' <-> x_lastLevel old = []).
Proof. exact fast_load_over. Qed.
Print Assumptions C22_load_over_partial.

(** A stored set is replaced by elements that neither trie held. *)
Theorem C22_load_replaces_refuted :
  exists t old t',
    fast_make 64 3 None None false [1; 60]%N = Ok t /\
    fast_make 64 3 None None false [34; 43]%N = Ok old /\
    fast_load plain_codecs old (fst (fast_serialize plain_codecs 0 0 t)) = Ok (t', []) /\
    fast_decode t' [] = Ok [2; 59]%N.
Proof.
  do 3 eexists. split; [vm_compute; reflexivity|]. split; [vm_compute; reflexivity|].
  split; vm_compute; reflexivity.
Qed.
Print Assumptions C22_load_replaces_refuted.

(** C44.  No binTrie_il can be stored: serialize() passes the value of the height as the
    address of the bytes. *)
Theorem C44_il_serialize_refuted : forall c u enc s t,
  bin_make u (VLevel true) enc s = Ok t -> bin_serialize c t = UB NullDeref.
Proof. exact level_il_not_storable. Qed.
Print Assumptions C44_il_serialize_refuted.

(** Even on a stream with the intended bytes, load() gives a trie that cannot be decoded:
    the rank structures have no bit vector. *)
Theorem C44_il_load_refuted : forall c u s t old rest w,
  codecs_ok c -> (3 <= u <= 2 ^ 48)%N -> s <> [] -> increasing s -> below u s ->
  level_build true s u = Ok t -> l_il old = true ->
  exists t', level_load c old (level_il_intended c t ++ rest) = Ok (t', rest) /\
    l_bTrie t' = l_bTrie t /\ level_decode t' w = UB OutOfBounds.
Proof. exact level_il_not_loadable. Qed.
Print Assumptions C44_il_load_refuted.

Example C44_example :
  exists t, level_build true [1; 4; 5]%N 16 = Ok t /\ level_decode t [] = Ok [1; 4; 5]%N /\
    bin_serialize plain_codecs (BLevel t) = UB NullDeref.
Proof. eexists. split; [vm_compute; reflexivity|]. split; vm_compute; reflexivity. Qed.

(** C47.  size_in_bytes() against the bytes serialize() writes: two too few, always;
    14 too many for fast tries. *)
Theorem C47_size_in_bytes_refuted : forall c t bytes n,
  bin_serialize c t = Ok (bytes, n) ->
  (bin_size_in_bytes c t + 2 = N.of_nat (length bytes))%N.
Proof. exact size_short. Qed.
Print Assumptions C47_size_in_bytes_refuted.

Theorem C47_fast_size_in_bytes_refuted : forall c j1 j2 t,
  (fast_size_in_bytes c t = N.of_nat (length (fst (fast_serialize c j1 j2 t))) + 14)%N.
Proof. exact SerializeFacts.fast_size_long. Qed.
Print Assumptions C47_fast_size_in_bytes_refuted.

Example C47_example :
  exists t bytes n, bin_make 16 (VLevel false) false [1; 4; 5]%N = Ok t /\
    bin_serialize plain_codecs t = Ok (bytes, n) /\
    length bytes = 94 /\ bin_size_in_bytes plain_codecs t = 92%N.
Proof. do 3 eexists. split; [vm_compute; reflexivity|]. split; [vm_compute; reflexivity|]. split; reflexivity. Qed.
