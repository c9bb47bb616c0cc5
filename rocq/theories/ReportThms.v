(** Proofs about the totals that the build tools print. *)

From Verif Require Import Base FlatTrie LevelTrie FastTrie Tries Serialize Tools Facts Spec SpecTries SpecFiles SpecTools
  SerializeFacts SerializeSound SerializeThms ToolsFacts Report SpecReport.

Definition sum_N (l : list N) : N := fold_right N.add 0%N l.

Lemma sum_mod : forall x y, ((x mod 2 ^ 64 + y) mod 2 ^ 64 = (x + y) mod 2 ^ 64)%N.
Proof. intros. apply N.add_mod_idemp_l. discriminate. Qed.

Lemma report_loop_spec : forall a b visit lists fuel i out size ints, length lists <= fuel ->
  Forall (shorter 30) lists -> Forall (below (2 ^ 32)) lists ->
  report_loop fuel a b visit (concat (map list_bytes lists)) i out (size mod 2 ^ 64)%N (ints mod 2 ^ 64)%N
  = (let* bs := each_ok (fun p => visit (fst p) (snd p)) (indexed i (kept_lists a b lists)) in
     Ok (out ++ concat (map fst bs),
         (N.of_nat (i + length (kept_lists a b lists)), ((size + sum_N (map snd bs)) mod 2 ^ 64)%N,
          ((ints + all_values (kept_lists a b lists)) mod 2 ^ 64)%N))).
Proof.
  intros a b visit lists. induction lists as [|l lists IH]; intros fuel i out size ints Hf Hs Hb.
  - destruct fuel; cbn [report_loop map concat kept_lists filter indexed each_ok bind sum_N fold_right length all_values];
      change (read_eof 4 []) with (@None (N * list N)); cbv iota;
      rewrite app_nil_r, Nat.add_0_r, N.add_0_r; change (all_values []) with 0%N; rewrite N.add_0_r; reflexivity.
  - inversion Hs; subst. inversion Hb; subst. cbn [length] in Hf. destruct fuel as [|fuel]; [lia|].
    cbn [map concat]. unfold list_bytes at 1. rewrite <- !app_assoc.
    cbn [report_loop]. rewrite read_eof_app by (apply shorter_len; auto).
    rewrite kept_cons. destruct (keep_list a b (N.of_nat (length l))).
    + rewrite Nat2N.id, read_inv_list_app by auto. cbn [bind indexed each_ok fst snd].
      destruct (visit i l) as [[bytes n]|e|]; cbn [bind]; auto.
      rewrite !sum_mod. rewrite IH by (auto; lia). rewrite bind_assoc. cbn [bind].
      destruct (each_ok (fun p => visit (fst p) (snd p)) (indexed (S i) (kept_lists a b lists))) as [bs|e|];
        cbn [bind]; auto.
      cbn [map concat fst snd sum_N fold_right length]. fold (sum_N (map snd bs)). rewrite <- app_assoc.
      rewrite Nat.add_succ_r, Nat.add_succ_l.
      replace (ints + all_values (l :: kept_lists a b lists))%N
        with (ints + N.of_nat (length l) + all_values (kept_lists a b lists))%N
        by (unfold all_values; cbn [concat]; rewrite app_length, Nat2N.inj_add; lia).
      rewrite N.add_assoc. reflexivity.
    + rewrite seek_list_app by auto. apply IH; auto. lia.
Qed.

Theorem report_file_spec : forall given a b header visit one u lists, collection_ok one u lists ->
  report_file given a b header visit (collection_file one u lists)
  = (let* bs := each_ok (fun p => visit u (fst p) (snd p)) (indexed 0 (kept_lists a b lists)) in
     Ok ((if given then header ++ le_bytes 4 (N.of_nat (length (kept_lists a b lists)))
                          ++ le_bytes 4 one ++ le_bytes 4 u else []) ++ concat (map fst bs),
         mkReport u (N.of_nat (length (kept_lists a b lists))) ((sum_N (map snd bs)) mod 2 ^ 64)%N
           ((all_values (kept_lists a b lists)) mod 2 ^ 64)%N)).
Proof.
  intros given a b header visit one u lists (H1 & H2 & H3 & H4 & H5). unfold report_file, collection_file.
  rewrite read_le_app by auto. cbn [bind]. rewrite read_le_app by auto. cbn [bind].
  rewrite count_sets_spec; auto; [|apply lists_fuel]. cbn [bind].
  change 0%N with (0 mod 2 ^ 64)%N at 2 3.
  rewrite report_loop_spec; auto; [|apply lists_fuel].
  destruct (each_ok (fun p => visit u (fst p) (snd p)) (indexed 0 (kept_lists a b lists))); cbn [bind]; auto.
Qed.

(** No more than 2^62 values are kept. *)
Lemma values_bound : forall k lists, Forall (shorter 30) lists -> (N.of_nat (length lists) <= k)%N ->
  (all_values lists <= k * 2 ^ 30)%N.
Proof.
  intros k lists H. revert k. induction H as [|l lists S0 _ IH]; intros k K.
  - unfold all_values. cbn [concat length]. apply N.le_0_l.
  - cbn [length] in K. rewrite Nat2N.inj_succ in K.
    assert (K' : (N.of_nat (length lists) <= k - 1)%N) by lia. specialize (IH _ K').
    unfold all_values, shorter in *. cbn [concat]. rewrite app_length, Nat2N.inj_add.
    assert (E : (k = (k - 1) + 1)%N) by lia. rewrite E at 1. rewrite N.mul_add_distr_r. lia.
Qed.

Lemma kept_all : forall (P : list N -> Prop) a b lists, Forall P lists -> Forall P (kept_lists a b lists).
Proof.
  intros P a b lists H. unfold kept_lists. induction H; cbn [filter]; auto. destruct (_ && _)%bool; auto.
Qed.

Lemma values_small : forall a b one u lists, collection_ok one u lists ->
  ((all_values (kept_lists a b lists)) mod 2 ^ 64 = all_values (kept_lists a b lists))%N.
Proof.
  intros a b one u lists C. apply N.mod_small.
  eapply N.le_lt_trans; [apply values_bound with (k := (2 ^ 32)%N)|reflexivity].
  - destruct C as (_ & _ & _ & C & _). apply kept_all, C.
  - apply N.lt_le_incl. eapply kept_count, C.
Qed.

(** What is written and counted for each list, with and without --out; [short] and [long]
    are the bytes that size_in_bytes() forgets and those that it invents. *)
Lemma totals : forall X (store : X -> result (list N))
  (visit visit0 : X -> result (list N * N)) (short long : N) l bs,
  (forall x bytes, store x = Ok bytes -> exists n, visit x = Ok (bytes, n) /\ visit0 x = Ok ([], n) /\
     (n + short = N.of_nat (length bytes) + long)%N) ->
  each_ok store l = Ok bs ->
  exists ns : list N, each_ok visit l = Ok (combine bs ns) /\
    each_ok visit0 l = Ok (map (fun n => ([], n)) ns) /\ length ns = length bs /\
    (sum_N ns + short * N.of_nat (length l) = N.of_nat (length (concat bs)) + long * N.of_nat (length l))%N.
Proof.
  intros X store visit visit0 short long l bs H. revert bs. induction l as [|x l IH]; intros bs E; cbn [each_ok] in *.
  - injection E as <-. exists []. repeat split. cbn. lia.
  - destruct (bind_inv _ _ _ _ _ E) as (b & E1 & E2). destruct (bind_inv _ _ _ _ _ E2) as (bs' & E3 & E4). injection E4 as <-.
    destruct (IH _ E3) as (ns & V & V0 & L & S0). destruct (H _ _ E1) as (n & W & W0 & S1).
    exists (n :: ns). rewrite W, W0. cbn [bind]. rewrite V, V0. cbn [bind]. repeat split.
    + cbn [length]. congruence.
    + cbn [sum_N fold_right concat length]. fold (sum_N ns). rewrite app_length, Nat2N.inj_add, Nat2N.inj_succ. lia.
Qed.

Lemma combine_fst : forall A B (l : list A) (m : list B), length m = length l -> map fst (combine l m) = l.
Proof. induction l as [|x l IH]; intros [|y m] H; cbn in *; try discriminate; auto. f_equal. apply IH. lia. Qed.

Lemma combine_snd : forall A B (l : list A) (m : list B), length m = length l -> map snd (combine l m) = m.
Proof. induction l as [|x l IH]; intros [|y m] H; cbn in *; try discriminate; auto. f_equal. apply IH. lia. Qed.

Lemma nothing_written : forall ns : list N, concat (map fst (map (fun n => (@nil N, n)) ns)) = [].
Proof. induction ns; cbn; auto. Qed.

Lemma sizes_kept : forall ns : list N, map snd (map (fun n => (@nil N, n)) ns) = ns.
Proof. induction ns; cbn; congruence. Qed.

Lemma indexed_length : forall A (l : list A) i, length (indexed i l) = length l.
Proof. induction l; intros; cbn [indexed length]; auto. Qed.

(** With --out the file is the same as without the totals. *)
Lemma file_reported : forall a b header store (visit visit0 : N -> nat -> list N -> result (list N * N))
  (short long : N) one u lists file,
  collection_ok one u lists ->
  (forall x bytes, store u (fst x) (snd x) = Ok bytes -> exists n,
     visit u (fst x) (snd x) = Ok (bytes, n) /\ visit0 u (fst x) (snd x) = Ok ([], n) /\
     (n + short = N.of_nat (length bytes) + long)%N) ->
  build_file a b header store (collection_file one u lists) = Ok file ->
  exists r, report_file true a b header visit (collection_file one u lists) = Ok (file, r).
Proof.
  intros a b header store visit visit0 short long one u lists file C V E.
  rewrite build_file_spec in E by auto. destruct (bind_inv _ _ _ _ _ E) as (bs & E1 & E2).
  match type of E2 with Ok ?x = _ => assert (F : file = x) by congruence end. clear E2. subst file.
  destruct (totals _ _ _ _ short long _ _ V E1) as (ns & W & W0 & LN & S0).
  rewrite report_file_spec by auto. rewrite W. cbn [bind].
  rewrite combine_fst by auto. eexists. rewrite <- !app_assoc. reflexivity.
Qed.

(** The common part of both tools. *)
Lemma file_and_report : forall a b header store (visit visit0 : N -> nat -> list N -> result (list N * N))
  (short long : N) one u lists file,
  collection_ok one u lists ->
  (forall x bytes, store u (fst x) (snd x) = Ok bytes -> exists n,
     visit u (fst x) (snd x) = Ok (bytes, n) /\ visit0 u (fst x) (snd x) = Ok ([], n) /\
     (n + short = N.of_nat (length bytes) + long)%N) ->
  build_file a b header store (collection_file one u lists) = Ok file ->
  (N.of_nat (length file) + long * N.of_nat (length (kept_lists a b lists)) < 2 ^ 64)%N ->
  exists r, report_file true a b header visit (collection_file one u lists) = Ok (file, r) /\
    report_file false a b header visit0 (collection_file one u lists) = Ok ([], r) /\
    r_universe r = u /\ r_lists r = N.of_nat (length (kept_lists a b lists)) /\
    r_ints r = all_values (kept_lists a b lists) /\
    (N.of_nat (length header) + 12 + r_size r + short * r_lists r
     = N.of_nat (length file) + long * r_lists r)%N.
Proof.
  intros a b header store visit visit0 short long one u lists file C V E L.
  rewrite build_file_spec in E by auto. destruct (bind_inv _ _ _ _ _ E) as (bs & E1 & E2). 
    match type of E2 with Ok ?x = _ => assert (F : file = x) by congruence end. clear E2. subst file.
  destruct (totals _ _ _ _ short long _ _ V E1) as (ns & W & W0 & LN & S0).
  rewrite !report_file_spec by auto. rewrite W, W0. cbn [bind].
  rewrite combine_fst, combine_snd, nothing_written, sizes_kept by auto.
  rewrite (values_small _ _ _ _ _ C). rewrite indexed_length in S0.
  rewrite !app_length in L. rewrite !le_bytes_length in L. set (k := N.of_nat (length (kept_lists a b lists))) in *.
  assert (M : (sum_N ns mod 2 ^ 64 = sum_N ns)%N).
  { apply N.mod_small. eapply N.le_lt_trans; [|exact L]. clearbody k. clear L. nia. }
  rewrite M. eexists. split; [rewrite <- !app_assoc; reflexivity|]. split; [reflexivity|].
  cbn [r_universe r_lists r_ints r_size]. do 3 (split; [reflexivity|]).
  rewrite !app_length, !le_bytes_length. clearbody k. clear L M. lia.
Qed.

Theorem tries_reported : forall fm a b rank_type block runs levelwise one u lists file,
  collection_ok one u lists ->
  build_tries fm a b rank_type block runs levelwise (collection_file one u lists) = Ok file ->
  exists r, report_tries fm a b rank_type block runs levelwise true (collection_file one u lists) = Ok (file, r).
Proof.
  intros fm a b rank_type block runs levelwise one u lists file C E. unfold build_tries in E.
  eapply file_reported with (short := 2%N) (long := 0%N) (visit0 :=
    (fun u _ il =>
       let c := built_codecs fm rank_type block in
       let* t := bin_make u (built_variant rank_type levelwise) runs il in
       let* bytes := Ok [] in
       Ok (bytes, bin_size_in_bytes c t))); [exact C| |exact E].
  intros (i & il) bytes. cbn [fst snd]. cbv zeta. intros W.
  destruct (bind_inv _ _ _ _ _ W) as (t & W1 & W2).
  destruct (bind_inv _ _ _ _ _ W2) as ((bs & n) & W3 & W4). injection W4 as ->.
  rewrite W1. cbn [bind]. rewrite W3. cbn [bind]. exists (bin_size_in_bytes (built_codecs fm rank_type block) t).
  do 2 (split; [reflexivity|]). rewrite N.add_0_r. eapply size_short, W3.
Qed.

Theorem fast_tries_reported : forall fm junk a b rank_type runs levelwise lw one u lists file,
  collection_ok one u lists ->
  build_fast_tries fm junk a b rank_type runs levelwise lw (collection_file one u lists) = Ok file ->
  exists r,
    report_fast_tries fm junk a b rank_type runs levelwise lw true (collection_file one u lists) = Ok (file, r).
Proof.
  intros fm junk a b rank_type runs levelwise lw one u lists file C E. unfold build_fast_tries in E.
  eapply file_reported with (short := 0%N) (long := 14%N) (visit0 :=
    (fun u i il =>
       let j := junk i in
       let c := fast_codecs fm rank_type in
       let* t := fast_make u lw (j_hwr j) (j_empty j) runs il in
       Ok ([], fast_size_in_bytes c t))); [exact C| |exact E].
  intros (i & il) bytes. cbn [fst snd]. cbv zeta. intros W.
  destruct (bind_inv _ _ _ _ _ W) as (t & W1 & W2). injection W2 as <-.
  rewrite W1. cbn [bind]. eexists. do 2 (split; [reflexivity|]). rewrite N.add_0_r. apply fast_size_long.
Qed.

(** build_tries: two bytes of each trie are not counted. *)
Theorem tries_report : forall fm a b rank_type block runs levelwise one u lists file,
  collection_ok one u lists ->
  build_tries fm a b rank_type block runs levelwise (collection_file one u lists) = Ok file ->
  (N.of_nat (length file) < 2 ^ 64)%N ->
  exists r, report_tries fm a b rank_type block runs levelwise true (collection_file one u lists) = Ok (file, r) /\
    report_tries fm a b rank_type block runs levelwise false (collection_file one u lists) = Ok ([], r) /\
    reports (header_bytes rank_type) u (kept_lists a b lists) file
      (mkReport (r_universe r) (r_lists r) (r_size r + 2 * r_lists r) (r_ints r)).
Proof.
  intros fm a b rank_type block runs levelwise one u lists file C E L. unfold build_tries in E.
  assert (G := fun header store => file_and_report a b header store
    (fun u _ il =>
       let c := built_codecs fm rank_type block in
       let* t := bin_make u (built_variant rank_type levelwise) runs il in
       let* bytes := (let* (bytes, _) := bin_serialize c t in Ok bytes) in
       Ok (bytes, bin_size_in_bytes c t))
    (fun u _ il =>
       let c := built_codecs fm rank_type block in
       let* t := bin_make u (built_variant rank_type levelwise) runs il in
       let* bytes := Ok [] in
       Ok (bytes, bin_size_in_bytes c t)) 2 0 one u lists file C).
  edestruct G as (r & R1 & R2 & R3 & R4 & R5 & R6); [|exact E| |]; clear G.
  - intros (i & il) bytes. cbn [fst snd]. cbv zeta. intros W.
    destruct (bind_inv _ _ _ _ _ W) as (t & W1 & W2). destruct (bind_inv _ _ _ _ _ W2) as ((bs & n) & W3 & W4). injection W4 as ->.
    rewrite W1. cbn [bind]. rewrite W3. cbn [bind]. exists (bin_size_in_bytes (built_codecs fm rank_type block) t).
    do 2 (split; [reflexivity|]). rewrite N.add_0_r. eapply size_short, W3.
  - rewrite N.add_0_r. exact L.
  - exists r. split; [exact R1|]. split; [exact R2|]. unfold reports. cbn [r_universe r_lists r_size r_ints].
    do 3 (split; [assumption|]). rewrite !app_length in R6. rewrite le_bytes_length in R6.
    unfold header_bytes. destruct (N.eqb rank_type 1); cbn [length] in R6; rewrite ?le_bytes_length in R6; lia.
Qed.

(** build_fastTries: 14 bytes too many are counted for each trie. *)
Theorem fast_tries_report : forall fm junk a b rank_type runs levelwise lw one u lists file,
  collection_ok one u lists ->
  build_fast_tries fm junk a b rank_type runs levelwise lw (collection_file one u lists) = Ok file ->
  (N.of_nat (length file) + 14 * N.of_nat (length (kept_lists a b lists)) < 2 ^ 64)%N ->
  exists r,
    report_fast_tries fm junk a b rank_type runs levelwise lw true (collection_file one u lists) = Ok (file, r) /\
    report_fast_tries fm junk a b rank_type runs levelwise lw false (collection_file one u lists) = Ok ([], r) /\
    (14 * r_lists r <= r_size r)%N /\
    reports fast_header_bytes u (kept_lists a b lists) file
      (mkReport (r_universe r) (r_lists r) (r_size r - 14 * r_lists r) (r_ints r)).
Proof.
  intros fm junk a b rank_type runs levelwise lw one u lists file C E L. unfold build_fast_tries in E.
  assert (G := fun header store => file_and_report a b header store
    (fun u i il =>
       let j := junk i in
       let c := fast_codecs fm rank_type in
       let* t := fast_make u lw (j_hwr j) (j_empty j) runs il in
       Ok (fst (fast_serialize c (j_hwr_bytes j) (j_empty_byte j) t), fast_size_in_bytes c t))
    (fun u i il =>
       let j := junk i in
       let c := fast_codecs fm rank_type in
       let* t := fast_make u lw (j_hwr j) (j_empty j) runs il in
       Ok ([], fast_size_in_bytes c t)) 0 14 one u lists file C).
  edestruct G as (r & R1 & R2 & R3 & R4 & R5 & R6); [|exact E| |]; clear G.
  - intros (i & il) bytes. cbn [fst snd]. cbv zeta. intros W.
    destruct (bind_inv _ _ _ _ _ W) as (t & W1 & W2). injection W2 as <-.
    rewrite W1. cbn [bind]. eexists. do 2 (split; [reflexivity|]). rewrite N.add_0_r. apply fast_size_long.
  - exact L.
  - assert (M : (14 * r_lists r <= r_size r)%N).
    { unfold build_fast_tries in E. rewrite build_file_spec in E by auto.
      destruct (bind_inv _ _ _ _ _ E) as (bs & _ & E2). 
    match type of E2 with Ok ?x = _ => assert (F : file = x) by congruence end. clear E2. subst file.
      rewrite !app_length in R6. rewrite !le_bytes_length in R6. cbn [length] in R6. lia. }
    exists r. split; [exact R1|]. split; [exact R2|]. split; [exact M|].
    unfold reports. cbn [r_universe r_lists r_size r_ints].
    do 3 (split; [assumption|]). rewrite !app_length in R6. rewrite !le_bytes_length in R6.
    unfold fast_header_bytes. cbn [length] in R6. lia.
Qed.

(** So the size reported is never that of the tries stored, unless nothing was kept. *)
Theorem tries_size_wrong : forall fm a b rank_type block runs levelwise one u lists file,
  collection_ok one u lists -> kept_lists a b lists <> [] ->
  build_tries fm a b rank_type block runs levelwise (collection_file one u lists) = Ok file ->
  (N.of_nat (length file) < 2 ^ 64)%N ->
  exists r, report_tries fm a b rank_type block runs levelwise true (collection_file one u lists) = Ok (file, r) /\
    ~ reports (header_bytes rank_type) u (kept_lists a b lists) file r.
Proof.
  intros fm a b rank_type block runs levelwise one u lists file C K E L.
  destruct (tries_report _ _ _ _ _ _ _ _ _ _ _ C E L) as (r & R & _ & (_ & R2 & _ & R4)). exists r. split; auto.
  intros (_ & Q & _ & Q4). cbn [r_lists r_size] in *. destruct (kept_lists a b lists); [congruence|].
  cbn [length] in R2. lia.
Qed.

Theorem fast_tries_size_wrong : forall fm junk a b rank_type runs levelwise lw one u lists file,
  collection_ok one u lists -> kept_lists a b lists <> [] ->
  build_fast_tries fm junk a b rank_type runs levelwise lw (collection_file one u lists) = Ok file ->
  (N.of_nat (length file) + 14 * N.of_nat (length (kept_lists a b lists)) < 2 ^ 64)%N ->
  exists r,
    report_fast_tries fm junk a b rank_type runs levelwise lw true (collection_file one u lists) = Ok (file, r) /\
    ~ reports fast_header_bytes u (kept_lists a b lists) file r.
Proof.
  intros fm junk a b rank_type runs levelwise lw one u lists file C K E L.
  destruct (fast_tries_report _ _ _ _ _ _ _ _ _ _ _ _ C E L) as (r & R & _ & M & (_ & R2 & _ & R4)). exists r. split; auto.
  intros (_ & Q & _ & Q4). cbn [r_lists r_size] in *. destruct (kept_lists a b lists); [congruence|].
  cbn [length] in R2. lia.
Qed.
