(** Proofs about the build tools on lists of any length. *)

From Verif Require Import Base FlatTrie LevelTrie FastTrie ParallelFor Intersection Tries Serialize
  Tools Cut Facts Spec SpecTries SpecFiles SpecTools SpecSkip SerializeFacts SerializeSound SerializeThms
  InterThms ParForThms ToolsFacts ToolsThms FastToolsThms CutThms.

(** * The counting pass *)

Definition word_bytes (ws : list N) : list N := concat (map (le_bytes 4) ws).

Lemma word_bytes_length : forall ws, length (word_bytes ws) = 4 * length ws.
Proof. intros. unfold word_bytes. rewrite concat_bytes_length. lia. Qed.

Lemma word_bytes_app : forall ws ws', word_bytes (ws ++ ws') = word_bytes ws ++ word_bytes ws'.
Proof. intros. unfold word_bytes. rewrite map_app, concat_app. reflexivity. Qed.

Lemma lists_words : forall lists, concat (map list_bytes lists) = word_bytes (words lists).
Proof.
  induction lists as [|l lists IH]; auto. unfold words in *. cbn [map concat]. rewrite word_bytes_app, IH.
  reflexivity.
Qed.

Lemma skip_bytes : forall ws k, k <= length ws -> skipn (4 * k) (word_bytes ws) = word_bytes (skipn k ws).
Proof.
  intros ws k H. rewrite <- (firstn_skipn k ws) at 1. rewrite word_bytes_app.
  assert (E : 4 * k = length (word_bytes (firstn k ws))) by (rewrite word_bytes_length, firstn_length; lia).
  rewrite E. apply skipn_length_app.
Qed.

Lemma skipn_over : forall A (l : list A) k, length l <= k -> skipn k l = [].
Proof. intros. apply skipn_all2. auto. Qed.

Lemma seek_words : forall n ws,
  seek_list n (word_bytes ws) = word_bytes (skipn (N.to_nat (n mod 2 ^ 30)) ws).
Proof.
  intros n ws. unfold seek_list.
  assert (E : ((4 * n) mod 2 ^ 32 = 4 * (n mod 2 ^ 30))%N).
  { change (2 ^ 32)%N with (4 * 2 ^ 30)%N. apply N.mul_mod_distr_l; discriminate. }
  rewrite E. generalize (n mod 2 ^ 30)%N. clear. intros m. rewrite word_bytes_length.
  destruct (N.leb_spec (N.of_nat (4 * length ws)) (4 * m)) as [H|H].
  - rewrite skipn_over by lia. reflexivity.
  - rewrite <- skip_bytes by lia. f_equal. lia.
Qed.

Lemma below_skipn : forall u k l, below u l -> below u (skipn k l).
Proof.
  unfold below. intros u k l H. rewrite <- (firstn_skipn k l) in H. apply Forall_app in H. tauto.
Qed.

Lemma count_words : forall a b ws met, lengths_met ws met -> forall fuel n0, below (2 ^ 32) ws ->
  length ws <= fuel -> (n0 < 2 ^ 32)%N ->
  count_sets fuel a b (word_bytes ws) n0
  = Ok ((n0 + N.of_nat (length (in_range a b met))) mod 2 ^ 32)%N.
Proof.
  intros a b ws met H. induction H as [|n ws met H IH]; intros fuel n0 Hb Hf Hn.
  - assert (E : (n0 + N.of_nat (length (in_range a b [])) = n0)%N) by (cbn; lia).
    rewrite E, N.mod_small by auto. destruct fuel; reflexivity.
  - inversion Hb as [|? ? Hx Hb']; subst. cbn [length] in Hf. destruct fuel as [|fuel]; [lia|].
    cbn [count_sets]. unfold word_bytes at 1. cbn [map concat].
    rewrite read_eof_app by auto. fold (word_bytes ws). rewrite seek_words.
    assert (L : length (skipn (N.to_nat (n mod 2 ^ 30)) ws) <= fuel)
      by (rewrite skipn_length; generalize (N.to_nat (n mod 2 ^ 30)); intros; lia).
    unfold in_range. cbn [filter]. fold (in_range a b met). unfold keep_list.
    destruct (N.ltb a n && N.leb n b)%bool.
    + rewrite IH; auto; [|apply below_skipn; auto|apply N.mod_lt; discriminate].
      f_equal. rewrite N.add_mod_idemp_l by discriminate. f_equal. cbn [length]. lia.
    + apply IH; auto. apply below_skipn; auto.
Qed.

(** * The storing pass *)

Lemma kept_in : forall a b l lists, In l (kept_lists a b lists) ->
  keep_list a b (N.of_nat (length l)) = true.
Proof. intros a b l lists H. unfold kept_lists in H. apply filter_In in H. apply H. Qed.

Lemma store_lists : forall a b store lists fuel i out, length lists <= fuel ->
  Forall (shorter 32) lists -> Forall (below (2 ^ 32)) lists ->
  Forall (fun l => shorter 30 l \/ keep_list a b (N.of_nat (length l)) = true) lists ->
  build_loop fuel a b store (concat (map list_bytes lists)) i out
  = (let* bs := each_ok (fun p => store (fst p) (snd p)) (indexed i (kept_lists a b lists)) in
     Ok (out ++ concat bs)).
Proof.
  intros a b store lists. induction lists as [|l lists IH]; intros fuel i out Hf Hs Hb Hk.
  - destruct fuel; cbn; rewrite app_nil_r; reflexivity.
  - inversion Hs; subst. inversion Hb; subst. inversion Hk as [|? ? Hl Hk']; subst.
    cbn [length] in Hf. destruct fuel as [|fuel]; [lia|].
    cbn [map concat]. unfold list_bytes at 1. rewrite <- !app_assoc.
    cbn [build_loop]. rewrite read_eof_app by auto.
    rewrite kept_cons. destruct (keep_list a b (N.of_nat (length l))) eqn:E.
    + rewrite Nat2N.id, read_inv_list_app by auto. cbn [bind indexed each_ok fst snd].
      destruct (store i l) as [bytes|e|]; cbn [bind]; auto.
      rewrite IH by (auto; lia). rewrite bind_assoc. cbn [bind].
      destruct (each_ok (fun p => store (fst p) (snd p)) (indexed (S i) (kept_lists a b lists))); cbn [bind]; auto.
      cbn [concat]. rewrite app_assoc. reflexivity.
    + destruct Hl as [Hl|Hl]; [|discriminate]. rewrite seek_list_app by auto. apply IH; auto. lia.
Qed.

Lemma words_below : forall lists, Forall (shorter 32) lists -> Forall (below (2 ^ 32)) lists ->
  below (2 ^ 32) (words lists).
Proof.
  intros lists H1 H2. unfold words. induction H1 as [|l lists Hl _ IH]; [constructor|].
  inversion H2; subst. cbn [map concat app]. constructor; [exact Hl|]. apply Forall_app. split; auto.
  apply IH. auto.
Qed.

Theorem long_build : forall a b header store one u lists met, long_collection_ok a b one u lists ->
  lengths_met (words lists) met ->
  build_file a b header store (collection_file one u lists)
  = (let* bs := each_ok (fun p => store u (fst p) (snd p)) (indexed 0 (kept_lists a b lists)) in
     Ok (header ++ le_bytes 4 (N.of_nat (length (in_range a b met)) mod 2 ^ 32)
           ++ le_bytes 4 one ++ le_bytes 4 u ++ concat bs)).
Proof.
  intros a b header store one u lists met (H1 & H2 & H3 & H4 & H5) M. unfold build_file, collection_file.
  rewrite read_le_app by auto. cbn [bind]. rewrite read_le_app by auto. cbn [bind].
  rewrite lists_words at 1 2. rewrite (count_words a b _ met M); [|apply words_below; auto| |reflexivity].
  2: { rewrite word_bytes_length. lia. }
  cbn [bind]. rewrite store_lists; auto; [|apply lists_fuel|].
  - destruct (each_ok (fun p => store u (fst p) (snd p)) (indexed 0 (kept_lists a b lists))); cbn [bind]; auto.
    rewrite N.add_0_l, <- !app_assoc. reflexivity.
  - eapply Forall_impl; [|exact H5]. intros l [Hl|Hl]; auto. right. eapply kept_in; eauto.
Qed.

(** * The files *)

Lemma keep_iff : forall a b n, keep_list a b n = true <-> (a < n <= b)%N.
Proof.
  intros. unfold keep_list. rewrite Bool.andb_true_iff, N.ltb_lt, N.leb_le. tauto.
Qed.

Lemma read_inv_words : forall n ws l rest, below (2 ^ 32) ws ->
  read_inv_list n (word_bytes ws) = Ok (l, rest) ->
  length l = n /\ exists ws', ws = l ++ ws' /\ rest = word_bytes ws'.
Proof.
  induction n as [|n IH]; intros ws l rest Hb H; cbn [read_inv_list] in H.
  - injection H as <- <-. split; auto. exists ws. auto.
  - destruct ws as [|w ws]; [discriminate H|]. inversion Hb as [|? ? Hw Hb']; subst.
    unfold word_bytes in H. cbn [map concat] in H. rewrite read_le_app in H by auto. cbn [bind] in H.
    fold (word_bytes ws) in H. apply bind_inv in H. destruct H as ((l' & rest') & E & H).
    destruct (IH _ _ _ Hb' E) as (L & ws' & -> & ->). injection H as <- <-.
    split; [cbn [length]; auto|]. exists ws'. auto.
Qed.

Lemma read_lists : forall a b store fuel ws i out f, below (2 ^ 32) ws ->
  build_loop fuel a b store (word_bytes ws) i out = Ok f ->
  exists ls bs, lists_read a b ws ls /\
    each_ok (fun p => store (fst p) (snd p)) (indexed i ls) = Ok bs /\ f = out ++ concat bs.
Proof.
  intros a b store. induction fuel as [|fuel IH]; intros ws i out f Hb H.
  - destruct ws as [|w ws].
    + cbn in H. injection H as <-. exists [], []. split; [constructor|]. split; [reflexivity|]. rewrite app_nil_r. auto.
    + inversion Hb; subst. unfold word_bytes in H. cbn [build_loop map concat] in H.
      rewrite read_eof_app in H by auto. discriminate H.
  - destruct ws as [|n ws].
    + cbn in H. injection H as <-. exists [], []. split; [constructor|]. split; [reflexivity|]. rewrite app_nil_r. auto.
    + inversion Hb as [|? ? Hn Hb']; subst. unfold word_bytes in H. cbn [build_loop map concat] in H.
      rewrite read_eof_app in H by auto. fold (word_bytes ws) in H.
      destruct (keep_list a b n) eqn:E.
      * apply keep_iff in E. apply bind_inv in H. destruct H as ((l & rest) & R & H).
        destruct (read_inv_words _ _ _ _ Hb' R) as (L & ws' & -> & ->).
        apply bind_inv in H. destruct H as (bytes & St & H).
        apply Forall_app in Hb'. destruct Hb' as (_ & Hb').
        destruct (IH _ _ _ _ Hb' H) as (ls & bs & X1 & X2 & ->).
        assert (En : n = N.of_nat (length l)) by (rewrite L; symmetry; apply N2Nat.id). subst n.
        exists (l :: ls), (bytes :: bs). split; [constructor; auto|]. cbn [indexed each_ok fst snd].
        rewrite St. cbn [bind]. rewrite X2. cbn [bind concat]. rewrite app_assoc. auto.
      * rewrite seek_words in H. destruct (IH _ _ _ _ (below_skipn _ _ _ Hb') H) as (ls & bs & X1 & X2 & X3).
        exists ls, bs. split; [|auto]. constructor; auto. rewrite <- keep_iff, E. discriminate.
Qed.

Lemma any_build : forall a b header store one u lists met f, fitting_collection one u lists ->
  lengths_met (words lists) met ->
  build_file a b header store (collection_file one u lists) = Ok f ->
  exists ls bs, lists_read a b (words lists) ls /\
    each_ok (fun p => store u (fst p) (snd p)) (indexed 0 ls) = Ok bs /\
    f = header ++ le_bytes 4 (N.of_nat (length (in_range a b met)) mod 2 ^ 32)
          ++ le_bytes 4 one ++ le_bytes 4 u ++ concat bs.
Proof.
  intros a b header store one u lists met f (H1 & H2 & H3 & H4) M. unfold build_file, collection_file.
  rewrite read_le_app by auto. cbn [bind]. rewrite read_le_app by auto. cbn [bind]. rewrite !lists_words.
  assert (Hb := words_below lists H4 H3).
  rewrite (count_words a b _ met M); [|exact Hb|rewrite word_bytes_length; lia|reflexivity]. cbn [bind].
  intros H. destruct (read_lists _ _ _ _ _ _ _ _ Hb H) as (ls & bs & X1 & X2 & ->).
  exists ls, bs. split; [auto|]. split; [auto|]. rewrite N.add_0_l, <- !app_assoc. reflexivity.
Qed.

Lemma made_and_stored : forall c u v runs kept i bs, each_ok (fun p : nat * list N =>
      let* t := bin_make u v runs (snd p) in
      let* (bytes, _) := bin_serialize c t in Ok bytes) (indexed i kept) = Ok bs ->
    exists ts, each_ok (bin_make u v runs) kept = Ok ts /\
      Forall2 (fun t r => exists n, bin_serialize c t = Ok (r, n)) ts bs.
Proof.
  induction kept as [|l kept IH]; intros i bs H; cbn [indexed each_ok] in H.
  - injection H as <-. exists []. split; [reflexivity|constructor].
  - apply bind_inv in H. destruct H as (b & Hb & H). apply bind_inv in H. destruct H as (bs' & Hbs & H).
    injection H as <-. cbn [snd] in Hb. apply bind_inv in Hb. destruct Hb as (t & Ht & Hb).
    apply bind_inv in Hb. destruct Hb as ((r & n) & Hr & Hb). injection Hb as <-.
    destruct (IH _ _ Hbs) as (ts & E & F). exists (t :: ts). cbn [each_ok]. rewrite Ht. cbn [bind].
    rewrite E. cbn [bind]. split; auto. constructor; eauto.
Qed.

Theorem long_files : forall fm a b rank block runs levelwise one u lists met file,
  fitting_collection one u lists -> lengths_met (words lists) met ->
  build_tries fm a b rank block runs levelwise (collection_file one u lists) = Ok file ->
  exists stored ts records, lists_read a b (words lists) stored /\
    each_ok (bin_make u (built_variant rank levelwise) runs) stored = Ok ts /\
    Forall2 (fun t r => exists n, bin_serialize (built_codecs fm rank block) t = Ok (r, n)) ts records /\
    file = le_bytes 4 rank ++ (if N.eqb rank 1 then le_bytes 4 block else []) ++ [bool_byte runs]
           ++ [bool_byte levelwise] ++ le_bytes 4 (N.of_nat (length (in_range a b met)) mod 2 ^ 32)
           ++ le_bytes 4 one ++ le_bytes 4 u ++ concat records.
Proof.
  intros fm a b rank block runs levelwise one u lists met file C M H. unfold build_tries in H.
  destruct (any_build _ _ _ _ _ _ _ _ _ C M H) as (ls & bs & X1 & Hb & ->).
  destruct (made_and_stored _ _ _ _ _ _ _ Hb) as (ts & E & F). exists ls, ts, bs.
  split; [auto|split; [auto|split; [auto|]]]. rewrite <- !app_assoc. reflexivity.
Qed.

Theorem long_fast_files : forall fm junk a b rank runs levelwise lw one u lists met file,
  fitting_collection one u lists -> lengths_met (words lists) met ->
  build_fast_tries fm junk a b rank runs levelwise lw (collection_file one u lists) = Ok file ->
  exists stored records, lists_read a b (words lists) stored /\ length records = length stored /\
    (forall i l r, nth_error stored i = Some l -> nth_error records i = Some r ->
       exists t, fast_make u lw (j_hwr (junk i)) (j_empty (junk i)) runs l = Ok t /\
         r = fst (fast_serialize (fast_codecs fm rank) (j_hwr_bytes (junk i)) (j_empty_byte (junk i)) t)) /\
    file = le_bytes 4 rank ++ [bool_byte runs] ++ [bool_byte levelwise] ++ le_bytes 2 (wbits lw)
           ++ le_bytes 4 (N.of_nat (length (in_range a b met)) mod 2 ^ 32)
           ++ le_bytes 4 one ++ le_bytes 4 u ++ concat records.
Proof.
  intros fm junk a b rank runs levelwise lw one u lists met file C M H. unfold build_fast_tries in H.
  destruct (any_build _ _ _ _ _ _ _ _ _ C M H) as (ls & bs & X1 & Hb & ->).
  exists ls, bs. split; [auto|]. split; [|split].
  - rewrite (each_ok_length _ _ _ _ _ Hb). clear. generalize 0. induction ls; intros n; cbn; auto.
  - intros i l r Hl Hr.
    assert (Hx : nth_error (indexed 0 ls) i = Some (i, l)) by (rewrite indexed_nth, Hl; reflexivity).
    destruct (each_ok_nth _ _ _ _ _ _ _ Hb Hx) as (y & Hy & Hyn). rewrite Hr in Hyn. injection Hyn as <-.
    cbn [fst snd] in Hy. apply bind_inv in Hy. destruct Hy as (t & Ht & Hy). exists t. split; auto.
    apply (f_equal (fun r => match r with Ok x => x | _ => [] end)) in Hy. cbv beta iota in Hy. auto.
  - rewrite <- !app_assoc. reflexivity.
Qed.

(** Which lists are read *)

Lemma app_same_length : forall A (l l' r r' : list A), length l = length l' -> l ++ r = l' ++ r' -> l = l' /\ r = r'.
Proof.
  induction l as [|x l IH]; intros [|y l'] r r' L H; try discriminate L; auto.
  cbn [app] in H. injection H as <- H. injection L as L. destruct (IH _ _ _ L H) as (-> & ->). auto.
Qed.

Lemma read_unique : forall a b ws ls, lists_read a b ws ls -> forall ls', lists_read a b ws ls' -> ls' = ls.
Proof.
  intros a b ws ls H. induction H as [|l ws ls Hl H IH|n ws ls Hn H IH]; intros ls' H'.
  - inversion H'. auto.
  - inversion H' as [|l2 ws2 ls2 Hl2 X2 E E'|n2 ws2 ls2 Hn2 X2 E E']; subst.
    + match goal with
      | Q1 : N.of_nat (length _) = N.of_nat (length _), Q2 : _ ++ _ = _ ++ _ |- _ =>
        apply Nat2N.inj in Q1; destruct (app_same_length _ _ _ _ _ Q1 Q2) as (-> & ->)
      end. f_equal. auto.
    + tauto.
  - inversion H' as [|l2 ws2 ls2 Hl2 X2 E E'|n2 ws2 ls2 Hn2 X2 E E']; subst; [tauto|auto].
Qed.

Theorem long_read : forall a b one u lists stored, long_collection_ok a b one u lists ->
  (lists_read a b (words lists) stored <-> stored = kept_lists a b lists).
Proof.
  intros a b one u lists stored (_ & _ & _ & _ & H).
  assert (X : lists_read a b (words lists) (kept_lists a b lists)).
  { assert (H' : Forall (fun l => shorter 30 l \/ keep_list a b (N.of_nat (length l)) = true) lists).
    { eapply Forall_impl; [|exact H]. intros l [Hl|Hl]; auto. right. eapply kept_in; eauto. }
    clear H. unfold words. induction H' as [|l lists Hl _ IH]; [constructor|].
    cbn [map concat app]. rewrite kept_cons. destruct (keep_list a b (N.of_nat (length l))) eqn:E.
    - constructor; auto. apply keep_iff. auto.
    - destruct Hl as [Hl|Hl]; [|discriminate]. apply read_other.
      + rewrite <- keep_iff, E. discriminate.
      + rewrite N.mod_small by exact Hl. rewrite Nat2N.id, skipn_length_app. exact IH. }
  split; [intros M; eapply read_unique; eauto|intros ->; auto].
Qed.

(** The second pass, forwards *)

Lemma store_read : forall a b store ws ls, lists_read a b ws ls -> forall fuel i out, below (2 ^ 32) ws ->
  length ws <= fuel ->
  build_loop fuel a b store (word_bytes ws) i out
  = (let* bs := each_ok (fun p => store (fst p) (snd p)) (indexed i ls) in Ok (out ++ concat bs)).
Proof.
  intros a b store ws ls H. induction H as [|l ws ls Hl H IH|n ws ls Hn H IH]; intros fuel i out Hb Hf.
  - destruct fuel; cbn; rewrite app_nil_r; reflexivity.
  - inversion Hb as [|? ? Hx Hb']; subst. cbn [length] in Hf. destruct fuel as [|fuel]; [lia|].
    cbn [build_loop]. unfold word_bytes at 1. cbn [map concat]. rewrite read_eof_app by auto.
    fold (word_bytes (l ++ ws)). rewrite (proj2 (keep_iff a b _) Hl). rewrite word_bytes_app. unfold word_bytes at 1.
    apply Forall_app in Hb'. destruct Hb' as (Hb1 & Hb2).
    rewrite Nat2N.id, read_inv_list_app by auto. cbn [bind indexed each_ok fst snd].
    destruct (store i l) as [bytes|e|]; cbn [bind]; auto.
    rewrite app_length in Hf. rewrite IH by (auto; lia). rewrite bind_assoc. cbn [bind].
    destruct (each_ok (fun p => store (fst p) (snd p)) (indexed (S i) ls)); cbn [bind]; auto.
    cbn [concat]. rewrite app_assoc. reflexivity.
  - inversion Hb as [|? ? Hx Hb']; subst. cbn [length] in Hf. destruct fuel as [|fuel]; [lia|].
    cbn [build_loop]. unfold word_bytes at 1. cbn [map concat]. rewrite read_eof_app by auto.
    fold (word_bytes ws). destruct (keep_list a b n) eqn:E; [apply keep_iff in E; tauto|].
    rewrite seek_words. apply IH; [apply below_skipn; auto|].
    rewrite skipn_length. generalize (N.to_nat (n mod 2 ^ 30)). intros. lia.
Qed.

Theorem read_build : forall a b header store one u lists met stored, fitting_collection one u lists ->
  lengths_met (words lists) met -> lists_read a b (words lists) stored ->
  build_file a b header store (collection_file one u lists)
  = (let* bs := each_ok (fun p => store u (fst p) (snd p)) (indexed 0 stored) in
     Ok (header ++ le_bytes 4 (N.of_nat (length (in_range a b met)) mod 2 ^ 32)
           ++ le_bytes 4 one ++ le_bytes 4 u ++ concat bs)).
Proof.
  intros a b header store one u lists met stored (H1 & H2 & H3 & H4) M R. unfold build_file, collection_file.
  rewrite read_le_app by auto. cbn [bind]. rewrite read_le_app by auto. cbn [bind]. rewrite !lists_words.
  assert (Hb := words_below lists H4 H3).
  rewrite (count_words a b _ met M); [|exact Hb|rewrite word_bytes_length; lia|reflexivity]. cbn [bind].
  rewrite (store_read _ _ _ _ _ R); [|exact Hb|rewrite word_bytes_length; lia].
  destruct (each_ok (fun p => store u (fst p) (snd p)) (indexed 0 stored)); cbn [bind]; auto.
  rewrite N.add_0_l, <- !app_assoc. reflexivity.
Qed.

(** * What the query tool loads *)

Lemma load_some : forall k c old ts bs,
  Forall2 (fun t bt => forall rest, bin_load c old (bt ++ rest) = Ok (t, rest)) ts bs ->
  forall n, load_sequences_cut k n (Ok (c, old)) (concat bs, false)
  = if n <=? length ts then Ok (firstn n ts) else UB Indeterminate.
Proof.
  intros k c old ts bs F. induction F as [|t bt ts bs H F IH]; intros n.
  - destruct n as [|n]; [reflexivity|]. cbn [load_sequences_cut concat snd bind length Nat.leb].
    unfold bin_load_cut, flat_load_cut, level_load_cut, whole. cbn [fst].
    destruct old; reflexivity.
  - destruct n as [|n]; [reflexivity|]. cbn [load_sequences_cut concat snd bind length].
    rewrite (bin_load_ok k _ _ _ false _ _ (H (concat bs))). cbn [bind].
    rewrite IH. change (S n <=? S (length ts)) with (n <=? length ts).
    destruct (n <=? length ts); reflexivity.
Qed.

Theorem long_load : forall fm k a b rank block runs levelwise one u lists met kept,
  formats_ok fm -> fitting_collection one u lists -> (2 <= u)%N ->
  loadable_options rank block levelwise ->
  Forall (stored_ok u (built_variant rank levelwise) runs) kept ->
  lengths_met (words lists) met -> lists_read a b (words lists) kept ->
  exists file ts,
    build_tries fm a b rank block runs levelwise (collection_file one u lists) = Ok file /\
    each_ok (bin_make u (built_variant rank levelwise) runs) kept = Ok ts /\
    load_collection_cut fm k file
    = (let n := (N.of_nat (length (in_range a b met)) mod 2 ^ 32)%N in
       if N.leb n (N.of_nat (length kept)) then Ok (runs, firstn (N.to_nat n) ts)
       else UB Indeterminate).
Proof.
  intros fm k a b rank block runs levelwise one u lists met kept F C Hu2 O K M R.
  assert (Hu : (2 <= u <= 2 ^ 48)%N).
  { split; auto. destruct C as (_ & C & _). apply N.lt_le_incl. eapply N.lt_trans; [exact C|reflexivity]. }
  destruct (loaded_object_spec fm rank block levelwise F O) as (old & Eo & Hold & Hc & Hv).
  set (v := built_variant rank levelwise) in *. set (c := built_codecs fm rank block) in *.
  assert (B : exists ts bs, each_ok (bin_make u v runs) kept = Ok ts /\
    Forall2 (fun t bt => bin_serialize c t = Ok (bt, N.of_nat (length bt)) /\
                (forall rest, bin_load c old (bt ++ rest) = Ok (t, rest))) ts bs).
  { clear - K Hu Hc Hv Hold. induction K as [|l kept Hl _ IH].
    - exists [], []. split; [reflexivity|constructor].
    - destruct IH as (ts & bs & E & G).
      destruct (bin_made u v runs l Hu Hl) as (t & H1 & H2 & H3 & H4 & H5).
      assert (SC : same_class t old) by (destruct v, t, old; cbn in *; try easy; congruence).
      destruct (serialization_round_trip c u v runs l t old [] Hc Hv H1 H2 SC) as (bt & B1 & _).
      exists (t :: ts), (bt :: bs). cbn [each_ok]. rewrite H1. cbn [bind]. rewrite E. split; [reflexivity|].
      constructor; auto. split; auto.
      intros rest. destruct (serialization_round_trip c u v runs l t old rest Hc Hv H1 H2 SC) as (bt' & B1' & B2').
      rewrite B1 in B1'. injection B1' as <-. auto. }
  destruct B as (ts & bs & Ets & B).
  assert (S : each_ok (fun p : nat * list N =>
                (fun u (_ : nat) il => let* t := bin_make u v runs il in
                   let* (bytes, _) := bin_serialize c t in Ok bytes) u (fst p) (snd p)) (indexed 0 kept) = Ok bs).
  { clear - Ets B. revert ts bs Ets B. generalize 0 as n.
    induction kept as [|l kept IH]; intros n ts bs E F; cbn [each_ok indexed] in *.
    - injection E as <-. inversion F. auto.
    - apply bind_inv in E; destruct E as (t0 & H & E); apply bind_inv in E; destruct E as (ts0 & Hts & E). injection E as <-. inversion F as [|t1 b1 ts' bs' Eb F']; subst. cbn [fst snd].
      rewrite H. cbn [bind]. destruct Eb as (Eb & _). rewrite Eb. cbn [bind]. erewrite IH; eauto. reflexivity. }
  eexists. exists ts. split; [|split; auto].
  { unfold build_tries. rewrite (read_build _ _ _ _ _ _ _ _ _ C M R). fold v c.
    cbv beta in S. rewrite S. cbn [bind]. reflexivity. }
  destruct C as (C1 & C2 & _). destruct O as (O1 & Hb & _).
  set (n := (N.of_nat (length (in_range a b met)) mod 2 ^ 32)%N).
  assert (Hn : (n < 2 ^ 32)%N) by (apply N.mod_lt; discriminate). clearbody n.
  unfold load_collection_cut. rewrite <- !app_assoc. 
  rewrite (whole_ok _ _ _ _ _ _ (read_le_app 4 rank _ O1)). cbn [bind].
  assert (X : forall rest, (if N.eqb rank 1 then whole (read_le 4) ((if N.eqb rank 1 then le_bytes 4 block else []) ++ rest, false)
                 else Ok (512%N, ((if N.eqb rank 1 then le_bytes 4 block else []) ++ rest, false)))
              = Ok (if N.eqb rank 1 then block else 512%N, (rest, false))).
  { intros. destruct (N.eqb rank 1); auto. apply whole_ok. apply read_le_app. auto. }
  rewrite X. cbn [bind].
  rewrite (whole_ok _ _ _ _ _ _ (read_bool_app runs _)). cbn [bind].
  rewrite (whole_ok _ _ _ _ _ _ (read_bool_app levelwise _)). cbn [bind].
  rewrite (whole_ok _ _ _ _ _ _ (read_le_app 4 n _ Hn)). cbn [bind].
  rewrite (whole_ok _ _ _ _ _ _ (read_le_app 4 one _ C1)). cbn [bind].
  rewrite (whole_ok _ _ _ _ _ _ (read_le_app 4 u _ C2)). cbn [bind].
  rewrite Eo. rewrite (load_some k c old ts bs).
  2: { eapply Forall2_impl; [|exact B]. cbn. tauto. }
  assert (L := each_ok_length _ _ _ _ _ Ets). rewrite L. cbv zeta.
  destruct (N.leb_spec n (N.of_nat (length kept))) as [Q|Q].
  - replace (N.to_nat n <=? length kept) with true by (symmetry; apply Nat.leb_le; lia). reflexivity.
  - replace (N.to_nat n <=? length kept) with false by (symmetry; apply Nat.leb_gt; lia). reflexivity.
Qed.

(** * Queries over fast tries *)

Lemma increasing_nth : forall l i j x y, increasing l -> i < j ->
  nth_error l i = Some x -> nth_error l j = Some y -> (x < y)%N.
Proof.
  intros l i j x y H. revert i j. induction H as [|z l Hs IH Hz]; intros i j Hij Hi Hj.
  - destruct i; discriminate.
  - destruct j as [|j]; [lia|]. destruct i as [|i].
    + injection Hi as <-. rewrite Forall_forall in Hz. apply Hz. eapply nth_error_In. exact Hj.
    + apply (IH i j); auto. lia.
Qed.

(** How many tries are announced does not matter beyond the last one asked for. *)
Lemma loop_enough : forall c blank ids last n m i np input acc,
  increasing ids -> Forall (fun x => (x <= last)%N) ids ->
  (forall j x, np <= j -> nth_error ids j = Some x -> (i <= x)%N) -> np < length ids ->
  (last < i + N.of_nat n)%N -> (last < i + N.of_nat m)%N ->
  load_tries_loop c blank n i ids np input acc = load_tries_loop c blank m i ids np input acc.
Proof.
  intros c blank ids last. induction n as [|n IH]; intros m i np input acc Inc Hl Hge Hnp Hn Hm.
  - destruct (nth_error ids np) as [x|] eqn:E; [|apply nth_error_None in E; lia].
    assert (X := Hge np x (le_n _) E). rewrite Forall_forall in Hl. assert (Y := Hl x (nth_error_In _ _ E)). lia.
  - destruct m as [|m].
    { destruct (nth_error ids np) as [x|] eqn:E; [|apply nth_error_None in E; lia].
      assert (X := Hge np x (le_n _) E). rewrite Forall_forall in Hl. assert (Y := Hl x (nth_error_In _ _ E)). lia. }
    cbn [load_tries_loop]. destruct (fast_load c blank input) as [(t & input')| |]; cbn [bind]; auto.
    destruct (vget ids np) as [id| |] eqn:V; cbn [bind]; auto.
    apply Facts.vget_inv in V.
    destruct (N.eqb_spec i id) as [<-|Hi].
    + destruct (S np =? length ids) eqn:E; auto. apply Nat.eqb_neq in E.
      apply IH; auto; try lia. intros j x Hj Hx.
      assert (H : (i < x)%N).
      { eapply increasing_nth; eauto. }
      lia.
    + apply IH; auto; try lia. intros j x Hj Hx.
      assert (X := Hge j x Hj Hx). destruct (N.eq_dec i x) as [<-|]; [|lia].
      destruct (Nat.eq_dec j np) as [->|]; [congruence|].
      assert (H : (id < i)%N) by (eapply (increasing_nth ids np j); eauto; lia).
      assert (Y := Hge np id (le_n _) V). lia.
Qed.

Theorem read_fast_queries :
  forall fm junk a b rank runs levelwise lw one u lists met stored blank hc parallel sched queries,
  formats_ok fm -> fitting_collection one u lists -> fast_universe u lw -> (rank < 2 ^ 32)%N -> rank <> 1%N ->
  junk_ok junk -> blank_ok blank ->
  lengths_met (words lists) met -> lists_read a b (words lists) stored -> Forall (fast_ok u) stored ->
  fast_exact_mode u lw runs parallel hc sched stored ->
  queries <> [] -> Forall (query_ok stored) queries ->
  Forall (Forall (fun i => (i < N.of_nat (length (in_range a b met)) mod 2 ^ 32)%N)) queries ->
  exists file rs,
    build_fast_tries fm junk a b rank runs levelwise lw (collection_file one u lists) = Ok file /\
    fast_query_log fm blank sched hc parallel file queries = Ok rs /\
    Forall2 (answers stored) queries rs.
Proof.
  intros fm junk a b rank runs levelwise lw one u lists met stored blank hc parallel sched queries
    F C Hu Hr H1 J B M R K Md Hne Q An.
  assert (Hq : concat queries <> []).
  { destruct queries as [|q qs]; [easy|]. inversion Q as [|? ? (Hq & _) _]; subst; destruct q; easy. }
  assert (Hc := fast_codecs_ok fm rank F).
  destruct (all_made u lw runs junk (fast_codecs fm rank) _ 0 Hu J K) as (ts & Ets & bs & Ebs).
  destruct (set_indexes_spec queries) as (S1 & S2).
  assert (Sne : set_indexes queries <> []).
  { intros E. destruct (concat queries) as [|x l]; [easy|]. assert (X := proj2 (S2 x) (or_introl eq_refl)). rewrite E in X. easy. }
  destruct (B lw) as (B1 & B2).
  destruct (load_tries_loop_spec (fast_codecs fm rank) (blank lw) junk u lw runs stored 0 bs ts []
    (set_indexes queries) [] Hc B1 B2 Hu J K Ets Ebs S1 Sne) as (tries & N1 & N2 & N3).
  { apply Forall_forall. intros. change (N.of_nat 0) with 0%N. lia. }
  cbn [app length] in N1.
  set (n := (N.of_nat (length (in_range a b met)) mod 2 ^ 32)%N) in *.
  assert (Hn : (n < 2 ^ 32)%N) by (apply N.mod_lt; discriminate).
  assert (In1 : forall i, In i (set_indexes queries) -> (i < N.of_nat (length stored))%N /\ (i < n)%N).
  { intros i Hi. apply S2, in_concat in Hi. destruct Hi as (q & Hq1 & Hq2). rewrite Forall_forall in Q, An.
    destruct (Q q Hq1) as (_ & X). assert (Y := An q Hq1). rewrite Forall_forall in X, Y. auto. }
  assert (N1' : load_tries_loop (fast_codecs fm rank) (blank lw) (N.to_nat n) 0 (set_indexes queries) 0 (concat bs) [] = Ok tries).
  { rewrite <- N1. change (N.of_nat 0) with 0%N.
    destruct (set_indexes queries) as [|x l] eqn:Es; [easy|]. rewrite <- Es in *.
    apply (loop_enough _ _ _ (N.min (N.of_nat (length stored)) n - 1)).
    - exact S1.
    - apply Forall_forall. intros y Hy. destruct (In1 y Hy). lia.
    - intros. lia.
    - rewrite Es. cbn [length]. lia.
    - assert (X : In x (set_indexes queries)) by (rewrite Es; left; reflexivity). destruct (In1 x X). lia.
    - assert (X : In x (set_indexes queries)) by (rewrite Es; left; reflexivity). destruct (In1 x X). lia. }
  eexists. 
  assert (Q' : exists rs, fast_query_log fm blank sched hc parallel
    ((le_bytes 4 rank ++ [bool_byte runs] ++ [bool_byte levelwise] ++ le_bytes 2 (wbits lw))
      ++ le_bytes 4 n ++ le_bytes 4 one ++ le_bytes 4 u ++ concat bs) queries = Ok rs /\
    Forall2 (answers stored) queries rs).
  { unfold fast_query_log. rewrite fast_header; auto; [|apply Hu]. cbn [bind oget].
    rewrite word_log_wbits by apply Hu. destruct C as (C1 & C2 & _).
    unfold load_tries. rewrite read_le_app by auto. cbn [bind]. rewrite read_le_app by auto. cbn [bind].
    rewrite read_le_app by auto. cbn [bind]. rewrite N1'. cbn [bind]. unfold map_queries.
    destruct (run_queries_spec _ (fun i => Ok (trie_pointer tries i))
      (fun nq rep ps => let* ts := each_ok deref ps in
         Intersect (Fast lw) (fst (sched nq rep)) (snd (sched nq rep)) hc (map fast_ops ts) runs parallel)
      (fun q r => is_intersection (lists_at stored q) r) queries 0) as (rs & R1 & R2).
    { apply Forall_forall. intros q Hin. rewrite Forall_forall in Q. assert (Qq := Q q Hin).
      exists (map (trie_pointer tries) q). split; [apply each_ok_total|]. intros Hl nq rep.
      destruct (fast_pick u lw runs junk stored ts tries q Ets) as (qs & fresh & P1 & P2 & P3).
      { intros i Hi. rewrite N2, filter_In. cbn [Nat.add]. rewrite N.ltb_lt.
        assert (Z : In i (set_indexes queries)) by (apply S2, in_concat; eauto). split; [exact Z|apply In1; exact Z]. }
      { intros i t Hi. rewrite Forall_forall in N3. destruct (N3 _ Hi) as (t0 & Y1 & Y2).
        cbn [fst snd] in *. rewrite Nat.sub_0_r in Y1. eauto. }
      { apply Qq. }
      rewrite each_ok_map. change (fun i => deref (trie_pointer tries i)) with (find_trie tries).
      rewrite P1. cbn [bind]. eapply fast_answer; eauto. }
    exists rs. split; auto. }
  destruct Q' as (rs & R1 & R2). exists rs. split; [|split; [exact R1|exact R2]].
  unfold build_fast_tries. rewrite (read_build _ _ _ _ _ _ _ _ _ C M R).
  change (each_ok _ _) with (each_ok (FastToolsThms.stored (fast_codecs fm rank) u lw runs junk) (indexed 0 stored)).
  rewrite Ebs. cbn [bind]. reflexivity.
Qed.

(** Fewer rounds of the loop read no more. *)
Lemma loop_less : forall c blank ids n m i np input acc r, n <= m ->
  load_tries_loop c blank m i ids np input acc = Ok r ->
  exists r', load_tries_loop c blank n i ids np input acc = Ok r'.
Proof.
  intros c blank ids. induction n as [|n IH]; intros m i np input acc r Hm H; [eexists; reflexivity|].
  destruct m as [|m]; [lia|]. cbn [load_tries_loop] in *.
  destruct (fast_load c blank input) as [(t & input')| |]; cbn [bind] in *; try discriminate.
  destruct (vget ids np) as [id| |]; cbn [bind] in *; try discriminate.
  destruct (N.eqb i id).
  - destruct (S np =? length ids); [eexists; reflexivity|]. eapply (IH m); [lia|exact H].
  - eapply (IH m); [lia|exact H].
Qed.

Lemma loop_ids : forall c blank ids n i np input acc r, Forall (fun p => (fst p < i)%N) acc ->
  load_tries_loop c blank n i ids np input acc = Ok r -> Forall (fun p => (fst p < i + N.of_nat n)%N) r.
Proof.
  intros c blank ids. induction n as [|n IH]; intros i np input acc r Ha H; cbn [load_tries_loop] in H.
  - injection H as <-. eapply Forall_impl; [|exact Ha]. cbn beta. intros; lia.
  - destruct (fast_load c blank input) as [(t & input')| |]; cbn [bind] in *; try discriminate.
    destruct (vget ids np) as [id| |]; cbn [bind] in *; try discriminate.
    assert (Ha' : Forall (fun p => (fst p < i + 1)%N) acc)
      by (eapply Forall_impl; [|exact Ha]; cbn beta; intros; lia).
    assert (Hb : Forall (fun p => (fst p < i + 1)%N) (acc ++ [(i, t)])).
    { apply Forall_app. split; [exact Ha'|]. constructor; [cbn [fst]; lia|constructor]. }
    assert (X : forall l : list (N * fast), Forall (fun p => (fst p < i + 1 + N.of_nat n)%N) l ->
                  Forall (fun p => (fst p < i + N.of_nat (S n))%N) l).
    { intros l. apply Forall_impl. intros; lia. }
    destruct (N.eqb i id).
    + destruct (S np =? length ids).
      * injection H as <-. eapply Forall_impl; [|exact Hb]. cbn beta. intros; lia.
      * apply X. eapply IH; [|exact H]. exact Hb.
    + apply X. eapply IH; [|exact H]. exact Ha'.
Qed.

(** An id that is not announced is never loaded, though its trie may be in the file. *)
Theorem read_fast_missing :
  forall fm junk a b rank runs levelwise lw one u lists met stored blank hc parallel sched q i,
  formats_ok fm -> fitting_collection one u lists -> fast_universe u lw -> (rank < 2 ^ 32)%N -> rank <> 1%N ->
  junk_ok junk -> blank_ok blank ->
  lengths_met (words lists) met -> lists_read a b (words lists) stored -> Forall (fast_ok u) stored ->
  let n := (N.of_nat (length (in_range a b met)) mod 2 ^ 32)%N in
  (n <= N.of_nat (length stored))%N -> length q <= 16 -> In i q -> (n <= i)%N ->
  exists file,
    build_fast_tries fm junk a b rank runs levelwise lw (collection_file one u lists) = Ok file /\
    fast_query_log fm blank sched hc parallel file [q] = UB NullDeref.
Proof.
  intros fm junk a b rank runs levelwise lw one u lists met stored blank hc parallel sched q i
    F C Hu Hr H1 J B M R K n Hns Hl Hi Hni.
  assert (Hc := fast_codecs_ok fm rank F).
  destruct (all_made u lw runs junk (fast_codecs fm rank) _ 0 Hu J K) as (ts & Ets & bs & Ebs).
  destruct (set_indexes_spec [q]) as (S1 & S2).
  assert (Sne : set_indexes [q] <> []).
  { intros E. assert (X : In i (set_indexes [q])) by (apply S2; cbn [concat]; rewrite app_nil_r; exact Hi).
    rewrite E in X. easy. }
  destruct (B lw) as (B1 & B2).
  destruct (load_tries_loop_spec (fast_codecs fm rank) (blank lw) junk u lw runs stored 0 bs ts []
    (set_indexes [q]) [] Hc B1 B2 Hu J K Ets Ebs S1 Sne) as (tries & N1 & _).
  { apply Forall_forall. intros. change (N.of_nat 0) with 0%N. lia. }
  cbn [app length] in N1. change (N.of_nat 0) with 0%N in N1.
  assert (Hn : (n < 2 ^ 32)%N) by (apply N.mod_lt; discriminate).
  assert (En : n = (N.of_nat (length (in_range a b met)) mod 2 ^ 32)%N) by reflexivity. clearbody n.
  destruct (loop_less _ _ _ (N.to_nat n) (length stored) _ _ _ _ _ ltac:(lia) N1) as (few & N2).
  assert (N3 := loop_ids _ _ _ _ _ _ _ _ _ (Forall_nil _) N2).
  eexists. split.
  - unfold build_fast_tries. rewrite (read_build _ _ _ _ _ _ _ _ _ C M R).
    change (each_ok _ _) with (each_ok (FastToolsThms.stored (fast_codecs fm rank) u lw runs junk) (indexed 0 stored)).
    rewrite Ebs. cbn [bind]. rewrite <- En. reflexivity.
  - unfold fast_query_log. rewrite fast_header; auto; [|apply Hu]. cbn [bind oget].
    rewrite word_log_wbits by apply Hu. destruct C as (C1 & C2 & _).
    unfold load_tries. rewrite read_le_app by auto. cbn [bind]. rewrite read_le_app by auto. cbn [bind].
    rewrite read_le_app by auto. cbn [bind]. rewrite N2. cbn [bind]. unfold map_queries. cbn [run_queries].
    rewrite each_ok_total. cbn [bind]. rewrite map_length. replace (length q <=? 16) with true by (symmetry; apply Nat.leb_le; auto).
    unfold repeat_query. cbn [for_loop]. rewrite each_ok_map.
    assert (X : each_ok (fun i => deref (trie_pointer few i)) q = UB NullDeref).
    { assert (N4 : deref (trie_pointer few i) = UB NullDeref).
      { unfold trie_pointer. destruct (find (fun q => N.eqb (fst q) i) few) as [(j, t)|] eqn:E; [|reflexivity].
        exfalso. apply find_some in E. cbn [fst] in E. destruct E as (X1 & X2). apply N.eqb_eq in X2. subst j.
        rewrite Forall_forall in N3. specialize (N3 _ X1). cbn [fst] in N3. lia. }
      clear - Hi N4. induction q as [|j q IH]; [easy|]. cbn [each_ok].
      destruct Hi as [->|Hi]; [rewrite N4; reflexivity|].
      destruct (deref (trie_pointer few j)) as [t| |] eqn:E; cbn [bind].
      - rewrite (IH Hi). reflexivity.
      - unfold deref in E. destruct (trie_pointer few j); congruence.
      - unfold deref in E. destruct (trie_pointer few j); congruence. }
    rewrite X. reflexivity.
Qed.

(** * Which lengths are met *)

Theorem met_exists : forall ws, exists met, lengths_met ws met.
Proof.
  intros ws. assert (X : forall n ws, length ws <= n -> exists met, lengths_met ws met).
  { clear. induction n as [|n IH]; intros ws H.
    - destruct ws; [|cbn in H; lia]. exists []. constructor.
    - destruct ws as [|w ws]; [exists []; constructor|]. cbn [length] in H.
      destruct (IH (skipn (N.to_nat (w mod 2 ^ 30)) ws)) as (met & M).
      { rewrite skipn_length. generalize (N.to_nat (w mod 2 ^ 30)). intros. lia. }
      exists (w :: met). constructor. auto. }
  eapply X; eauto.
Qed.

Lemma met_unique : forall ws met, lengths_met ws met -> forall met', lengths_met ws met' -> met' = met.
Proof.
  intros ws met H. induction H as [|n ws met H IH]; intros met' H'; inversion H'; subst; auto.
  f_equal. auto.
Qed.

Lemma met_app : forall l rest met, shorter 30 l -> lengths_met rest met ->
  lengths_met (N.of_nat (length l) :: l ++ rest) (N.of_nat (length l) :: met).
Proof.
  intros l rest met H M. constructor. rewrite N.mod_small by exact H. rewrite Nat2N.id, skipn_length_app. auto.
Qed.

Theorem met_short : forall lists met, Forall (shorter 30) lists ->
  (lengths_met (words lists) met <-> met = map (fun l => N.of_nat (length l)) lists).
Proof.
  intros lists met H.
  assert (X : lengths_met (words lists) (map (fun l => N.of_nat (length l)) lists)).
  { unfold words. induction H; [constructor|]. cbn [map concat app]. apply met_app; auto. }
  split; [intros M; eapply met_unique; eauto|intros ->; auto].
Qed.

(** * Runs of 2^30 values *)

Lemma run_skip : forall k x n rest, k <= n -> skipn k (run_from x n ++ rest) = run_from (x + N.of_nat k) (n - k) ++ rest.
Proof.
  induction k as [|k IH]; intros x n rest H.
  - cbn [skipn]. rewrite Nat.sub_0_r. f_equal. f_equal. lia.
  - destruct n as [|n]; [lia|]. cbn [run_from app skipn]. rewrite IH by lia. f_equal. f_equal; lia.
Qed.

Lemma run_length : forall n x, length (run_from x n) = n.
Proof. induction n; intros; cbn [run_from length]; auto. Qed.

Lemma run_in : forall n x y, In y (run_from x n) <-> (x <= y < x + N.of_nat n)%N.
Proof.
  induction n as [|n IH]; intros x y; cbn [run_from In]; [lia|]. rewrite IH. lia.
Qed.

Lemma run_within : forall x m y, In y (run_from x (N.to_nat m)) -> (x <= y < x + m)%N.
Proof. intros x m y H. rewrite run_in in H. lia. Qed.

Lemma run_increasing : forall n x, increasing (run_from x n).
Proof.
  unfold increasing. induction n as [|n IH]; intros x; cbn [run_from]; constructor; auto.
  apply Forall_forall. intros y H. apply run_in in H. lia.
Qed.

Fixpoint jumps (base j : N) (d : nat) : list N :=
  (base + 2 ^ j - 1)%N :: match d with O => [] | S d' => jumps base (j + 1) d' end.

Lemma jump_mod : forall base j, (base mod 2 ^ 30 = 0)%N -> (j <= 30)%N ->
  ((base + 2 ^ j - 1) mod 2 ^ 30 = 2 ^ j - 1)%N.
Proof.
  intros base j H Hj. apply N.mod_divide in H; [|discriminate]. destruct H as (q & ->).
  assert (P : (0 < 2 ^ j)%N) by (apply N.neq_0_lt_0, N.pow_nonzero; discriminate).
  assert (L : (2 ^ j <= 2 ^ 30)%N) by (apply N.pow_le_mono_r; [discriminate|auto]).
  replace (q * 2 ^ 30 + 2 ^ j - 1)%N with (2 ^ j - 1 + q * 2 ^ 30)%N
    by (revert P L; generalize (q * 2 ^ 30)%N, (2 ^ j)%N; clear; intros; lia).
  rewrite N.mod_add by discriminate. apply N.mod_small.
  revert P L. generalize (2 ^ 30)%N, (2 ^ j)%N. clear. intros. lia.
Qed.

Lemma run_met : forall base rest met, (base mod 2 ^ 30 = 0)%N ->
  lengths_met (skipn (N.to_nat (2 ^ 30 - 1)) rest) met ->
  forall d j, (j + N.of_nat d = 30)%N ->
  lengths_met (run_from (base + 2 ^ j - 1) (N.to_nat (2 ^ 30 - (2 ^ j - 1))) ++ rest) (jumps base j d ++ met).
Proof.
  intros base rest met Hb M. induction d as [|d IH]; intros j Hj.
  - assert (E : j = 30%N) by lia. subst j.
    assert (E : N.to_nat (2 ^ 30 - (2 ^ 30 - 1)) = 1).
    { replace (2 ^ 30 - (2 ^ 30 - 1))%N with 1%N by reflexivity. reflexivity. }
    rewrite E. cbn [run_from app jumps]. constructor. rewrite jump_mod by (auto; lia). exact M.
  - assert (P : (0 < 2 ^ j)%N) by (apply N.neq_0_lt_0, N.pow_nonzero; discriminate).
    assert (L : (2 ^ (j + 1) <= 2 ^ 30)%N) by (apply N.pow_le_mono_r; [discriminate|lia]).
    assert (D : (2 ^ (j + 1) = 2 * 2 ^ j)%N) by (rewrite N.add_1_r; apply N.pow_succ_r'; lia).
    assert (IH' := IH (j + 1)%N ltac:(lia)).
    assert (JM := jump_mod base j Hb ltac:(lia)).
    cbn [jumps app].
    remember (2 ^ 30)%N as T eqn:ET. rewrite D in IH', L.
    remember (2 ^ j)%N as p eqn:Ep.
    assert (E : exists m, N.to_nat (T - (p - 1)) = S m /\ N.to_nat (p - 1) <= m /\
                m - N.to_nat (p - 1) = N.to_nat (T - (2 * p - 1))).
    { exists (N.to_nat (T - p)). clear - P L. lia. }
    destruct E as (m & E1 & E2 & E3). rewrite E1. cbn [run_from app]. constructor.
    rewrite <- ET, JM. rewrite run_skip by exact E2. rewrite E3.
    replace (base + p - 1 + 1 + N.of_nat (N.to_nat (p - 1)))%N with (base + 2 * p - 1)%N
      by (clear - P; lia).
    exact IH'.
Qed.

(** All that is used of a run of 2^30 values, so that the number is never unfolded. *)
Definition is_run (x : N) (r : list N) : Prop :=
  N.of_nat (length r) = (2 ^ 30)%N /\ increasing r /\ (forall y, In y r -> (x <= y < x + 2 ^ 30)%N) /\
  forall rest met, lengths_met (skipn (N.to_nat (2 ^ 30 - 1)) rest) met ->
    lengths_met (N.of_nat (length r) :: r ++ rest) (2 ^ 30 :: jumps x 0 30 ++ met)%N.

Lemma run_is_run : forall x, (x mod 2 ^ 30 = 0)%N -> is_run x (run_from x (N.to_nat (2 ^ 30))).
Proof.
  intros x Hx.
  assert (L : N.of_nat (length (run_from x (N.to_nat (2 ^ 30)))) = (2 ^ 30)%N)
    by (rewrite run_length; apply N2Nat.id).
  split; [exact L|]. split; [apply run_increasing|]. split; [intros y Hy; apply run_within; exact Hy|].
  intros rest met M. rewrite L. constructor.
  replace (2 ^ 30 mod 2 ^ 30)%N with 0%N by reflexivity. change (N.to_nat 0) with 0. cbn [skipn].
  assert (R := run_met x rest met Hx M 30 0 eq_refl).
  replace (x + 2 ^ 0 - 1)%N with x in R by (change (2 ^ 0)%N with 1%N; clear; lia).
  assert (Z : (2 ^ 30 - (2 ^ 0 - 1) = 2 ^ 30)%N) by reflexivity.
  rewrite Z in R.
  exact R.
Qed.

Lemma run_stored : forall x u v r, is_run x r -> (x + 2 ^ 30 <= u)%N -> stored_ok u v false r.
Proof.
  intros x u v r (L & Inc & W & _) H.
  assert (Hne : r <> []).
  { intros E. rewrite E in L. discriminate L. }
  assert (Hs : shorter 32 r).
  { unfold shorter. rewrite L. reflexivity. }
  split; [|split; [exact Hne|destruct v; [discriminate|exact I]]].
  split; [exact Inc|]. split.
  - apply Forall_forall. intros y Hy. apply W in Hy.
    revert H Hy. generalize (2 ^ 30)%N. clear. intros. lia.
  - destruct v; [|exact I]. split; [|split; [exact Hne|exact Hs]]. eapply N.le_trans; [|exact H]. eapply N.le_trans with (2 ^ 30)%N; [discriminate|].
    generalize (2 ^ 30)%N. clear. intros. lia.
Qed.

Lemma run_kept : forall a b x r lists, is_run x r -> (a < 2 ^ 30 <= b)%N ->
  kept_lists a b (r :: lists) = r :: kept_lists a b lists.
Proof.
  intros a b x r lists (L & _) (H1 & H2). rewrite kept_cons, L. unfold keep_list.
  apply N.ltb_lt in H1. apply N.leb_le in H2. rewrite H1, H2. reflexivity.
Qed.

Lemma in_range_same : forall a b b' l, Forall (fun n => N.leb n b = N.leb n b') l ->
  in_range a b l = in_range a b' l.
Proof.
  intros a b b' l H. unfold in_range. induction H as [|n l Hn _ IH]; auto. cbn [filter]. rewrite Hn, IH. reflexivity.
Qed.

Lemma outside_ids : forall (t : bin_trie) q, Exists (fun i => (1 <= i)%N) q ->
  each_ok (fun i => vgetN [t] i) q = UB OutOfBounds.
Proof.
  intros t q H. induction q as [|i q IH]; [inversion H|]. cbn [each_ok].
  destruct (N.eq_dec i 0) as [->|Hi].
  - change (vgetN [t] 0%N) with (Ok t). cbn [bind]. rewrite IH; [reflexivity|].
    inversion H as [? ? Hx|]; subst; [lia|auto].
  - unfold vgetN. replace (N.ltb i (N.of_nat (length [t]))) with false; [reflexivity|].
    symmetry. apply N.ltb_ge. cbn [length]. lia.
Qed.

Lemma run_counted : forall r, is_run 0 r -> forall b one, (one < 2 ^ 32)%N -> (2 ^ 30 <= b)%N ->
  long_collection_ok 0 b one (2 ^ 30) [r] /\ kept_lists 0 b [r] = [r] /\
  lengths_met (words [r]) (2 ^ 30 :: jumps 0 0 30 ++ [])%N /\
  N.of_nat (length (in_range 0 b (2 ^ 30 :: jumps 0 0 30 ++ [])%N)) = 31%N.
Proof.
  intros r IR b one H1 Hb. assert (IR' := IR). destruct IR' as (Lr & _ & Wr & Mr).
  assert (Kp : kept_lists 0 b [r] = [r]) by (apply (run_kept 0 b 0 r [] IR); split; [reflexivity|auto]).
  assert (C : long_collection_ok 0 b one (2 ^ 30) [r]).
  { split; [auto|]. split; [reflexivity|]. rewrite Kp. split; [|split].
    - constructor; [|constructor]. apply Forall_forall. intros y Hy. apply Wr in Hy.
      destruct Hy as (_ & Hy). eapply N.lt_trans; [exact Hy|reflexivity].
    - constructor; [|constructor]. unfold shorter. rewrite Lr. reflexivity.
    - constructor; [|constructor]. right. left. reflexivity. }
  assert (M : lengths_met (words [r]) (2 ^ 30 :: jumps 0 0 30 ++ [])%N).
  { unfold words. cbn [map concat app]. apply (Mr [] []). rewrite skipn_nil. constructor. }
  assert (Cn : N.of_nat (length (in_range 0 b (2 ^ 30 :: jumps 0 0 30 ++ [])%N)) = 31%N).
  { rewrite (in_range_same 0 b (2 ^ 30)%N); [vm_compute; reflexivity|].
    assert (X : Forall (fun n => (n <= 2 ^ 30)%N) (2 ^ 30 :: jumps 0 0 30 ++ [])%N).
    { apply Forall_forall. intros n Hn. apply N.leb_le.
      assert (Y : forallb (fun n => N.leb n (2 ^ 30)) (2 ^ 30 :: jumps 0 0 30 ++ [])%N = true) by (vm_compute; reflexivity).
      rewrite forallb_forall in Y. auto. }
    eapply Forall_impl; [|exact X]. cbv beta. intros n Hn.
    rewrite (proj2 (N.leb_le n (2 ^ 30)) Hn). apply N.leb_le. eapply N.le_trans; eauto. }
  split; [exact C|]. split; [exact Kp|]. split; [exact M|exact Cn].
Qed.

Theorem run_miscounted : forall r, is_run 0 r -> forall fm k b rank block levelwise one,
  formats_ok fm -> loadable_options rank block levelwise -> (one < 2 ^ 32)%N -> (2 ^ 30 <= b)%N ->
  long_collection_ok 0 b one (2 ^ 30) [r] /\
  Forall (stored_ok (2 ^ 30) (built_variant rank levelwise) false) [r] /\
  exists file t rest,
    bin_make (2 ^ 30) (built_variant rank levelwise) false r = Ok t /\
    build_tries fm 0 b rank block false levelwise (collection_file one (2 ^ 30) [r]) = Ok file /\
    file = le_bytes 4 rank ++ (if N.eqb rank 1 then le_bytes 4 block else []) ++ [0]%N
           ++ [bool_byte levelwise] ++ le_bytes 4 31 ++ rest /\
    load_collection_cut fm k file = UB Indeterminate.
Proof.
  intros r IR fm k b rank block levelwise one F O H1 Hb. assert (IR' := IR). destruct IR' as (Lr & _ & Wr & Mr).
  destruct (run_counted r IR b one H1 Hb) as (C & Kp & M & Cn).
  assert (Hs : stored_ok (2 ^ 30) (built_variant rank levelwise) false r)
    by (apply (run_stored 0 _ _ _ IR); discriminate).
  split; [auto|]. split; [constructor; auto|].
  assert (R := proj2 (long_read 0 b one (2 ^ 30) [r] _ C) eq_refl). rewrite Kp in R.
  assert (C0 : fitting_collection one (2 ^ 30) [r]) by (destruct C as (Q1 & Q2 & Q3 & Q4 & _); repeat split; assumption).
  destruct (long_load fm k 0 b rank block false levelwise one (2 ^ 30) [r] _ [r] F C0
    ltac:(discriminate) O ltac:(constructor; [exact Hs|constructor]) M R) as (file & ts & E1 & E2 & E3).
  assert (C' : fitting_collection one (2 ^ 30) [r]) by (destruct C as (Q1 & Q2 & Q3 & Q4 & _); repeat split; assumption).
  destruct (long_files _ _ _ _ _ _ _ _ _ _ _ _ C' M E1) as (stored' & ts' & records & _ & G1 & G2 & G3).
  rewrite Cn in E3, G3. cbn [each_ok] in E2. apply bind_inv in E2. destruct E2 as (t & Et & E2).
  exists file, t. eexists. split; [exact Et|]. split; [exact E1|]. split; [exact G3|]. exact E3.
Qed.

(** One list is announced of a run from 2^31 on and what follows it. *)
Lemma first_counted : forall r, is_run (2 ^ 31) r -> forall a b one u others,
  (one < 2 ^ 32)%N -> (2 ^ 31 + 2 ^ 30 <= u < 2 ^ 32)%N -> (a < 2 ^ 30)%N -> (2 ^ 30 <= b < 2 ^ 31)%N ->
  Forall (shorter 30) others -> Forall (below (2 ^ 32)) others ->
  (N.of_nat (length (words others)) < 2 ^ 30)%N ->
  kept_lists a b (r :: others) = r :: kept_lists a b others /\
  long_collection_ok a b one u (r :: others) /\
  lengths_met (words (r :: others)) (2 ^ 30 :: jumps (2 ^ 31) 0 30 ++ [])%N /\
  N.of_nat (length (in_range a b (2 ^ 30 :: jumps (2 ^ 31) 0 30 ++ [])%N)) = 1%N.
Proof.
  intros r IR a b one u others H1 (Hu1 & Hu2) Ha (Hb1 & Hb2) S30 B32 Hw. assert (IR' := IR). destruct IR' as (Lr & _ & Wr & Mr).
  assert (Kp : kept_lists a b (r :: others) = r :: kept_lists a b others)
    by (apply (run_kept _ _ _ _ _ IR); auto).
  assert (C : long_collection_ok a b one u (r :: others)).
  { split; [auto|]. split; [auto|]. rewrite Kp. split; [|split].
    - constructor; auto. apply Forall_forall. intros y Hy. apply Wr in Hy.
      destruct Hy as (_ & Hy). eapply N.lt_trans; [exact Hy|reflexivity].
    - constructor; [unfold shorter; rewrite Lr; reflexivity|].
      eapply Forall_impl; [|exact S30]. unfold shorter. intros l Hl. eapply N.lt_trans; [exact Hl|reflexivity].
    - constructor; [right; left; reflexivity|]. eapply Forall_impl; [|exact S30]. auto. }
  assert (M : lengths_met (words (r :: others)) (2 ^ 30 :: jumps (2 ^ 31) 0 30 ++ [])%N).
  { change (words (r :: others)) with (N.of_nat (length r) :: r ++ words others).
    apply (Mr (words others) []). rewrite skipn_over; [constructor|].
    revert Hw. generalize (length (words others)). intros n Hn.
    assert (X : (N.of_nat n <= 2 ^ 30 - 1)%N) by (revert Hn; generalize (2 ^ 30)%N; clear; intros; lia).
    revert X. generalize (2 ^ 30 - 1)%N. clear. intros. lia. }
  assert (Cn : N.of_nat (length (in_range a b (2 ^ 30 :: jumps (2 ^ 31) 0 30 ++ [])%N)) = 1%N).
  { assert (X : Forall (fun n => (2 ^ 31 <= n)%N) (jumps (2 ^ 31) 0 30 ++ [])%N).
    { apply Forall_forall. intros n Hn. apply N.leb_le.
      assert (Y : forallb (fun n => N.leb (2 ^ 31) n) (jumps (2 ^ 31) 0 30 ++ [])%N = true) by (vm_compute; reflexivity).
      rewrite forallb_forall in Y. auto. }
    revert X. generalize (jumps (2 ^ 31) 0 30 ++ [])%N. intros l X. unfold in_range. cbn [filter].
    apply N.ltb_lt in Ha. apply N.leb_le in Hb1. rewrite Ha, Hb1. cbn [andb length].
    assert (Z : filter (fun n => (N.ltb a n && N.leb n b)%bool) l = []).
    { clear - X Hb2. induction X as [|n l Hn _ IH]; auto. cbn [filter].
      replace (N.leb n b) with false by (symmetry; apply N.leb_gt; eapply N.lt_le_trans; eauto).
      rewrite Bool.andb_false_r. exact IH. }
    rewrite Z. reflexivity. }
  auto.
Qed.

Theorem run_loses_lists : forall r, is_run (2 ^ 31) r -> forall fm k a b rank block levelwise one u others,
  formats_ok fm -> loadable_options rank block levelwise -> (one < 2 ^ 32)%N ->
  (2 ^ 31 + 2 ^ 30 <= u < 2 ^ 32)%N -> (a < 2 ^ 30)%N -> (2 ^ 30 <= b < 2 ^ 31)%N ->
  Forall (shorter 30) others -> Forall (below (2 ^ 32)) others ->
  (N.of_nat (length (words others)) < 2 ^ 30)%N ->
  Forall (stored_ok u (built_variant rank levelwise) false) (kept_lists a b others) ->
  long_collection_ok a b one u (r :: others) /\
  Forall (stored_ok u (built_variant rank levelwise) false) (kept_lists a b (r :: others)) /\
  kept_lists a b (r :: others) = r :: kept_lists a b others /\
  exists file t,
    build_tries fm a b rank block false levelwise (collection_file one u (r :: others)) = Ok file /\
    bin_make u (built_variant rank levelwise) false r = Ok t /\
    load_collection_cut fm k file = Ok (false, [t]) /\
    forall sched hc parallel q queries, Exists (fun i => (1 <= i)%N) q ->
      query_log_cut fm k sched hc parallel file (q :: queries) = UB OutOfBounds.
Proof.
  intros r IR fm k a b rank block levelwise one u others F O H1 Hu Ha Hb S30 B32 Hw K.
  destruct (first_counted r IR a b one u others H1 Hu Ha Hb S30 B32 Hw) as (Kp & C & M & Cn).
  assert (Hu1 := proj1 Hu).
  assert (Hs : stored_ok u (built_variant rank levelwise) false r) by (apply (run_stored _ _ _ _ IR); auto).
  assert (Ks : Forall (stored_ok u (built_variant rank levelwise) false) (kept_lists a b (r :: others)))
    by (rewrite Kp; constructor; auto).
  split; [auto|]. split; [auto|]. split; [auto|].
  assert (R := proj2 (long_read a b one u (r :: others) _ C) eq_refl).
  assert (C0 : fitting_collection one u (r :: others)) by (destruct C as (Q1 & Q2 & Q3 & Q4 & _); repeat split; assumption).
  destruct (long_load fm k a b rank block false levelwise one u (r :: others) _ _ F C0
    ltac:(eapply N.le_trans; [|exact Hu1]; discriminate) O Ks M R) as (file & ts & E1 & E2 & E3).
  rewrite Cn in E3. rewrite Kp in E2, E3. cbn [each_ok] in E2. apply bind_inv in E2. destruct E2 as (t & Et & E2).
  apply bind_inv in E2. destruct E2 as (ts' & Ets & E2). injection E2 as <-.
  assert (E4 : load_collection_cut fm k file = Ok (false, [t])).
  { rewrite E3. cbv zeta. change (1 mod 2 ^ 32)%N with 1%N.
    replace (N.leb 1 (N.of_nat (length (r :: kept_lists a b others)))) with true; [reflexivity|].
    symmetry. apply N.leb_le. cbn [length]. lia. }
  exists file, t. split; [exact E1|]. split; [exact Et|]. split; [exact E4|].
  intros sched hc parallel q queries Hq. unfold query_log_cut. rewrite E4. cbn [bind run_queries].
  rewrite outside_ids by exact Hq. reflexivity.
Qed.

Theorem run_fast_loses_lists : forall r, is_run (2 ^ 31) r ->
  forall fm junk a b rank levelwise lw one u others,
  formats_ok fm -> In lw [3; 4; 5; 6] -> (rank < 2 ^ 32)%N -> rank <> 1%N -> junk_ok junk -> (one < 2 ^ 32)%N ->
  (2 ^ 31 + 2 ^ 30 <= u < 2 ^ 32)%N -> (a < 2 ^ 30)%N -> (2 ^ 30 <= b < 2 ^ 31)%N ->
  Forall (shorter 30) others -> Forall (below (2 ^ 32)) others ->
  (N.of_nat (length (words others)) < 2 ^ 30)%N ->
  Forall (fast_ok u) (kept_lists a b others) ->
  long_collection_ok a b one u (r :: others) /\
  Forall (fast_ok u) (kept_lists a b (r :: others)) /\
  kept_lists a b (r :: others) = r :: kept_lists a b others /\
  exists file,
    build_fast_tries fm junk a b rank false levelwise lw (collection_file one u (r :: others)) = Ok file /\
    forall blank hc parallel sched q, blank_ok blank -> length q <= 16 -> Exists (fun i => (1 <= i)%N) q ->
      fast_query_log fm blank sched hc parallel file [q] = UB NullDeref.
Proof.
  intros r IR fm junk a b rank levelwise lw one u others F Hlw Hr R1 J H1 Hu Ha Hb S30 B32 Hw K.
  destruct (first_counted r IR a b one u others H1 Hu Ha Hb S30 B32 Hw) as (Kp & C & M & Cn).
  assert (Hf : fast_ok u r).
  { destruct IR as (L & Inc & W & _). split; [intros E; rewrite E in L; discriminate L|].
    split; [exact Inc|]. split; [|unfold shorter; rewrite L; reflexivity].
    apply Forall_forall. intros y Hy. apply W in Hy. eapply N.lt_le_trans; [apply Hy|apply Hu]. }
  assert (Ks : Forall (fast_ok u) (kept_lists a b (r :: others))) by (rewrite Kp; constructor; auto).
  split; [auto|]. split; [auto|]. split; [auto|].
  assert (R := proj2 (long_read a b one u (r :: others) _ C) eq_refl).
  assert (C0 : fitting_collection one u (r :: others)) by (destruct C as (Q1 & Q2 & Q3 & Q4 & _); repeat split; assumption).
  assert (Fu : fast_universe u lw).
  { split; [exact Hlw|]. destruct Hu as (Hu1 & Hu2).
    assert (X : (2 ^ 31 + 2 ^ 30 <= 2 * u)%N) by (apply N.le_trans with u; [exact Hu1|clear; lia]).
    split; [eapply N.lt_le_trans; [|exact X]; destruct Hlw as [<-|[<-|[<-|[<-|[]]]]]; reflexivity|].
    apply N.mul_le_mono_l, N.lt_le_incl. eapply N.lt_trans; [exact Hu2|reflexivity]. }
  assert (G : forall blank hc parallel sched q, blank_ok blank -> length q <= 16 -> Exists (fun i => (1 <= i)%N) q ->
    exists file, build_fast_tries fm junk a b rank false levelwise lw (collection_file one u (r :: others)) = Ok file /\
      fast_query_log fm blank sched hc parallel file [q] = UB NullDeref).
  { intros blank hc parallel sched q B Hq Hx. apply Exists_exists in Hx. destruct Hx as (i & Hi & H).
    apply (read_fast_missing fm junk a b rank false levelwise lw one u (r :: others) _ _ blank hc parallel sched q i
      F C0 Fu Hr R1 J B M R Ks); auto; rewrite Cn; change (1 mod 2 ^ 32)%N with 1%N; auto.
    rewrite Kp. cbn [length]. lia. }
  destruct (G (fun lw => fast_default lw 0 0 None false None) 1%N false (fun _ _ => (in_order, in_order)) [1%N])
    as (file & E & _).
  - intros x. split; reflexivity.
  - cbn [length]. lia.
  - constructor. discriminate.
  - exists file. split; [exact E|]. intros blank hc parallel sched q B Hq Hx.
    destruct (G blank hc parallel sched q B Hq Hx) as (file' & E' & Q). congruence.
Qed.

Theorem run_miscounted_fast : forall r, is_run 0 r -> forall fm junk b rank levelwise lw one,
  junk_ok junk -> In lw [3; 4; 5; 6] -> (one < 2 ^ 32)%N -> (2 ^ 30 <= b)%N ->
  long_collection_ok 0 b one (2 ^ 30) [r] /\ Forall (fast_ok (2 ^ 30)) [r] /\
  exists file record,
    build_fast_tries fm junk 0 b rank false levelwise lw (collection_file one (2 ^ 30) [r]) = Ok file /\
    file = le_bytes 4 rank ++ [0]%N ++ [bool_byte levelwise] ++ le_bytes 2 (wbits lw) ++ le_bytes 4 31
           ++ le_bytes 4 one ++ le_bytes 4 (2 ^ 30) ++ record.
Proof.
  intros r IR fm junk b rank levelwise lw one J Hlw H1 Hb.
  destruct (run_counted r IR b one H1 Hb) as (C & Kp & M & Cn).
  assert (Hf : fast_ok (2 ^ 30) r).
  { destruct IR as (L & Inc & W & _). split; [intros E; rewrite E in L; discriminate L|].
    split; [exact Inc|]. split; [|unfold shorter; rewrite L; reflexivity].
    apply Forall_forall. intros y Hy. apply W in Hy. apply Hy. }
  split; [exact C|]. split; [constructor; [exact Hf|constructor]|].
  assert (Hu : fast_universe (2 ^ 30) lw).
  { split; auto. cbn in Hlw. destruct Hlw as [<-|[<-|[<-|[<-|[]]]]]; split; reflexivity || discriminate. }
  destruct (all_made (2 ^ 30) lw false junk (fast_codecs fm rank) [r] 0 Hu J ltac:(constructor; [exact Hf|constructor]))
    as (ts & _ & bs & Ebs).
  eexists. exists (concat bs). split.
  - unfold build_fast_tries. rewrite (long_build _ _ _ _ _ _ _ _ C M). rewrite Kp.
    change (each_ok _ _) with (each_ok (stored (fast_codecs fm rank) (2 ^ 30) lw false junk) (indexed 0 [r])).
    rewrite Ebs. cbn [bind]. rewrite Cn. reflexivity.
  - rewrite <- !app_assoc. reflexivity.
Qed.

(** The file with one trie that announces 31 is answered from all the same. *)
Theorem run_fast_queried : forall r, is_run 0 r ->
  forall fm junk b rank levelwise lw one blank hc sched queries,
  formats_ok fm -> In lw [3; 4; 5; 6] -> (rank < 2 ^ 32)%N -> rank <> 1%N -> junk_ok junk -> blank_ok blank ->
  (one < 2 ^ 32)%N -> (2 ^ 30 <= b)%N -> (1 <= hc)%N ->
  queries <> [] -> Forall (fun q => q <> [] /\ Forall (eq 0%N) q) queries ->
  exists file rs,
    build_fast_tries fm junk 0 b rank false levelwise lw (collection_file one (2 ^ 30) [r]) = Ok file /\
    fast_query_log fm blank sched hc false file queries = Ok rs /\
    Forall2 (answers [r]) queries rs.
Proof.
  intros r IR fm junk b rank levelwise lw one blank hc sched queries F Hlw Hr R1 J B H1 Hb Hh Qn Q.
  destruct (run_counted r IR b one H1 Hb) as (C & Kp & M & Cn).
  destruct (run_miscounted_fast r IR fm junk b rank levelwise lw one J Hlw H1 Hb) as (_ & Fo & _).
  assert (R := proj2 (long_read 0 b one (2 ^ 30) [r] _ C) eq_refl). rewrite Kp in R.
  assert (C0 : fitting_collection one (2 ^ 30) [r]) by (destruct C as (Q1 & Q2 & Q3 & Q4 & _); repeat split; assumption).
  assert (Hu : fast_universe (2 ^ 30) lw).
  { split; [exact Hlw|]. destruct Hlw as [<-|[<-|[<-|[<-|[]]]]]; split; try reflexivity; discriminate. }
  eapply (read_fast_queries fm junk 0 b rank false levelwise lw one (2 ^ 30) [r] _ [r] blank hc false sched queries
    F C0 Hu Hr R1 J B M R Fo); [split; [exact Hh|discriminate]|exact Qn| |rewrite Cn].
  - eapply Forall_impl; [|exact Q]. intros q (X & Y). split; [exact X|].
    eapply Forall_impl; [|exact Y]. intros i <-. reflexivity.
  - eapply Forall_impl; [|exact Q]. intros q (X & Y).
    eapply Forall_impl; [|exact Y]. intros i <-. reflexivity.
Qed.

Theorem long_example :
  let lists := [[1; 2; 3]; [5]; [2; 9]]%N in
  (long_collection_ok 1 100 1 12 lists /\ formats_ok plain_formats /\ loadable_options 0 512 false /\
   Forall (stored_ok 12 (built_variant 0 false) false) (kept_lists 1 100 lists) /\
   lengths_met (words lists) [3; 1; 2]%N) /\
  (in_range 1 100 [3; 1; 2] = [3; 2])%N /\
  (let* file := build_tries plain_formats 1 100 0 512 false false (collection_file 1 12 lists) in
   let* (runs, ts) := load_collection_cut plain_formats zeros file in
   each_ok (fun t => bin_decode t []) ts) = Ok [[1; 2; 3]; [2; 9]]%N /\
  lengths_met [2 ^ 30 + 1; 7; 0; 2; 8; 9; 1; 4]%N [2 ^ 30 + 1; 0; 2; 1]%N /\
  (fitting_collection 1 12 lists /\ lists_read 1 100 (words lists) [[1; 2; 3]; [2; 9]]%N /\
   lists_read 2 9 [2 ^ 30 + 1; 7; 3; 2; 8; 9]%N [[2; 8; 9]]%N) /\
  (Forall (fast_ok 12) [[1; 2; 3]; [2; 9]]%N /\ fast_universe 12 3 /\
   fast_exact_mode 12 3 false true 1 (fun _ _ => (in_order, backwards)) [[1; 2; 3]; [2; 9]]%N /\
   Forall (query_ok [[1; 2; 3]; [2; 9]]%N) [[1; 0]; [1]]%N) /\
  (Forall (shorter 30) lists /\ Forall (below (2 ^ 32)) lists /\ (N.of_nat (length (words lists)) < 2 ^ 30)%N /\
   Forall (stored_ok (2 ^ 31 + 2 ^ 30) (built_variant 0 false) false) (kept_lists 0 (2 ^ 30) lists)).
Proof.
  intros lists.
  assert (St : forall u l, (3 <= u)%N -> l <> [] -> increasing l -> below u l -> shorter 32 l ->
               stored_ok u (built_variant 0 false) false l).
  { intros u l H1 H2 H3 H4 H5. split; [|split; [exact H2|discriminate]]. split; [exact H3|]. split; [exact H4|].
    split; [exact H1|]. split; [exact H2|exact H5]. }
  split; [|split; [reflexivity|split; [vm_compute; reflexivity|split; [|split; [|split]]]]].
  - split; [|split; [exact plain_formats_ok|split; [|split]]].
    + split; [reflexivity|]. split; [reflexivity|]. unfold lists.
      repeat split; repeat constructor.
    + split; [reflexivity|]. split; [reflexivity|discriminate].
    + unfold lists. change (kept_lists 1 100 [[1; 2; 3]; [5]; [2; 9]]%N) with [[1; 2; 3]; [2; 9]]%N.
      repeat constructor; try discriminate; repeat constructor.
    + apply met_short; [repeat constructor|reflexivity].
  - change [2 ^ 30 + 1; 0; 2; 1]%N with (2 ^ 30 + 1 :: [0; 2; 1])%N. constructor.
    change (N.to_nat ((2 ^ 30 + 1) mod 2 ^ 30)) with 1. cbn [skipn]. constructor.
    change (N.to_nat (0 mod 2 ^ 30)) with 0. cbn [skipn]. constructor.
    change (N.to_nat (2 mod 2 ^ 30)) with 2. cbn [skipn]. constructor.
    change (N.to_nat (1 mod 2 ^ 30)) with 1. cbn [skipn]. constructor.
  - split; [|split].
    + split; [reflexivity|]. split; [reflexivity|]. split; repeat constructor.
    + apply (long_read 1 100 1 12); [|reflexivity]. split; [reflexivity|]. split; [reflexivity|].
      repeat split; repeat constructor.
    + apply read_other; [intros (_ & H); apply N.leb_le in H; discriminate H|].
      change (N.to_nat ((2 ^ 30 + 1) mod 2 ^ 30)) with 1. cbn [skipn].
      apply (read_kept 2 9 [2; 8; 9]%N []); [split; [reflexivity|discriminate]|constructor].
  - split; [repeat constructor; try discriminate; repeat constructor|].
    split; [split; [left; reflexivity|split; [reflexivity|discriminate]]|]. split.
    + split; [discriminate|]. intros _. split; [reflexivity|]. split; [left; reflexivity|]. split; [discriminate|].
      intros. split; [apply in_order_valid|apply backwards_valid].
    + constructor; [|constructor; [|constructor]]; (split; [discriminate|repeat constructor]).
  - split; [repeat constructor|]. split; [repeat constructor|]. split; [reflexivity|].
    unfold lists. change (kept_lists 0 (2 ^ 30) [[1; 2; 3]; [5]; [2; 9]]%N) with [[1; 2; 3]; [5]; [2; 9]]%N.
    repeat constructor; try discriminate; repeat constructor.
Qed.

Theorem fast_unannounced_example :
  (let* file := build_fast_tries plain_formats (fun _ => mkJunk None None 0 0) 1 100 0 false false 3
                  (collection_file 1 12 [[1; 2; 3]; [5]; [2; 9]]%N) in
   fast_query_log plain_formats (fun lw => fast_default lw 0 0 None false None) (fun _ _ => (in_order, in_order)) 1
     false file [[0; 2]]%N) = UB NullDeref /\
  Forall (fast_ok (2 ^ 31 + 2 ^ 30)) (kept_lists 0 (2 ^ 30) [[1; 2; 3]; [5]; [2; 9]]%N).
Proof.
  split; [vm_compute; reflexivity|].
  change (kept_lists 0 (2 ^ 30) [[1; 2; 3]; [5]; [2; 9]]%N) with [[1; 2; 3]; [5]; [2; 9]]%N.
  repeat constructor; try discriminate; repeat constructor.
Qed.
