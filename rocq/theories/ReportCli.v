(** Proofs about the report of the build tools through their command lines. *)

From Verif Require Import Base Facts FlatTrie LevelTrie FastTrie Tries Serialize Tools Text Spec SpecTries SpecFiles
  SpecTools ToolsFacts InterThms Report SpecReport ReportThms Cli SpecCli CliThms CliTools.

Lemma visited : forall X (f : X -> result (list N * N)) l,
  Forall (fun x => exists n, f x = Ok ([], n)) l ->
  exists ns, each_ok f l = Ok (map (fun n => ([], n)) ns) /\ Forall2 (fun x n => f x = Ok ([], n)) l ns.
Proof.
  intros X f l H. induction H as [|x l (n & E) _ (ns & IH & F)].
  - exists []. split; [reflexivity|constructor].
  - exists (n :: ns). cbn [each_ok map]. rewrite E. cbn [bind]. rewrite IH. split; [reflexivity|constructor; auto].
Qed.

Lemma forall_indexed : forall A (P : A -> Prop) l i, Forall P l -> Forall (fun x => P (snd x)) (indexed i l).
Proof. intros A P l i H. revert i. induction H; intros; cbn [indexed]; auto. Qed.

Lemma forall2_indexed : forall A B (R : A -> B -> Prop) l ns i,
  Forall2 (fun x n => R (snd x) n) (indexed i l) ns -> Forall2 R l ns.
Proof.
  induction l as [|x l IH]; intros ns i H; inversion H; subst; constructor; eauto.
Qed.

(** Without --out nothing is written, also where writing would be undefined. *)
Theorem report_only : forall fm prog input ss (fs : files) one u lists,
  collection_ok one u lists -> input <> [] -> fs input = Some (collection_file one u lists) ->
  Forall build_setting ss -> last_of out_of [] ss = [] ->
  let runs := last_of runs_of false ss in
  let rank_type := last_of rank_of 0%N ss in
  let v := built_variant rank_type (last_of levelwise_of false ss) in
  let c := built_codecs fm rank_type (last_of block_of 512%N ss) in
  let kept := kept_lists (last_of min_of 0%N ss) (last_of max_of (2 ^ 64 - 1)%N ss) lists in
  Forall (fun l => exists t, bin_make u v runs l = Ok t) kept ->
  exists sizes, Forall2 (fun l n => exists t, bin_make u v runs l = Ok t /\ n = bin_size_in_bytes c t) kept sizes /\
    build_tries_main fm (prog :: input :: written_all ss) fs
    = Ok (Some (fs, Some (mkReport u (N.of_nat (length kept)) (fold_right N.add 0 sizes mod 2 ^ 64)%N
                            (all_values kept)))).
Proof.
  intros fm prog input ss fs one u lists C I E F O runs rank_type v c kept M.
  destruct (visited _ (fun x : nat * list N =>
      let* t := bin_make u v runs (snd x) in let* bytes := Ok [] in Ok (bytes, bin_size_in_bytes c t))
      (indexed 0 kept)) as (ns & V & G).
  { apply forall_indexed with (P := fun l => exists n, (let* t := bin_make u v runs l in let* bytes := Ok [] in
      Ok (bytes, bin_size_in_bytes c t)) = Ok ([], n)).
    eapply Forall_impl; [|exact M]. intros l (t & T). cbn beta. rewrite T. cbn [bind]. eexists. reflexivity. }
  exists ns. split.
  - apply forall2_indexed with (i := 0). eapply Forall2_impl; [|exact G]. intros (i & l) n. cbn [snd]. intros T.
    destruct (bind_inv _ _ _ _ _ T) as (t & T1 & T2). injection T2 as <-. eauto.
  - unfold build_tries_main. cbn [arg nth_error bind]. rewrite build_options_last by auto. cbn [bindo].
    cbn [b_out b_min b_max b_rank b_block b_runs b_levelwise]. rewrite O.
    unfold build_to. rewrite E. rewrite text_eqb_neq by congruence.
    unfold report_tries. rewrite report_file_spec by auto. cbn [bind]. cbv zeta.
    fold runs rank_type v c kept. cbn [bind] in V. rewrite V. cbn [bind]. rewrite sizes_kept.
    unfold kept. rewrite (values_small _ _ _ _ _ C). reflexivity.
Qed.
