(** Counterexamples for the intersection properties. *)

From Coq Require Import Permutation.
From Verif Require Import Base FlatTrie LevelTrie FastTrie ParallelFor Intersection Tries Facts
  Spec SpecTries ParForThms.

Ltac sets_ok := repeat split; try discriminate; repeat constructor.

(** A run-encoded flat trie of a union of blocks of four values. *)
Theorem runs_sequential_refuted :
  ~ (forall (u : N) (l : list bitem), (2 <= u <= 2 ^ 48)%N -> 1 <= length l <= 16 ->
       Forall (fun x : bitem => plain_ok u (fst (fst x)) (snd x) /\ snd x <> []) l ->
       exists Ts r, each_ok (make_bitem u) l = Ok Ts /\ is_intersection (map snd l) r /\
         forall s1 s2 hc, (1 <= hc)%N -> Intersect Bin s1 s2 hc (map bin_ops Ts) true false = Ok r).
Proof.
  intros H.
  destruct (H 16%N [(VFlat false, true, [4; 5; 6; 7]%N); (VFlat false, true, [4; 5; 6; 7; 8]%N)])
    as (Ts & r & E & _ & Hr).
  { sets_ok. } { cbn. lia. }
  { constructor; [|constructor; [|constructor]]; sets_ok. }
  vm_compute in E. injection E as <-.
  specialize (Hr in_order in_order 1%N ltac:(lia)). vm_compute in Hr. discriminate.
Qed.

(** A level-wise trie with two values and four hardware threads. *)
Theorem bin_parallel_refuted :
  ~ (forall (u : N) (l : list pitem), (2 <= u <= 2 ^ 48)%N -> 1 <= length l <= 16 -> Forall (pitem_ok u) l ->
       exists Ts r, each_ok (make_pitem u) l = Ok Ts /\
         forall hc s1 s2, (1 <= hc < 2 ^ 16)%N -> valid_scheduler s1 -> valid_scheduler s2 ->
           Intersect Bin s1 s2 hc (map bin_ops Ts) false false = Ok r /\
           Intersect Bin s1 s2 hc (map bin_ops Ts) false true = Ok r).
Proof.
  intros H.
  destruct (H 2%N [(VLevel false, [0; 1]%N); (VLevel false, [1]%N)]) as (Ts & r & E & Hr).
  { sets_ok. } { cbn. lia. }
  { constructor; [|constructor; [|constructor]]; sets_ok. }
  vm_compute in E. injection E as <-.
  destruct (Hr 4%N in_order in_order ltac:(lia) in_order_valid in_order_valid) as (_ & H2).
  vm_compute in H2. discriminate.
Qed.

(** A fast trie of one word and two hardware threads. *)
Theorem fast_parallel_refuted :
  ~ (forall (u : N) (lw : nat) (l : list fitem), fast_universe u lw -> 1 <= length l <= 16 ->
       Forall (fitem_ok u) l -> Forall (fun x => f_enc x = false) l ->
       exists Ts r, each_ok (make_fitem u lw) l = Ok Ts /\
         forall hc s1 s2, (1 <= hc < 2 ^ 16)%N -> valid_scheduler s1 -> valid_scheduler s2 ->
           Intersect (Fast lw) s1 s2 hc (map fast_ops Ts) false false = Ok r /\
           Intersect (Fast lw) s1 s2 hc (map fast_ops Ts) false true = Ok r).
Proof.
  intros H.
  destruct (H 8%N 3 [(None, None, false, [0; 1]%N); (None, None, false, [1]%N)]) as (Ts & r & E & Hr).
  { split; [left; reflexivity|]. split; [reflexivity|]. discriminate. } { cbn. lia. }
  { constructor; [|constructor; [|constructor]]; sets_ok. }
  { repeat constructor. }
  vm_compute in E. injection E as <-.
  destruct (Hr 2%N in_order in_order ltac:(lia) in_order_valid in_order_valid) as (_ & H2).
  vm_compute in H2. discriminate.
Qed.

(** Values below a block that is full in one trie only are lost. *)
Theorem par_runs_complete_refuted :
  ~ (forall (u : N) (l : list bitem) hc s1 s2,
       (3 <= u <= 2 ^ 48)%N -> 1 <= length l <= 16 -> Forall (bitem_ok u) l ->
       (1 <= hc < 2 ^ 16)%N -> valid_scheduler s1 -> valid_scheduler s2 ->
       exists Ts r, each_ok (make_bitem u) l = Ok Ts /\
         Intersect Bin s1 s2 hc (map bin_ops Ts) true true = Ok r /\
         forall x, Forall (fun s => In x s) (map snd l) -> In x r).
Proof.
  intros H.
  destruct (H 16%N [(VLevel false, true, [0; 1; 2; 3; 4; 5; 6; 7; 9; 12]%N);
                    (VLevel false, true, [3; 5; 6; 7; 12]%N)] 4%N in_order in_order)
    as (Ts & r & E & Er & Hr); auto using in_order_valid.
  { sets_ok. } { cbn. lia. }
  { constructor; [|constructor; [|constructor]]; sets_ok. }
  { lia. }
  vm_compute in E. injection E as <-. vm_compute in Er. injection Er as <-.
  specialize (Hr 3%N ltac:(constructor; [|constructor; [|constructor]]; cbn; auto 12)). destruct Hr as [Hr|[]]. discriminate.
Qed.

(** Blocks that are full in every trie are returned before everything else. *)
Theorem par_runs_sorted_refuted :
  ~ (forall (u : N) (l : list bitem) hc s1 s2,
       (3 <= u <= 2 ^ 48)%N -> 1 <= length l <= 16 -> Forall (bitem_ok u) l ->
       (1 <= hc < 2 ^ 16)%N -> valid_scheduler s1 -> valid_scheduler s2 ->
       exists Ts r, each_ok (make_bitem u) l = Ok Ts /\
         Intersect Bin s1 s2 hc (map bin_ops Ts) true true = Ok r /\ increasing r).
Proof.
  intros H.
  destruct (H 16%N [(VLevel false, true, [1; 8; 9; 10; 11; 12; 13; 14; 15]%N);
                    (VLevel false, true, [1; 8; 9; 10; 11; 12; 13; 14; 15]%N)] 4%N in_order in_order)
    as (Ts & r & E & Er & Hr); auto using in_order_valid.
  { sets_ok. } { cbn. lia. }
  { constructor; [|constructor; [|constructor]]; sets_ok. }
  { lia. }
  vm_compute in E. injection E as <-. vm_compute in Er. injection Er as <-.
  inversion Hr as [|? ? _ F]; subst. rewrite Forall_forall in F. specialize (F 1%N ltac:(cbn; auto 10)).
  discriminate.
Qed.

(** Arrays of the tasks that were expanded are never freed. *)
Theorem memory_refuted :
  ~ (forall (u : N) (l : list bitem) hc s1 s2,
       (3 <= u <= 2 ^ 48)%N -> 1 <= length l <= 16 -> Forall (bitem_ok u) l ->
       Forall (fun x : bitem => snd (fst x) = false) l ->
       (1 <= hc < 2 ^ 16)%N -> valid_scheduler s1 -> valid_scheduler s2 ->
       exists Ts r m, each_ok (make_bitem u) l = Ok Ts /\
         Intersect_mem Bin s1 s2 hc (map bin_ops Ts) false true = Ok (r, m) /\
         Permutation (m_freed m) (seq 0 (m_next m))).
Proof.
  intros H.
  destruct (H 16%N [(VLevel false, false, [0; 1; 2; 3; 9; 12]%N);
                    (VLevel false, false, [3; 5; 6; 7; 12]%N)] 4%N in_order in_order)
    as (Ts & r & m & E & Er & Hr); auto using in_order_valid.
  { sets_ok. } { cbn. lia. }
  { constructor; [|constructor; [|constructor]]; sets_ok. }
  { lia. }
  vm_compute in E. injection E as <-. vm_compute in Er. injection Er as <- <-.
  apply Permutation_length in Hr. cbn in Hr. discriminate.
Qed.

(** Intersecting run-encoded tries with runs=false loses values. *)
Theorem wrong_flag_refuted :
  ~ (forall (u : N) (l : list bitem), (3 <= u <= 2 ^ 48)%N -> 1 <= length l <= 16 -> Forall (bitem_ok u) l ->
       exists Ts r, each_ok (make_bitem u) l = Ok Ts /\ is_intersection (map snd l) r /\
         Intersect Bin in_order in_order 1 (map bin_ops Ts) false false = Ok r).
Proof.
  intros H.
  destruct (H 16%N [(VLevel false, true, [0; 1; 2; 3; 4; 5; 6; 7; 9; 12]%N);
                    (VLevel false, true, [3; 5; 6; 7; 12]%N)]) as (Ts & r & E & Hi & Er).
  { sets_ok. } { cbn. lia. }
  { constructor; [|constructor; [|constructor]]; sets_ok. }
  vm_compute in E. injection E as <-. vm_compute in Er. injection Er as <-.
  destruct Hi as (_ & Hi). destruct (proj2 (Hi 3%N) ltac:(constructor; [|constructor; [|constructor]]; cbn; auto 12)) as [E|[]].
  discriminate.
Qed.

(** ** C32 *)

Lemma increasing_below2 : forall s, increasing s -> below 2 s -> s = [] \/ s = [0%N] \/ s = [1%N] \/ s = [0; 1]%N.
Proof.
  intros s Hs Hb. destruct s as [|a s]; auto. right. inversion Hb as [|? ? Ha Hb']; subst.
  inversion Hs as [|? ? Hs' Hf]; subst. destruct s as [|b s].
  - assert (a = 0 \/ a = 1)%N as [-> | ->] by lia; auto.
  - inversion Hf as [|? ? Hab Hf']; subst. inversion Hb' as [|? ? Hb2 Hb'']; subst.
    assert (a = 0%N) by lia. assert (b = 1%N) by lia. subst. destruct s as [|c s]; auto.
    inversion Hs' as [|? ? _ Hf'']; subst. inversion Hf''; subst. inversion Hb''; subst. lia.
Qed.

Theorem universe_one : forall v s, bin_build v s 1 = UB BadCast.
Proof. intros [il|il] s; reflexivity. Qed.

Theorem universe_one_fast : forall lw jh je s, fast_build lw jh je s 1 = UB BadCast.
Proof. intros lw jh je s. reflexivity. Qed.

(** Every nonempty subset of {0,1} in a flat trie. *)
Theorem universe_two_flat : forall s, increasing s -> below 2 s -> s <> [] ->
  exists t, flat_build s 2 = Ok t /\ forall v, flat_decode t v = UB OutOfBounds.
Proof.
  intros s Hs Hb Hne. destruct (increasing_below2 s Hs Hb) as [->|[->|[->| ->]]]; [congruence| | |];
    (eexists; split; [vm_compute; reflexivity|]; intros v; reflexivity).
Qed.
