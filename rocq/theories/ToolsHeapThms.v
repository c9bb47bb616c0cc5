(** Proofs about the tries that the tools make and destroy. *)

From Coq Require Import Sorted.
From Verif Require Import Base FlatTrie LevelTrie FastTrie ParallelFor Intersection Tries
  Serialize Tools Reference Checker Facts Spec SpecTools SerializeThms ParForThms ToolsThms FastToolsThms ToolsHeap SpecHeap.

(** * The record leaves the result as it is *)

Lemma each_ok_ext : forall X Y (f g : X -> result Y) l, (forall x, f x = g x) -> each_ok f l = each_ok g l.
Proof. intros X Y f g l H. induction l as [|x l IH]; cbn [each_ok]; auto. rewrite H, IH. reflexivity. Qed.

Lemma run_queries_ext : forall T (f g : N -> result T) answer queries nq, (forall i, f i = g i) ->
  run_queries f answer nq queries = run_queries g answer nq queries.
Proof.
  intros T f g answer queries. induction queries as [|q queries IH]; intros nq H; cbn [run_queries]; auto.
  rewrite (each_ok_ext _ _ f g q H). destruct (each_ok g q); cbn [bind]; auto.
  rewrite IH by auto. reflexivity.
Qed.

Lemma load_sequences_erase : forall n i obj input,
  (let* (ts, rest, _) := load_sequences_heap n i obj input in Ok (map snd ts, rest)) = load_sequences n obj input.
Proof.
  induction n as [|n IH]; intros i obj input; cbn [load_sequences_heap load_sequences]; auto.
  destruct obj as [(c & old)| |]; cbn [bind]; auto. destruct (bin_load c old input) as [(t & input')| |]; cbn [bind]; auto.
  rewrite <- (IH (i + 1)%N (Ok (c, old)) input').
  destruct (load_sequences_heap n (i + 1) (Ok (c, old)) input') as [((ts & rest) & ev)| |]; reflexivity.
Qed.

Lemma vgetN_snd : forall T (l : list (N * T)) i, (let* p := vgetN l i in Ok (snd p)) = vgetN (map snd l) i.
Proof.
  intros T l i. unfold vgetN. rewrite map_length. destruct (i <? N.of_nat (length l))%N; auto.
  unfold vget. rewrite nth_error_map. destruct (nth_error l (N.to_nat i)); reflexivity.
Qed.

Ltac strip := match goal with
  | |- (let* _ := (let* _ := ?m in _) in _) = _ => destruct m; cbn [bind]; auto
  end.

Theorem query_log_erase : forall fm sched hc parallel file queries,
  (let* (r, _) := query_log_heap fm sched hc parallel file queries in Ok r)
  = query_log fm sched hc parallel file queries.
Proof.
  intros. unfold query_log_heap, query_log, load_collection.
  destruct (read_le 4 file) as [(rt & f1)| |]; cbn [bind]; auto.
  destruct (if N.eqb rt 1 then _ else _) as [(bl & f2)| |]; cbn [bind]; auto.
  destruct (read_bool f2) as [(runs & f3)| |]; cbn [bind]; auto.
  destruct (read_bool f3) as [(lv & f4)| |]; cbn [bind]; auto.
  destruct (read_le 4 f4) as [(n & f5)| |]; cbn [bind]; auto.
  destruct (read_le 4 f5) as [(one & f6)| |]; cbn [bind]; auto.
  destruct (read_le 4 f6) as [(u & f7)| |]; cbn [bind]; auto.
  rewrite <- (load_sequences_erase (N.to_nat n) 0).
  destruct (load_sequences_heap _ _ _ f7) as [((ts & rest) & ev)| |]; cbn [bind]; auto.
  rewrite (run_queries_ext _ _ (fun i => vgetN (map snd ts) i)) by (intros; apply vgetN_snd).
  destruct (run_queries _ _ 0 queries); reflexivity.
Qed.

Lemma load_tries_erase : forall c blank n i ids np input tries ev,
  (let* (ts, _) := load_tries_loop_heap c blank n i ids np input tries ev in Ok ts)
  = load_tries_loop c blank n i ids np input tries.
Proof.
  intros c blank. induction n as [|n IH]; intros; cbn [load_tries_loop_heap load_tries_loop]; auto.
  destruct (fast_load c blank input) as [(t & input')| |]; cbn [bind]; auto.
  destruct (vget ids np); cbn [bind]; auto. destruct (N.eqb i a); [|apply IH].
  destruct (S np =? length ids); [reflexivity|apply IH].
Qed.

Theorem fast_query_log_erase : forall fm blank sched hc parallel file queries,
  (let* (r, _) := fast_query_log_heap fm blank sched hc parallel file queries in Ok r)
  = fast_query_log fm blank sched hc parallel file queries.
Proof.
  intros. unfold fast_query_log_heap, fast_query_log, load_tries.
  destruct (read_fast_header file) as [((((rt & runs) & lv) & ws) & f1)| |]; cbn [bind]; auto.
  destruct (oget runs); cbn [bind]; auto. cbv zeta.
  destruct (read_le 4 f1) as [(n & f2)| |]; cbn [bind]; auto.
  destruct (read_le 4 f2) as [(one & f3)| |]; cbn [bind]; auto.
  destruct (read_le 4 f3) as [(u & f4)| |]; cbn [bind]; auto.
  rewrite <- (load_tries_erase _ _ (N.to_nat n) 0 _ 0 f4 [] []).
  destruct (load_tries_loop_heap _ _ _ _ _ _ f4 [] []) as [(ts & ev)| |]; cbn [bind]; auto.
  destruct (map_queries _ _ queries); reflexivity.
Qed.

Lemma load_wanted_erase : forall T (load : list N -> result (T * list N)) n i ids np input tries ev,
  (let* (ts, _) := load_wanted_heap load n i ids np input tries ev in Ok ts)
  = load_wanted load n i ids np input tries.
Proof.
  intros T load. induction n as [|n IH]; intros; cbn [load_wanted_heap load_wanted]; auto.
  destruct (load input) as [(t & input')| |]; cbn [bind]; auto.
  destruct (vget ids np); cbn [bind]; auto. destruct (N.eqb i a); [|apply IH].
  destruct (S np =? length ids); [reflexivity|apply IH].
Qed.

Theorem check_erase : forall fm sched hc sort file queries,
  (let* (v, _) := check_collection_heap fm sched hc sort file queries in Ok v)
  = check_collection fm sched hc sort file queries.
Proof.
  intros. unfold check_collection_heap, check_collection.
  destruct (read_le 4 file) as [(rt & f1)| |]; cbn [bind]; auto.
  destruct (if N.eqb rt 1 then _ else _) as [(bl & f2)| |]; cbn [bind]; auto.
  destruct (read_bool f2) as [(runs & f3)| |]; cbn [bind]; auto.
  destruct (read_bool f3) as [(lv & f4)| |]; cbn [bind]; auto.
  destruct (read_le 4 f4) as [(n & f5)| |]; cbn [bind]; auto.
  destruct (read_le 4 f5) as [(one & f6)| |]; cbn [bind]; auto.
  destruct (read_le 4 f6) as [(u & f7)| |]; cbn [bind]; auto. cbv zeta.
  rewrite <- (load_wanted_erase _ _ (N.to_nat n) 0 _ 0 f7 [] []).
  destruct (load_wanted_heap _ _ _ _ _ f7 [] []) as [(ts & ev)| |]; cbn [bind]; auto.
  destruct (check_queries _ _ _ _ _ queries); reflexivity.
Qed.

Theorem check_fast_erase : forall fm blank sched hc sort file queries,
  (let* (v, _) := check_fast_collection_heap fm blank sched hc sort file queries in Ok v)
  = check_fast_collection fm blank sched hc sort file queries.
Proof.
  intros. unfold check_fast_collection_heap, check_fast_collection.
  destruct (check_fast_header file) as [(((((rt & runs) & n) & one) & u) & f1)| |]; cbn [bind]; auto.
  destruct (oget runs); cbn [bind]; auto.
  rewrite <- (load_wanted_erase _ _ (N.to_nat n) 0 _ 0 f1 [] []).
  destruct (load_wanted_heap _ _ _ _ _ f1 [] []) as [(ts & ev)| |]; cbn [bind]; auto.
  destruct (check_queries _ _ _ _ _ queries); reflexivity.
Qed.

(** * Runs of events *)

Lemma mem_false : forall i l, ~ In i l -> existsb (N.eqb i) l = false.
Proof.
  intros i l H. destruct (existsb (N.eqb i) l) eqn:E; auto. exfalso. apply H.
  apply existsb_exists in E. destruct E as (j & Hj & Eij). apply N.eqb_eq in Eij. congruence.
Qed.

Lemma mem_true : forall i l, In i l -> existsb (N.eqb i) l = true.
Proof. intros i l H. apply existsb_exists. exists i. split; auto. apply N.eqb_refl. Qed.

Lemma mem_dec : forall i l, existsb (N.eqb i) l = true <-> In i l.
Proof.
  intros i l. split; [|apply mem_true]. intros H. apply existsb_exists in H. destruct H as (j & Hj & E).
  apply N.eqb_eq in E. congruence.
Qed.

Lemma heap_run_app : forall a b live, heap_run live (a ++ b)
  = match heap_run live a with Some l => heap_run l b | None => None end.
Proof.
  induction a as [|[i|i] a IH]; intros b live; cbn [app heap_run]; auto; destruct (existsb (N.eqb i) live); auto.
Qed.

(** [P] holds at each point of [ev], started from [live]. *)
Definition all_along (P : list N -> Prop) (live : list N) (ev : list heap_event) : Prop :=
  forall before later, ev = before ++ later -> exists l, heap_run live before = Some l /\ P l.

Lemma along_nil : forall (P : list N -> Prop) live, P live -> all_along P live [].
Proof. intros P live H before later E. destruct before; [|discriminate]. exists live. auto. Qed.

Lemma along_make : forall (P : list N -> Prop) live i ev, P live -> ~ In i live -> all_along P (live ++ [i]) ev ->
  all_along P live (Make i :: ev).
Proof.
  intros P live i ev H F A before later E. destruct before as [|e before]; [exists live; auto|].
  injection E as <- E. cbn [heap_run]. rewrite mem_false by auto. eapply A; eauto.
Qed.

Lemma along_free : forall (P : list N -> Prop) live i ev, P live -> In i live ->
  all_along P (filter (fun j => negb (N.eqb j i)) live) ev -> all_along P live (Free i :: ev).
Proof.
  intros P live i ev H F A before later E. destruct before as [|e before]; [exists live; auto|].
  injection E as <- E. cbn [heap_run]. rewrite mem_true by auto. eapply A; eauto.
Qed.

Lemma along_app : forall (P : list N -> Prop) live a b l, all_along P live a -> heap_run live a = Some l -> all_along P l b ->
  all_along P live (a ++ b).
Proof.
  intros P live a b l A E B before later Eq.
  destruct (Nat.le_gt_cases (length before) (length a)) as [L|L].
  - apply (A before (skipn (length before) a)). rewrite <- (firstn_skipn (length before) a) at 1. f_equal.
    assert (X : firstn (length before) (a ++ b) = firstn (length before) (before ++ later)) by congruence.
    rewrite !firstn_app, Nat.sub_diag, firstn_all in X. replace (length before - length a) with 0 in X by lia.
    cbn [firstn] in X. rewrite !app_nil_r in X. exact X.
  - assert (X : before = a ++ skipn (length a) before).
    { rewrite <- (firstn_skipn (length a) before) at 1. f_equal.
      assert (X : firstn (length a) (a ++ b) = firstn (length a) (before ++ later)) by congruence.
      rewrite !firstn_app, Nat.sub_diag, firstn_all in X. replace (length a - length before) with 0 in X by lia.
      cbn [firstn] in X. rewrite !app_nil_r in X. congruence. }
    rewrite X in Eq. rewrite <- app_assoc in Eq. apply app_inv_head in Eq.
    rewrite X, heap_run_app, E. eapply B; eauto.
Qed.

Lemma make_all : forall (P : list N -> Prop) l live, NoDup (live ++ l) -> (forall a b, l = a ++ b -> P (live ++ a)) ->
  heap_run live (map Make l) = Some (live ++ l) /\ all_along P live (map Make l).
Proof.
  intros P. induction l as [|i l IH]; intros live ND H; cbn [map heap_run].
  - rewrite app_nil_r. split; auto. apply along_nil. specialize (H [] [] eq_refl). rewrite app_nil_r in H. auto.
  - assert (F : ~ In i live).
    { intros Hi. apply NoDup_remove in ND. apply (proj2 ND). apply in_or_app. auto. }
    rewrite mem_false by auto.
    destruct (IH (live ++ [i])) as (E & A).
    { rewrite <- app_assoc. exact ND. }
    { intros a b ->. rewrite <- app_assoc. apply (H (i :: a) b). reflexivity. }
    rewrite <- app_assoc in E. split; auto. apply along_make; auto.
    specialize (H [] (i :: l) eq_refl). rewrite app_nil_r in H. auto.
Qed.

Lemma filter_keep : forall (f : N -> bool) l, (forall x, In x l -> f x = true) -> filter f l = l.
Proof.
  intros f l. induction l as [|x l IH]; intros H; auto. cbn [filter]. rewrite H by (left; auto). f_equal.
  apply IH. intros y Hy. apply H. right. auto.
Qed.

Lemma filter_filter : forall (f g : N -> bool) l, filter f (filter g l) = filter (fun x => g x && f x)%bool l.
Proof.
  intros f g. induction l as [|x l IH]; auto. cbn [filter]. destruct (g x); cbn [filter andb]; rewrite IH; auto.
Qed.

Lemma free_all : forall (P : list N -> Prop) l live, NoDup l -> incl l live ->
  (forall g, P (filter g live)) -> P live ->
  heap_run live (map Free l) = Some (filter (fun j => negb (existsb (N.eqb j) l)) live) /\ all_along P live (map Free l).
Proof.
  intros P. induction l as [|i l IH]; intros live ND Inc H HP; cbn [map heap_run].
  - split; [|apply along_nil; auto]. f_equal. symmetry. apply filter_keep. auto.
  - inversion ND as [|? ? Ni ND']; subst. rewrite mem_true by (apply Inc; left; auto).
    destruct (IH (filter (fun j => negb (N.eqb j i)) live)) as (E & A); auto.
    { intros x Hx. apply filter_In. split; [apply Inc; right; auto|]. destruct (N.eqb_spec x i); [subst; contradiction|auto]. }
    { intros g. rewrite filter_filter. apply H. }
    rewrite E. split.
    + f_equal. rewrite filter_filter. apply filter_ext. intros x. cbn [existsb]. destruct (N.eqb x i); auto.
    + apply along_free; auto. apply Inc. left. auto.
Qed.

Lemma filter_none : forall (f : N -> bool) l, (forall x, In x l -> f x = false) -> filter f l = [].
Proof.
  intros f l. induction l as [|x l IH]; intros H; auto. cbn [filter]. rewrite H by (left; auto). apply IH.
  intros y Hy. apply H. right. auto.
Qed.

Lemma range_nodup : forall i n, NoDup (nrange i n).
Proof.
  intros i n. revert i. induction n as [|n IH]; intros i; cbn [nrange]; constructor; auto.
  intros H. apply In_nrange in H. lia.
Qed.

Lemma filter_le : forall (f : N -> bool) l, length (filter f l) <= length l.
Proof. intros f l. induction l as [|x l IH]; cbn [filter length]; [lia|]. destruct (f x); cbn [length]; lia. Qed.

(** * The query tool *)

Lemma load_sequences_events : forall n i obj input ts rest ev,
  load_sequences_heap n i obj input = Ok (ts, rest, ev) ->
  length ts = n /\ map fst ts = nrange i n /\ ev = map Make (nrange i n).
Proof.
  induction n as [|n IH]; intros i obj input ts rest ev H; cbn [load_sequences_heap] in H.
  - injection H as <- <- <-. auto.
  - apply bind_inv in H. destruct H as ((c & old) & _ & H).
    apply bind_inv in H. destruct H as ((t & input') & _ & H).
    apply bind_inv in H. destruct H as (((ts' & rest') & ev') & H' & H). injection H as <- <- <-.
    apply IH in H'. destruct H' as (L & F & ->). cbn [map nrange length fst].
    rewrite <- N.add_1_r, L, F. auto.
Qed.

Theorem query_heap : forall fm sched hc parallel file queries answers ev,
  query_log_heap fm sched hc parallel file queries = Ok (answers, ev) ->
  exists runs ts, load_collection fm file = Ok (runs, ts) /\
    alive_after ev = Some [] /\
    at_any_time ev (fun live => length live <= length ts) /\
    exists before later, ev = before ++ later /\ alive_after before = Some (nrange 0 (length ts)).
Proof.
  intros fm sched hc parallel file queries answers ev H. unfold query_log_heap in H. unfold load_collection.
  apply bind_inv in H. destruct H as ((rt & f1) & -> & H). cbn [bind].
  apply bind_inv in H. destruct H as ((bl & f2) & -> & H). cbn [bind].
  apply bind_inv in H. destruct H as ((runs & f3) & -> & H). cbn [bind].
  apply bind_inv in H. destruct H as ((lv & f4) & -> & H). cbn [bind].
  apply bind_inv in H. destruct H as ((n & f5) & -> & H). cbn [bind].
  apply bind_inv in H. destruct H as ((one & f6) & -> & H). cbn [bind].
  apply bind_inv in H. destruct H as ((u & f7) & -> & H). cbn [bind].
  apply bind_inv in H. destruct H as (((ts & rest) & made) & E & H).
  apply bind_inv in H. destruct H as (answers' & _ & H). injection H as -> <-.
  rewrite <- (load_sequences_erase (N.to_nat n) 0), E. cbn [bind].
  exists runs, (map snd ts). split; auto. rewrite map_length.
  destruct (load_sequences_events _ _ _ _ _ _ _ E) as (L & F & ->). rewrite L.
  set (m := N.to_nat n) in *. unfold free_each. rewrite <- (map_map fst Free), F.
  destruct (make_all (fun live => length live <= m) (nrange 0 m) []) as (M1 & M2).
  { apply range_nodup. }
  { intros a b Eab. cbn [app]. apply (f_equal (@length N)) in Eab. rewrite nrange_length, app_length in Eab. lia. }
  cbn [app] in M1.
  destruct (free_all (fun live => length live <= m) (nrange 0 m) (nrange 0 m)) as (F1 & F2).
  { apply range_nodup. }
  { intros x; auto. }
  { intros g. pose proof (filter_le g (nrange 0 m)) as X. rewrite nrange_length in X. exact X. }
  { rewrite nrange_length. auto. }
  split; [|split].
  - unfold alive_after. rewrite heap_run_app, M1, F1. f_equal. apply filter_none.
    intros x Hx. rewrite mem_true; auto.
  - exact (along_app _ _ _ _ _ M2 M1 F2).
  - exists (map Make (nrange 0 m)), (map Free (nrange 0 m)). auto.
Qed.

(** * Loading by id *)

(** The events of loading one trie after the other from [i] on, [m] in all. *)
Definition loads (n : nat) (i : N) (todo : list N) (m : nat) : Prop :=
  m <= n /\ (forall j, (i <= j < i + N.of_nat m)%N -> exists x, In x todo /\ (j <= x)%N) /\
  (m = n \/ forall x, In x todo -> (x < i + N.of_nat m)%N).

Definition wanted (todo : list N) (i : N) (m : nat) : list N := filter (fun j => existsb (N.eqb j) todo) (nrange i m).

Lemma loads_none : forall i todo, loads 0 i todo 0.
Proof. intros i todo. split; [lia|]. split; [intros j Hj; lia|auto]. Qed.

Lemma loads_last : forall n i, loads (S n) i [i] 1 /\ wanted [i] i 1 = [i].
Proof.
  intros n i. split.
  - split; [lia|]. split; [intros j Hj; exists i; split; [left; auto|lia]|]. right. intros x [<-|[]]. lia.
  - unfold wanted. cbn [nrange filter existsb]. rewrite N.eqb_refl. reflexivity.
Qed.

Lemma loads_hit : forall n i todo m, loads n (i + 1) todo m -> Forall (fun x => (i < x)%N) todo -> todo <> [] ->
  loads (S n) i (i :: todo) (S m) /\ wanted (i :: todo) i (S m) = i :: wanted todo (i + 1) m.
Proof.
  intros n i todo m (L1 & L2 & L3) F Ne. split.
  - split; [lia|]. split.
    + intros j Hj. destruct (N.eq_dec j i) as [->|]; [exists i; split; [left; auto|lia]|].
      destruct (L2 j ltac:(lia)) as (x & Hx & Le). exists x. split; [right|]; auto.
    + destruct L3 as [->|L3]; [auto|]. right. intros x [<-|Hx]; [lia|]. specialize (L3 x Hx). lia.
  - unfold wanted. cbn [nrange filter existsb]. rewrite N.eqb_refl. cbn [orb]. f_equal. rewrite N.add_1_r.
    apply filter_ext_in. intros j Hj. apply In_nrange in Hj. cbn [existsb]. destruct (N.eqb_spec j i); [lia|reflexivity].
Qed.

Lemma loads_miss : forall n i todo m, loads n (i + 1) todo m -> Forall (fun x => (i < x)%N) todo -> todo <> [] ->
  loads (S n) i todo (S m) /\ wanted todo i (S m) = wanted todo (i + 1) m.
Proof.
  intros n i todo m (L1 & L2 & L3) F Ne. split.
  - split; [lia|]. split.
    + intros j Hj. destruct (N.eq_dec j i) as [->|].
      * destruct todo as [|x todo]; [contradiction|]. exists x. split; [left; auto|]. inversion F; subst. lia.
      * apply L2. lia.
    + destruct L3 as [->|L3]; [auto|]. right. intros x Hx. specialize (L3 x Hx). lia.
  - unfold wanted. cbn [nrange filter]. rewrite N.add_1_r. rewrite mem_false; auto.
    intros Hi. rewrite Forall_forall in F. specialize (F i Hi). cbn beta in F. lia.
Qed.

Lemma vget_mid : forall (done todo : list N), vget (done ++ todo) (length done) =
  match todo with [] => UB OutOfBounds | x :: _ => Ok x end.
Proof.
  intros done todo. unfold vget. rewrite nth_error_app2, Nat.sub_diag by lia. destruct todo; reflexivity.
Qed.

Lemma increasing_after : forall x l, increasing (x :: l) -> increasing l /\ Forall (fun y => (x < y)%N) l.
Proof. intros x l H. inversion H; auto. Qed.

Lemma wanted_events : forall T (load : list N -> result (T * list N)) n i done todo input tries ev ts' ev',
  increasing todo -> Forall (fun x => (i <= x)%N) todo ->
  load_wanted_heap load n i (done ++ todo) (length done) input tries ev = Ok (ts', ev') ->
  exists m new, ts' = tries ++ new /\ loads n i todo m /\ map fst new = wanted todo i m /\ ev' = ev ++ map Make (nrange i m).
Proof.
  intros T load. induction n as [|n IH]; intros i done todo input tries ev ts' ev' Inc F H; cbn [load_wanted_heap] in H.
  - injection H as <- <-. exists 0, []. rewrite !app_nil_r. split; auto. split; [apply loads_none|auto].
  - apply bind_inv in H. destruct H as ((t & input') & _ & H). rewrite vget_mid in H.
    destruct todo as [|x todo]; [discriminate H|]. cbn [bind] in H.
    destruct (increasing_after _ _ Inc) as (Inc' & F').
    destruct (N.eqb_spec i x) as [<-|Ne].
    + destruct (Nat.eqb_spec (S (length done)) (length (done ++ i :: todo))) as [E|E].
      * rewrite app_length in E. cbn [length] in E. destruct todo; [|cbn [length] in E; lia].
        injection H as <- <-. destruct (loads_last n i) as (L & W). exists 1, [(i, t)]. rewrite W. auto.
      * replace (done ++ i :: todo) with ((done ++ [i]) ++ todo) in H by (rewrite <- app_assoc; reflexivity).
        replace (S (length done)) with (length (done ++ [i])) in H by (rewrite app_length; cbn; lia).
        apply IH in H; auto; [|eapply Forall_impl; [|exact F']; cbn beta; intros; lia].
        destruct H as (m & new & -> & L & W & ->).
        destruct (loads_hit n i todo m L F') as (L' & W').
        { intros ->. apply E. rewrite app_length. cbn [length]. lia. }
        exists (S m), ((i, t) :: new). rewrite <- app_assoc. split; auto. split; auto.
        rewrite W'. cbn [map fst nrange]. rewrite W, <- N.add_1_r, <- app_assoc. auto.
    + apply IH in H; auto.
      2:{ apply Forall_forall. intros y Hy. rewrite Forall_forall in F. pose proof (F x (or_introl eq_refl)) as Fx. cbn beta in Fx.
          destruct Hy as [<-|Hy]; [lia|]. rewrite Forall_forall in F'. specialize (F' y Hy). cbn beta in F'. lia. }
      destruct H as (m & new & -> & L & W & ->).
      destruct (loads_miss n i (x :: todo) m L) as (L' & W').
      { apply Forall_forall. intros y Hy. rewrite Forall_forall in F. pose proof (F x (or_introl eq_refl)) as Fx. cbn beta in Fx.
        destruct Hy as [<-|Hy]; [lia|]. rewrite Forall_forall in F'. specialize (F' y Hy). cbn beta in F'. lia. }
      { discriminate. }
      exists (S m), new. split; auto. split; auto. split; [congruence|].
      cbn [nrange map]. rewrite <- N.add_1_r, <- app_assoc. auto.
Qed.

(** * The checkers *)

Lemma left_over : forall n queries m, loads n 0 (set_indexes queries) m ->
  exists live, alive_after (map Make (nrange 0 m) ++ map Free (wanted (set_indexes queries) 0 m)) = Some live /\
    increasing live /\
    forall i, In i live <-> ~ In i (concat queries) /\ (i < N.of_nat n)%N /\ exists j, In j (concat queries) /\ (i < j)%N.
Proof.
  intros n queries m (L1 & L2 & L3). destruct (set_indexes_spec queries) as (Inc & Mem).
  set (ids := set_indexes queries) in *.
  destruct (make_all (fun _ => True) (nrange 0 m) []) as (M1 & _); [apply range_nodup|auto|]. cbn [app] in M1.
  destruct (free_all (fun _ => True) (wanted ids 0 m) (nrange 0 m)) as (F1 & _); auto.
  { unfold wanted. apply NoDup_filter. apply range_nodup. }
  { intros x Hx. apply filter_In in Hx. apply Hx. }
  eexists. split; [unfold alive_after; rewrite heap_run_app, M1, F1; reflexivity|]. split.
  - assert (S := nrange_sorted m 0). unfold increasing. revert S. generalize (nrange 0 m) as l. intros l.
    generalize (fun j => negb (existsb (N.eqb j) (wanted ids 0 m))) as g. intros g.
    induction l as [|x l IH]; intros S; [constructor|]. inversion S; subst. cbn [filter]. destruct (g x); auto.
    constructor; auto. apply Forall_forall. intros y Hy. apply filter_In in Hy. rewrite Forall_forall in *. apply H2, Hy.
  - intros i. rewrite filter_In, In_nrange. split.
    + intros (Hi & Hn). assert (Na : ~ In i (concat queries)).
      { intros Ha. apply Mem in Ha. rewrite mem_true in Hn; [discriminate|]. apply filter_In.
        split; [apply In_nrange; lia|]. apply mem_true. auto. }
      split; auto. split; [lia|]. destruct (L2 i ltac:(lia)) as (x & Hx & Le). exists x. split; [apply Mem; auto|].
      destruct (N.eq_dec i x) as [->|]; [|lia]. exfalso. apply Na. apply Mem. auto.
    + intros (Na & Hi & j & Hj & Lt). assert (Hm : (i < N.of_nat m)%N).
      { destruct L3 as [->|L3]; auto. apply Mem in Hj. specialize (L3 j Hj). lia. }
      split; [lia|]. rewrite mem_false; auto. intros Hw. apply filter_In in Hw. destruct Hw as (_ & Hw).
      apply mem_dec in Hw. apply Na. apply Mem. auto.
Qed.

(** A check that goes through all queries has found all ids. *)
Lemma found_all : forall T (tries : list (N * T)) decode answer sort queries nq nq',
  check_queries (wanted_trie tries) decode answer sort nq queries = Ok (false, nq') ->
  forall j, In j (concat queries) -> In j (map fst tries).
Proof.
  intros T tries decode answer sort. induction queries as [|q queries IH]; intros nq nq' H j Hj; [destruct Hj|].
  cbn [check_queries] in H. apply bind_inv in H. destruct H as (both & E & H).
  cbn [concat] in Hj. apply in_app_or in Hj. destruct Hj as [Hj|Hj].
  - clear - E Hj. revert both E. induction q as [|i q IHq]; intros both E; [destruct Hj|]. cbn [each_ok] in E.
    apply bind_inv in E. destruct E as (p & Ep & E). apply bind_inv in E. destruct E as (ys & Eys & _).
    destruct Hj as [->|Hj]; [|eauto]. apply bind_inv in Ep. destruct Ep as (t & Et & _).
    unfold wanted_trie in Et. destruct (find _ tries) eqn:Ef; [|discriminate]. apply find_some in Ef.
    destruct Ef as (Hin & Eq). apply N.eqb_eq in Eq. subst j. apply in_map. auto.
  - destruct (length both <=? 16).
    + apply bind_inv in H. destruct H as (r & _ & H). apply bind_inv in H. destruct H as ((fb & x) & _ & H).
      destruct (same_values r fb); [eapply IH; eauto|]. apply bind_inv in H. destruct H as (tt' & _ & H). discriminate H.
    + eapply IH; eauto.
Qed.

Lemma read_le_skip : forall k input x rest, read_le k input = Ok (x, rest) -> rest = skipn k input.
Proof.
  intros k input x rest H. unfold read_le in H. apply bind_inv in H. destruct H as ((l & r) & E & H). injection H as _ <-.
  revert input l r E. induction k as [|k IH]; intros input l r E; cbn [read_bytes] in E.
  - injection E as _ <-. reflexivity.
  - destruct input as [|y input]; [discriminate|]. apply bind_inv in E. destruct E as ((l' & r') & E' & E).
    injection E as _ <-. cbn [skipn]. eauto.
Qed.

Lemma read_obool_skip : forall input x rest, read_obool input = Ok (x, rest) -> rest = skipn 1 input.
Proof.
  intros input x rest H. unfold read_obool in H. apply bind_inv in H. destruct H as ((y & r) & E & H).
  injection H as _ <-. eapply read_le_skip; eauto.
Qed.

Lemma read_bool_skip : forall input x rest, read_bool input = Ok (x, rest) -> rest = skipn 1 input.
Proof.
  intros input x rest H. unfold read_bool in H. apply bind_inv in H. destruct H as ((y & r) & E & H).
  apply bind_inv in H. destruct H as (z & _ & H). injection H as _ <-. eapply read_obool_skip; eauto.
Qed.

Lemma skip_skip : forall (l : list N) a b, skipn a (skipn b l) = skipn (b + a) l.
Proof.
  intros l a b. revert l. induction b as [|b IH]; intros l; auto. destruct l; [rewrite !skipn_nil; auto|]. cbn [skipn Nat.add]. auto.
Qed.

Lemma stored_sets_read : forall file rt f1 bl f2 f4 n f5, read_le 4 file = Ok (rt, f1) ->
  (if N.eqb rt 1 then read_le 4 f1 else Ok (512%N, f1)) = Ok (bl, f2) ->
  f4 = skipn 1 (skipn 1 f2) -> read_le 4 f4 = Ok (n, f5) -> stored_sets file = Ok n.
Proof.
  intros file rt f1 bl f2 f4 n f5 E1 E2 -> E4. unfold stored_sets. rewrite E1. cbn [bind].
  apply read_le_skip in E1. subst f1.
  assert (X : skipn (if N.eqb rt 1 then 10 else 6) file = skipn 1 (skipn 1 f2)).
  { destruct (N.eqb rt 1).
    - apply read_le_skip in E2. subst f2. rewrite !skip_skip. reflexivity.
    - assert (E : f2 = skipn 4 file) by congruence. rewrite E, !skip_skip. reflexivity. }
  rewrite X, E4. reflexivity.
Qed.

Lemma check_leaks : forall T (load : list N -> result (T * list N)) n file queries tries made decode answer sort b nq,
  load_wanted_heap load (N.to_nat n) 0 (set_indexes queries) 0 file [] [] = Ok (tries, made) ->
  check_queries (wanted_trie tries) decode answer sort 0 queries = Ok (b, nq) ->
  leaks n queries b (made ++ free_each tries).
Proof.
  intros T load n file queries tries made decode answer sort b nq E C.
  destruct (set_indexes_spec queries) as (Inc & Mem).
  destruct (wanted_events T load (N.to_nat n) 0 [] (set_indexes queries) file [] [] tries made Inc) as (m & new & Et & L & W & Em); auto.
  { apply Forall_forall. intros; lia. }
  cbn [app] in Et, Em. subst new made. unfold free_each. rewrite <- (map_map fst Free), W.
  destruct (left_over (N.to_nat n) queries m L) as (live & A & I & X). rewrite N2Nat.id in X.
  exists live. split; auto. split; auto. split; auto.
  intros ->. apply Forall_forall. intros j Hj. pose proof (found_all _ _ _ _ _ _ _ _ C j Hj) as Hf.
  rewrite W in Hf. apply filter_In in Hf. destruct Hf as (Hf & _). apply In_nrange in Hf. destruct L as (L & _). lia.
Qed.

Theorem check_heap : forall fm sched hc sort file queries b nq ev,
  check_collection_heap fm sched hc sort file queries = Ok (b, nq, ev) ->
  exists n, stored_sets file = Ok n /\ leaks n queries b ev.
Proof.
  intros fm sched hc sort file queries b nq ev H. unfold check_collection_heap in H.
  apply bind_inv in H. destruct H as ((rt & f1) & E1 & H).
  apply bind_inv in H. destruct H as ((bl & f2) & E2 & H).
  apply bind_inv in H. destruct H as ((runs & f3) & E3 & H).
  apply bind_inv in H. destruct H as ((lv & f4) & E4 & H).
  apply bind_inv in H. destruct H as ((n & f5) & E5 & H).
  apply bind_inv in H. destruct H as ((one & f6) & _ & H).
  apply bind_inv in H. destruct H as ((u & f7) & _ & H).
  apply bind_inv in H. destruct H as ((tries & made) & E & H).
  apply bind_inv in H. destruct H as ((b' & nq') & C & H). injection H as -> -> <-.
  exists n. split; [|eapply check_leaks; eauto].
  apply read_bool_skip in E3. apply read_bool_skip in E4. subst f3. eapply stored_sets_read; eauto.
Qed.

Theorem check_fast_heap : forall fm blank sched hc sort file queries b nq ev,
  check_fast_collection_heap fm blank sched hc sort file queries = Ok (b, nq, ev) ->
  exists n, stored_sets file = Ok n /\ leaks n queries b ev.
Proof.
  intros fm blank sched hc sort file queries b nq ev H. unfold check_fast_collection_heap in H.
  apply bind_inv in H. destruct H as ((((((rt & runs) & n) & one) & u) & f1) & Eh & H).
  apply bind_inv in H. destruct H as (runs' & _ & H).
  apply bind_inv in H. destruct H as ((tries & made) & E & H).
  apply bind_inv in H. destruct H as ((b' & nq') & C & H). injection H as -> -> <-.
  exists n. split; [|eapply check_leaks; eauto].
  unfold check_fast_header in Eh.
  apply bind_inv in Eh. destruct Eh as ((rt' & g1) & E1 & Eh).
  apply bind_inv in Eh. destruct Eh as ((bl & g2) & E2 & Eh).
  apply bind_inv in Eh. destruct Eh as ((r' & g3) & E3 & Eh).
  apply bind_inv in Eh. destruct Eh as ((lv & g4) & E4 & Eh).
  apply bind_inv in Eh. destruct Eh as ((n' & g5) & E5 & Eh).
  apply bind_inv in Eh. destruct Eh as ((one' & g6) & E6 & Eh).
  apply bind_inv in Eh. destruct Eh as ((u' & g7) & E7 & Eh). injection Eh as -> -> -> -> -> ->.
  apply read_obool_skip in E3. apply read_obool_skip in E4. subst g3. eapply stored_sets_read; eauto.
Qed.

(** * The query tool for fast tries *)

(** What it does with the next [m] tries. *)
Definition load_or_drop (todo : list N) (i : N) (m : nat) : list heap_event :=
  flat_map (fun j => if existsb (N.eqb j) todo then [Make j] else [Make j; Free j]) (nrange i m).

Lemma drop_hit : forall todo i m, Forall (fun x => (i < x)%N) todo ->
  load_or_drop (i :: todo) i (S m) = Make i :: load_or_drop todo (i + 1) m.
Proof.
  intros todo i m F. unfold load_or_drop. cbn [nrange flat_map existsb]. rewrite N.eqb_refl. cbn [orb app]. f_equal.
  rewrite N.add_1_r. assert (X : forall j, In j (nrange (N.succ i) m) -> N.eqb j i = false).
  { intros j Hj. apply In_nrange in Hj. apply N.eqb_neq. lia. }
  revert X. generalize (nrange (N.succ i) m) as l. induction l as [|j l IH]; intros X; auto.
  cbn [flat_map existsb]. rewrite (X j) by (left; auto). cbn [orb]. f_equal. apply IH. intros k Hk. apply X. right. auto.
Qed.

Lemma drop_miss : forall todo i m, ~ In i todo ->
  load_or_drop todo i (S m) = [Make i; Free i] ++ load_or_drop todo (i + 1) m.
Proof.
  intros todo i m F. unfold load_or_drop. cbn [nrange flat_map]. rewrite mem_false by auto. rewrite N.add_1_r. reflexivity.
Qed.

Lemma drop_events : forall c blank n i done todo input tries ev ts' ev',
  increasing todo -> Forall (fun x => (i <= x)%N) todo ->
  load_tries_loop_heap c blank n i (done ++ todo) (length done) input tries ev = Ok (ts', ev') ->
  exists m new, ts' = tries ++ new /\ map fst new = wanted todo i m /\ ev' = ev ++ load_or_drop todo i m.
Proof.
  intros c blank. induction n as [|n IH]; intros i done todo input tries ev ts' ev' Inc F H; cbn [load_tries_loop_heap] in H.
  - injection H as <- <-. exists 0, []. rewrite !app_nil_r. auto.
  - apply bind_inv in H. destruct H as ((t & input') & _ & H). rewrite vget_mid in H.
    destruct todo as [|x todo]; [discriminate H|]. cbn [bind] in H.
    destruct (increasing_after _ _ Inc) as (Inc' & F').
    destruct (N.eqb_spec i x) as [<-|Ne].
    + destruct (Nat.eqb_spec (S (length done)) (length (done ++ i :: todo))) as [E|E].
      * rewrite app_length in E. cbn [length] in E. destruct todo; [|cbn [length] in E; lia].
        injection H as <- <-. destruct (loads_last n i) as (L & W). exists 1, [(i, t)]. rewrite W.
        split; auto. split; auto. rewrite drop_hit by constructor. reflexivity.
      * replace (done ++ i :: todo) with ((done ++ [i]) ++ todo) in H by (rewrite <- app_assoc; reflexivity).
        replace (S (length done)) with (length (done ++ [i])) in H by (rewrite app_length; cbn; lia).
        apply IH in H; auto; [|eapply Forall_impl; [|exact F']; cbn beta; intros; lia].
        destruct H as (m & new & -> & W & ->).
        exists (S m), ((i, t) :: new). rewrite <- app_assoc. split; auto. split.
        { cbn [map fst]. rewrite W. unfold wanted. cbn [nrange filter existsb]. rewrite N.eqb_refl. cbn [orb]. f_equal.
          rewrite N.add_1_r. apply filter_ext_in. intros j Hj. apply In_nrange in Hj. cbn [existsb].
          destruct (N.eqb_spec j i); [lia|reflexivity]. }
        rewrite drop_hit, <- app_assoc by auto. reflexivity.
    + assert (F2 : Forall (fun y => (i < y)%N) (x :: todo)).
      { apply Forall_forall. intros y Hy. rewrite Forall_forall in F. pose proof (F x (or_introl eq_refl)) as Fx. cbn beta in Fx.
        destruct Hy as [<-|Hy]; [lia|]. rewrite Forall_forall in F'. specialize (F' y Hy). cbn beta in F'. lia. }
      assert (Nin : ~ In i (x :: todo)).
      { intros Hi. rewrite Forall_forall in F2. specialize (F2 i Hi). cbn beta in F2. lia. }
      apply IH in H; auto; [|eapply Forall_impl; [|exact F2]; cbn beta; intros; lia].
      destruct H as (m & new & -> & W & ->).
      exists (S m), new. split; auto. split.
      { rewrite W. unfold wanted. cbn [nrange]. cbn [filter]. rewrite (mem_false i) by auto. rewrite N.add_1_r. reflexivity. }
      rewrite drop_miss, <- !app_assoc by auto. reflexivity.
Qed.

Lemma drop_run : forall queries todo, (forall x, In x todo <-> In x (concat queries)) ->
  forall m i live, (forall x, In x live -> (x < i)%N /\ In x todo) ->
  heap_run live (load_or_drop todo i m) = Some (live ++ wanted todo i m) /\
  all_along (fun l => length (not_asked queries l) <= 1) live (load_or_drop todo i m).
Proof.
  intros queries todo Eq. assert (Zero : forall l, (forall x, In x l -> In x todo) -> not_asked queries l = []).
  { intros l H. apply filter_none. intros x Hx. rewrite mem_true; auto. apply Eq. auto. }
  induction m as [|m IH]; intros i live Hl.
  - unfold load_or_drop, wanted. cbn [nrange flat_map filter heap_run]. rewrite app_nil_r. split; auto.
    apply along_nil. rewrite Zero; [cbn; lia|]. intros x Hx. apply Hl. auto.
  - assert (Fr : ~ In i live) by (intros Hi; apply Hl in Hi; lia).
    assert (P0 : length (not_asked queries live) <= 1).
    { rewrite Zero; [cbn; lia|]. intros x Hx. apply Hl. auto. }
    unfold load_or_drop, wanted. cbn [nrange flat_map filter].
    change (flat_map _ (nrange (N.succ i) m)) with (load_or_drop todo (N.succ i) m).
    change (filter (fun j => existsb (N.eqb j) todo) (nrange (N.succ i) m)) with (wanted todo (N.succ i) m).
    destruct (existsb (N.eqb i) todo) eqn:Ei.
    + apply mem_dec in Ei. destruct (IH (N.succ i) (live ++ [i])) as (E & A).
      { intros x Hx. apply in_app_or in Hx. destruct Hx as [Hx|[<-|[]]]; [apply Hl in Hx; split; [lia|apply Hx]|split; [lia|auto]]. }
      cbn [app heap_run]. rewrite mem_false by auto. rewrite <- app_assoc in E. split; auto.
      apply along_make; auto.
    + destruct (IH (N.succ i) live) as (E & A); auto.
      { intros x Hx. apply Hl in Hx. split; [lia|apply Hx]. }
      assert (Fi : filter (fun j => negb (N.eqb j i)) (live ++ [i]) = live).
      { rewrite filter_app. cbn [filter]. rewrite N.eqb_refl. cbn [negb]. rewrite app_nil_r. apply filter_keep.
        intros x Hx. destruct (N.eqb_spec x i); [subst; contradiction|auto]. }
      cbn [app heap_run]. rewrite mem_false by auto. rewrite mem_true by (apply in_or_app; right; left; auto).
      rewrite Fi. split; auto. apply along_make; auto. apply along_free.
      * unfold not_asked. rewrite filter_app, app_length. fold (not_asked queries live). rewrite Zero; [|intros x Hx; apply Hl; auto].
        cbn [length]. pose proof (filter_le (fun i0 => negb (existsb (N.eqb i0) (concat queries))) [i]) as X. cbn [length] in X. lia.
      * apply in_or_app. right. left. auto.
      * rewrite Fi. auto.
Qed.

Theorem fast_query_heap : forall fm blank sched hc parallel file queries answers ev,
  fast_query_log_heap fm blank sched hc parallel file queries = Ok (answers, ev) ->
  alive_after ev = Some [] /\ at_any_time ev (fun live => length (not_asked queries live) <= 1).
Proof.
  intros fm blank sched hc parallel file queries answers ev H. unfold fast_query_log_heap in H.
  apply bind_inv in H. destruct H as (((((rt & runs) & lv) & ws) & f1) & _ & H).
  apply bind_inv in H. destruct H as (runs' & _ & H). cbv zeta in H.
  apply bind_inv in H. destruct H as ((n & f2) & _ & H).
  apply bind_inv in H. destruct H as ((one & f3) & _ & H).
  apply bind_inv in H. destruct H as ((u & f4) & _ & H).
  apply bind_inv in H. destruct H as ((tries & made) & E & H).
  apply bind_inv in H. destruct H as (answers' & _ & H). injection H as -> <-.
  destruct (set_indexes_spec queries) as (Inc & Mem).
  destruct (drop_events (fast_codecs fm rt) (blank (word_log ws)) (N.to_nat n) 0 [] (set_indexes queries) f4 [] [] tries made Inc) as (m & new & Et & W & Em); eauto.
  { apply Forall_forall. intros; lia. }
  cbn [app] in Et, Em. subst new made. unfold free_each. rewrite <- (map_map fst Free), W.
  destruct (drop_run queries (set_indexes queries)) with (m := m) (i := 0%N) (live := @nil N) as (R & A).
  { exact Mem. }
  { intros x []. }
  cbn [app] in R. set (w := wanted (set_indexes queries) 0 m) in *.
  assert (Asked : forall x, In x w -> In x (concat queries)).
  { intros x Hx. apply filter_In in Hx. apply Mem. apply mem_dec. apply Hx. }
  assert (Z : forall g, length (not_asked queries (filter g w)) <= 1).
  { intros g. unfold not_asked. rewrite filter_none; [cbn; lia|]. intros x Hx. apply filter_In in Hx. rewrite mem_true; auto.
    apply Asked, Hx. }
  destruct (free_all (fun l => length (not_asked queries l) <= 1) w w) as (F1 & F2); auto.
  { unfold w, wanted. apply NoDup_filter, range_nodup. }
  { intros x; auto. }
  { specialize (Z (fun _ => true)). rewrite filter_keep in Z; auto. }
  split.
  - unfold alive_after. rewrite heap_run_app, R, F1. f_equal. apply filter_none. intros x Hx. rewrite mem_true; auto.
  - exact (along_app _ _ _ _ _ A R F2).
Qed.

Theorem check_heap_leaks :
  ~ (forall fm sched hc sort file queries failed nq ev,
       check_collection_heap fm sched hc sort file queries = Ok (failed, nq, ev) -> alive_after ev = Some []).
Proof.
  intros H.
  pose (file := match build_tries plain_formats 0 100 0 512 false false (collection_file 1 64 [[3; 5]; [5; 40]]%N) with
                | Ok f => f | _ => [] end).
  specialize (H plain_formats (fun _ => (in_order, in_order)) 4%N (fun l => l) file [[1%N]] false 1 [Make 0; Make 1; Free 1]%N).
  assert (E : check_collection_heap plain_formats (fun _ => (in_order, in_order)) 4 (fun l => l) file [[1%N]]
              = Ok (false, 1, [Make 0; Make 1; Free 1]%N)) by (vm_compute; reflexivity).
  specialize (H E). vm_compute in H. discriminate H.
Qed.
