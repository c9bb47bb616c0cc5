(** The times that the query tools report. *)

From Coq Require Import QArith Qabs Qpower Lqa Lia.
From Verif Require Import Base Facts FlatTrie LevelTrie FastTrie ParallelFor Intersection Tries Serialize Tools
  Text Table Report Stats SpecText SpecTable TableThms
  Average SpecAverage AverageThms AverageText Timing SpecTiming.

(* Sums that do not wrap. *)
Lemma sum_mod : forall (f : nat -> N) l t, (t + sum_of (map f l) < 2 ^ 64)%N ->
  fold_left (fun t x => (t + f x) mod 2 ^ 64)%N l t = (t + sum_of (map f l))%N.
Proof.
  intros f l. induction l as [|x l IH]; intros t H; cbn [fold_left map sum_of fold_right] in *; [lia|].
  fold (sum_of (map f l)) in *. rewrite N.mod_small by lia. rewrite IH by lia. lia.
Qed.

Lemma time_10_sum : forall elapsed nq, (query_time elapsed nq < 2 ^ 64)%N -> time_10 elapsed nq = query_time elapsed nq.
Proof. intros. unfold time_10. rewrite sum_mod; unfold query_time in *; lia. Qed.

Lemma total_sum_from : forall elapsed l t, (t + sum_of (map (query_time elapsed) l) < 2 ^ 64)%N ->
  fold_left (fun t nq => fold_left (fun t rep => (t + elapsed nq rep) mod 2 ^ 64)%N (seq 0 10) t) l t
  = (t + sum_of (map (query_time elapsed) l))%N.
Proof.
  intros elapsed l. induction l as [|x l IH]; intros t H; [cbn; lia|].
  cbn [map] in H |- *. unfold sum_of in H |- *. cbn [fold_right] in H |- *. fold (sum_of (map (query_time elapsed) l)) in *.
  remember (seq 0 10) as s. cbn [fold_left]. rewrite (sum_mod (elapsed x) s t) by (subst s; unfold query_time in H; lia).
  subst s. fold (query_time elapsed x). rewrite IH by lia. lia.
Qed.

Lemma total_time_sum : forall elapsed n, (log_time elapsed n < 2 ^ 64)%N -> total_time elapsed n = log_time elapsed n.
Proof. intros. unfold total_time. rewrite total_sum_from; unfold log_time in *; lia. Qed.

(* The field of a row. *)
Lemma row_time_right : forall elapsed nq, (query_time elapsed nq < 2 ^ 64)%N ->
  row_time elapsed nq = Ok (Some (time_text elapsed nq)) /\
  prints_average (query_time elapsed nq) 10 (Some (time_text elapsed nq)).
Proof.
  intros elapsed nq H. unfold time_text, row_time. rewrite time_10_sum by exact H.
  destruct (average_right 24 (query_time elapsed nq) 10 ltac:(discriminate) ltac:(reflexivity)) as (text & E & P). rewrite E.
  assert (exists w, text = Some w) as (w & ->) by (destruct P as (w & x & -> & _); eauto). auto.
Qed.

Lemma digits_field : forall w, Forall (fun c => 48 <= c <= 57)%N w -> field w.
Proof. intros w F. eapply Forall_impl; [|exact F]. intros c R. split; intros ->; destruct R as (R & _); apply R; reflexivity. Qed.

Lemma field_app : forall a b, field a -> field b -> field (a ++ b).
Proof. intros. apply Forall_app. auto. Qed.

Lemma field_cons : forall c b, c <> 44%N -> c <> newline -> field b -> field (c :: b).
Proof. intros. constructor; auto. Qed.

Lemma denotes_field : forall w x, denotes w x -> field w.
Proof.
  assert (P : forall ip fp, decimal ip -> Forall (fun c => 48 <= c <= 57)%N fp -> field (with_point ip fp)).
  { intros ip [|c fp] (_ & D) F; unfold with_point; [apply digits_field, D|].
    apply field_app; [apply digits_field, D|]. apply field_cons; [discriminate|discriminate|apply digits_field, F]. }
  intros w x D. destruct D as [ip fp I F|ip fp ep I F (_ & E)|ip fp ep I F (_ & E)]; auto;
    (apply field_app; [auto|]); (apply field_cons; [discriminate|discriminate|]);
    (apply field_cons; [discriminate|discriminate|apply digits_field, E]).
Qed.

Lemma average_text : forall p a b, (24 <= p)%N -> (0 < b)%N -> exists w x, average p a b = Ok (Some w) /\ denotes w x.
Proof.
  intros p a b P B. destruct (average_right p a b P B) as (t & E & w & x & -> & D & _). eauto.
Qed.

Lemma time_text_field : forall elapsed nq, field (time_text elapsed nq).
Proof.
  intros. unfold time_text, row_time.
  destruct (average_text 24 (time_10 elapsed nq) 10 ltac:(lia) ltac:(lia)) as (w & x & -> & D).
  eapply denotes_field; eauto.
Qed.

(* The averages at the end. *)
Lemma within_mul : forall r a a' b b', 0 <= r <= 1 # 10 -> 0 < a -> 0 < b ->
  within r a' a -> within r b' b -> within (3 * r) (a' * b') (a * b).
Proof.
  intros r a a' b b' R A B WA WB. assert (PB : 0 < b') by (eapply within_pos; [|exact B|exact WB]; lra).
  assert (PA : 0 < a') by (eapply within_pos; [|exact A|exact WA]; lra).
  rewrite within_bounds in *. destruct WA as (A1 & A2), WB as (B1 & B2).
  assert (AB : 0 < a * b) by nra. assert (RR : r * r <= (1 # 10) * r) by nra. split.
  - apply Qle_trans with ((1 - r) * a * ((1 - r) * b)).
    + setoid_replace ((1 - r) * a * ((1 - r) * b)) with ((1 - 2 * r + r * r) * (a * b)) by ring.
      apply Qmult_le_r; [exact AB|]. nra.
    + apply Qle_trans with (a' * ((1 - r) * b)).
      * apply Qmult_le_r; [|exact A1]. nra.
      * apply Qmult_le_l; [exact PA|exact B1].
  - apply Qle_trans with (a' * ((1 + r) * b)).
    + apply Qmult_le_l; [exact PA|exact B2].
    + apply Qle_trans with ((1 + r) * a * ((1 + r) * b)).
      * apply Qmult_le_r; [|exact A2]. nra.
      * setoid_replace ((1 + r) * a * ((1 + r) * b)) with ((1 + 2 * r + r * r) * (a * b)) by ring.
        apply Qmult_le_r; [exact AB|]. nra.
Qed.

Lemma float_mul_value : forall p x y, (1 <= p)%N -> (0 < fst x)%N -> (0 < fst y)%N ->
  within (2 ^ (- Z.of_N p)) (value (float_mul p x y)) (value x * value y).
Proof.
  intros p (m1, e1) (m2, e2) Hp H1 H2. cbn [fst] in *. unfold float_mul.
  destruct (N.eqb_spec (m1 * m2) 0) as [E|_]; [nia|].
  assert (S := scaled_value 2 (m1 * m2) 1 (- (e1 + e2)) ltac:(lia) ltac:(lia)).
  assert (P := scaled_pos 2 (m1 * m2) 1 (- (e1 + e2)) ltac:(lia) ltac:(nia) ltac:(lia)).
  destruct (scaled 2 (m1 * m2) 1 (- (e1 + e2))) as (n1, d1). cbn [fst snd] in *.
  change (of_N 2) with 2 in S. change (of_N 1) with 1 in S.
  assert (W := to_float_value p n1 d1 Hp (proj1 P) (proj2 P)). unfold within in *.
  setoid_replace (value (m1, e1) * value (m2, e2)) with (of_N n1 / of_N d1); [exact W|].
  unfold value. cbn [fst snd].
  setoid_replace (of_N m1 * 2 ^ e1 * (of_N m2 * 2 ^ e2)) with (of_N m1 * of_N m2 * (2 ^ e1 * 2 ^ e2)) by ring.
  rewrite <- pow_add by lra. rewrite <- of_N_mul.
  assert (K : 2 ^ (- (e1 + e2)) * 2 ^ (e1 + e2) == 1)
    by (rewrite <- pow_add by lra; replace (- (e1 + e2) + (e1 + e2))%Z with 0%Z by lia; reflexivity).
  setoid_replace (of_N (m1 * m2)) with (of_N n1 / of_N d1 * 2 ^ (- (e1 + e2))) by (rewrite S; field).
  rewrite <- Qmult_assoc, K. ring.
Qed.

Definition eps : Q := 1 # 16777216.

Lemma quotient_close : forall p x y a b, (24 <= p)%N -> 0 < a -> 0 < b ->
  within eps (value x) a -> within eps (value y) b ->
  exists w v, print_quotient (float_div p x y) = Ok (Some w) /\ denotes w v /\ about v (a / b).
Proof.
  intros p x y a b Hp A B WX WY. assert (R := precise p Hp).
  assert (RE : eps == 1 # 16777216) by reflexivity.
  assert (X : (0 < fst x)%N) by (apply value_pos; eapply within_pos; [|exact A|exact WX]; lra).
  assert (Y : (0 < fst y)%N) by (apply value_pos; eapply within_pos; [|exact B|exact WY]; lra).
  destruct (float_div_value p x y Hp X Y) as ((m, e) & -> & W).
  assert (D := within_div eps a (value x) b (value y) ltac:(lra) A B WX WY).
  assert (P := div_pos a b A B). assert (P' : 0 < value x / value y) by (eapply within_pos; [|exact P|exact D]; lra).
  apply (within_more _ eps) in W; [|exact P'|lra].
  assert (Z : 0 < value (m, e)) by (eapply within_pos; [|exact P'|exact W]; lra).
  destruct (print_value_near m e (value_pos _ Z)) as (w & v & E & DE & WV).
  exists w, v. split; [exact E|]. split; [exact DE|]. unfold about.
  assert (T1 : within (5 * eps) (value (m, e)) (a / b)).
  { apply (within_trans (3 * eps) eps _ _ (value x / value y)); auto; unfold eps; lra. }
  apply (within_trans (5 * eps) (5 # 1000000) _ v (value (m, e)) (a / b)); auto; unfold eps; lra.
Qed.

Lemma small53 : 0 < 2 ^ (- Z.of_N 53) <= 1 # 1000000000.
Proof. split; vm_compute; [reflexivity|discriminate]. Qed.

Lemma milliseconds : forall t, (0 < t)%N ->
  within eps (value (float_mul 53 (float_of 53 t) (to_float 53 1 1000))) (of_N t / of_N 1000).
Proof.
  intros t H. assert (S := small53). set (r := 2 ^ (- Z.of_N 53)) in *. assert (PT := of_N_pos t H).
  assert (A := float_of_value 53 t ltac:(lia) H). fold r in A.
  assert (B := to_float_value 53 1 1000 ltac:(lia) ltac:(lia) ltac:(lia)). fold r in B.
  assert (P1 : 0 < of_N 1 / of_N 1000) by reflexivity.
  assert (X : 0 < value (float_of 53 t)) by (eapply within_pos; [|exact PT|exact A]; lra).
  assert (Y : 0 < value (to_float 53 1 1000)) by (eapply within_pos; [|exact P1|exact B]; lra).
  assert (M := float_mul_value 53 _ _ ltac:(lia) (value_pos _ X) (value_pos _ Y)). fold r in M.
  assert (C := within_mul r _ _ _ _ ltac:(lra) PT P1 A B).
  assert (E : of_N t * (of_N 1 / of_N 1000) == of_N t / of_N 1000) by (change (of_N 1) with 1; field; discriminate).
  unfold within in C. rewrite E in C.
  apply (within_trans (3 * r) r eps _ (value (float_of 53 t) * value (to_float 53 1 1000))); auto; try lra.
  { apply div_pos; [exact PT|reflexivity]. }
Qed.

Lemma average_ms : forall t n, (0 < n)%N ->
  exists w, print_quotient (float_div 53 (float_mul 53 (float_of 53 t) (to_float 53 1 1000)) (float_of 53 n)) = Ok (Some w) /\
    prints_average t (1000 * n) (Some w).
Proof.
  intros t n Hn. destruct (N.eq_dec t 0) as [->|Ht].
  - destruct (average_right 53 0 n ltac:(lia) Hn) as (text & E & w & x & -> & D & A). exists w. split.
    + rewrite <- E. unfold average. f_equal.
    + exists w, x. split; [reflexivity|]. split; [exact D|]. unfold about in *. change (of_N 0) with 0 in *.
      assert (PN := of_N_pos n Hn). assert (PN' := of_N_pos (1000 * n) ltac:(lia)).
      setoid_replace (0 / of_N (1000 * n)) with (0 / of_N n) by (field; split; lra). exact A.
  - assert (PT := of_N_pos t ltac:(lia)). assert (PN := of_N_pos n Hn). assert (S := small53).
    destruct (quotient_close 53 (float_mul 53 (float_of 53 t) (to_float 53 1 1000)) (float_of 53 n)
                (of_N t / of_N 1000) (of_N n)) as (w & v & E & D & A); [lia|apply div_pos; [exact PT|reflexivity]|exact PN| | |].
    { apply milliseconds. lia. }
    { apply (within_more (2 ^ (- Z.of_N 53))); [exact PN|unfold eps; lra|apply float_of_value; lia]. }
    exists w. split; [exact E|]. exists w, v. split; [reflexivity|]. split; [exact D|].
    unfold about in *. setoid_replace (of_N t / of_N (1000 * n)) with (of_N t / of_N 1000 / of_N n); [exact A|].
    rewrite of_N_mul. change (of_N 1000) with 1000. field. lra.
Qed.

(* How many queries are answered. *)
Lemma each_ok_length : forall A B (f : A -> result B) l bs, each_ok f l = Ok bs -> length bs = length l.
Proof.
  intros A B f l. induction l as [|a l IH]; intros bs H; cbn [each_ok] in H; [injection H as <-; reflexivity|].
  apply bind_inv in H as (b & _ & H). apply bind_inv in H as (bs' & H' & H). injection H as <-.
  cbn [length]. rewrite (IH _ H'). reflexivity.
Qed.

Lemma run_queries_count : forall T (pick : N -> result T) answer queries nq rs,
  run_queries pick answer nq queries = Ok rs -> answered_count rs = length (small_queries queries).
Proof.
  intros T pick answer queries. induction queries as [|q queries IH]; intros nq rs H; cbn [run_queries] in H;
    [injection H as <-; reflexivity|].
  apply bind_inv in H as (ts & E & H). apply bind_inv in H as (a & Ea & H). apply bind_inv in H as (rs' & Er & H).
  injection H as <-. apply each_ok_length in E. unfold answered_count, small_queries in *. cbn [filter].
  rewrite E in Ea. specialize (IH _ _ Er). destruct (length q <=? 16)%nat.
  - apply bind_inv in Ea as (r & _ & Ea). injection Ea as <-. cbn [length]. f_equal. exact IH.
  - injection Ea as <-. exact IH.
Qed.

Lemma summary_right : forall elapsed queries rs, answered_count rs = length (small_queries queries) ->
  (log_time elapsed (length (small_queries queries)) < 2 ^ 64)%N ->
  (10 * N.of_nat (length (small_queries queries)) < 2 ^ 64)%N ->
  exists count avg, query_summary elapsed rs = Ok (count, avg) /\ summary_of elapsed queries count avg.
Proof.
  intros elapsed queries rs C T Q. unfold query_summary, summary_of. rewrite C.
  set (n := length (small_queries queries)) in *. clearbody n.
  assert (PD := print_decimal (N.of_nat n)). assert (PV := print_value (N.of_nat n)).
  rewrite total_time_sum by exact T. rewrite N.mod_small by lia.
  destruct n as [|n].
  - exists (print_number (N.of_nat 0)), None. split; [reflexivity|]. split; [exact PD|]. split; [exact PV|].
    split; [reflexivity|]. lia.
  - destruct (average_ms (log_time elapsed (S n)) (N.of_nat (S n) * 10) ltac:(lia)) as (w & E & A).
    exists (print_number (N.of_nat (S n))), (Some w). rewrite E. cbn [bind].
    split; [reflexivity|]. split; [exact PD|]. split; [exact PV|]. split; [discriminate|].
    intros _. rewrite (N.mul_comm 10). exact A.
Qed.

Theorem query_log_summary : forall fm sched hc parallel file queries rs elapsed,
  query_log fm sched hc parallel file queries = Ok rs ->
  (log_time elapsed (length (small_queries queries)) < 2 ^ 64)%N ->
  (10 * N.of_nat (length (small_queries queries)) < 2 ^ 64)%N ->
  exists count avg, query_summary elapsed rs = Ok (count, avg) /\ summary_of elapsed queries count avg.
Proof.
  intros fm sched hc parallel file queries rs elapsed H T Q. apply summary_right; auto.
  unfold query_log in H. apply bind_inv in H as ((runs, seqs) & _ & H). eapply run_queries_count, H.
Qed.

Theorem fast_query_log_summary : forall fm blank sched hc parallel file queries rs elapsed,
  fast_query_log fm blank sched hc parallel file queries = Ok rs ->
  (log_time elapsed (length (small_queries queries)) < 2 ^ 64)%N ->
  (10 * N.of_nat (length (small_queries queries)) < 2 ^ 64)%N ->
  exists count avg, query_summary elapsed rs = Ok (count, avg) /\ summary_of elapsed queries count avg.
Proof.
  intros fm blank sched hc parallel file queries rs elapsed H T Q. apply summary_right; auto.
  unfold fast_query_log in H. apply bind_inv in H as (((((a, b), c), d), f) & _ & H).
  apply bind_inv in H as (runs & _ & H). apply bind_inv in H as (tries & _ & H). eapply run_queries_count, H.
Qed.
