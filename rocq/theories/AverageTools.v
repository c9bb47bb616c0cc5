(** The averages of the tools. *)

From Coq Require Import QArith Qabs Qpower Lqa Lia.
From Verif Require Import Base Facts FlatTrie LevelTrie FastTrie Tries Serialize Tools Spec SpecTries SpecFiles SpecTools
  Text Table Report SpecReport ReportThms Stats SpecText TableThms Average SpecAverage AverageThms AverageText.

Theorem report_average : forall r, (0 < r_ints r)%N -> (8 * r_size r < 2 ^ 64)%N ->
  exists text, report_bpi r = Ok text /\ prints_average (8 * r_size r) (r_ints r) text.
Proof.
  intros r I S. unfold report_bpi. rewrite N.mod_small by lia. rewrite N.mul_comm. apply average_right; [lia|exact I].
Qed.

Lemma each_result_ok : forall A B (f : A -> result B) (P : A -> B -> Prop) l,
  (forall a, exists b, f a = Ok b /\ P a b) -> exists bs, each_result f l = Ok bs /\ Forall2 P l bs.
Proof.
  intros A B f P l H. induction l as [|a l (bs & E & F)]; [exists []; auto|].
  destruct (H a) as (b & Eb & Pb). cbn [each_result]. rewrite Eb. cbn [bind]. rewrite E. cbn [bind]. eauto.
Qed.

Theorem measured_averages : forall m, (0 < m_ints m)%N ->
  exists texts, measured_bpi m = Ok texts /\
    Forall2 (fun a => prints_average a (m_ints m)) [m_gap m; m_rle m; m_trie m; m_trie_run m] texts.
Proof.
  intros m I. unfold measured_bpi. destruct (average_right 24 (m_gap m) (m_ints m) ltac:(lia) I) as (g & -> & G).
  cbn [bind].
  destruct (each_result_ok _ _ (fun a => average 53 a (m_ints m)) (fun a => prints_average a (m_ints m))
              [m_rle m; m_trie m; m_trie_run m]) as (bs & -> & F).
  { intros a. apply average_right; [lia|exact I]. }
  cbn [bind]. eauto.
Qed.

Theorem coded_averages : forall t, (0 < t_ints t)%N ->
  exists texts, coded_bpi t = Ok texts /\ Forall2 (fun a => prints_average (8 * a) (t_ints t)) (t_cols t) texts.
Proof.
  intros t I. apply each_result_ok. intros a. apply average_bytes_right; [lia|exact I].
Qed.

Theorem pom_averages : forall t ed eg fib theory, (0 < t_ints t)%N -> t_cols t = [ed; eg; fib; theory] ->
  Forall (fun a => 8 * a < 2 ^ 64)%N [ed; eg; fib] ->
  exists texts, pom_bpi t = Ok texts /\
    Forall2 (fun a => prints_average a (t_ints t)) [8 * ed; 8 * eg; 8 * fib; theory]%N texts.
Proof.
  intros t ed eg fib theory I E F. unfold pom_bpi. rewrite E.
  inversion F as [|? ? F1 G]; subst. inversion G as [|? ? F2 G']; subst. inversion G' as [|? ? F3 _]; subst.
  rewrite !N.mod_small by lia. rewrite !(N.mul_comm _ 8). apply each_result_ok.
  intros a. apply average_right; [lia|exact I].
Qed.

Theorem no_average : forall a r, r_ints r = 0%N -> report_bpi r = Ok None /\ average 53 a 0 = Ok None.
Proof. intros a r E. unfold report_bpi. rewrite E. split; apply average_none; lia. Qed.

(* The whole way from a collection to the printed average. *)
Theorem tries_average : forall fm min_size max_size rank_type block runs levelwise one u lists file,
  collection_ok one u lists ->
  build_tries fm min_size max_size rank_type block runs levelwise (collection_file one u lists) = Ok file ->
  (8 * N.of_nat (length file) < 2 ^ 64)%N ->
  let kept := kept_lists min_size max_size lists in
  (0 < all_values kept)%N ->
  exists r text bytes,
    report_tries fm min_size max_size rank_type block runs levelwise true (collection_file one u lists) = Ok (file, r) /\
    report_bpi r = Ok text /\ (header_bytes rank_type + bytes = N.of_nat (length file))%N /\
    (2 * N.of_nat (length kept) <= bytes)%N /\
    prints_average (8 * (bytes - 2 * N.of_nat (length kept))) (all_values kept) text.
Proof.
  intros fm a b rank block runs levelwise one u lists file C B L kept V.
  destruct (tries_report fm a b rank block runs levelwise one u lists file C B ltac:(lia)) as (r & R & _ & RP).
  destruct RP as (R1 & R2 & R3 & R4). cbn [r_universe r_lists r_size r_ints] in *. fold kept in R2, R3.
  destruct (report_average r) as (text & T & A); [rewrite R3; exact V|lia|].
  exists r, text, (r_size r + 2 * r_lists r)%N. split; [exact R|]. split; [exact T|]. split; [exact R4|].
  split; [lia|]. rewrite <- R3, <- R2. replace (r_size r + 2 * r_lists r - 2 * r_lists r)%N with (r_size r) by lia. exact A.
Qed.

Theorem fast_tries_average : forall fm junk min_size max_size rank_type runs levelwise lw one u lists file,
  collection_ok one u lists ->
  build_fast_tries fm junk min_size max_size rank_type runs levelwise lw (collection_file one u lists) = Ok file ->
  let kept := kept_lists min_size max_size lists in
  (8 * (N.of_nat (length file) + 14 * N.of_nat (length kept)) < 2 ^ 64)%N ->
  (0 < all_values kept)%N ->
  exists r text bytes,
    report_fast_tries fm junk min_size max_size rank_type runs levelwise lw true (collection_file one u lists) = Ok (file, r) /\
    report_bpi r = Ok text /\ (fast_header_bytes + bytes = N.of_nat (length file))%N /\
    prints_average (8 * (bytes + 14 * N.of_nat (length kept))) (all_values kept) text.
Proof.
  intros fm junk a b rank runs levelwise lw one u lists file C B kept L V.
  destruct (fast_tries_report fm junk a b rank runs levelwise lw one u lists file C B ltac:(fold kept; lia))
    as (r & R & _ & R0 & RP).
  destruct RP as (R1 & R2 & R3 & R4). cbn [r_universe r_lists r_size r_ints] in *. fold kept in R2, R3.
  destruct (report_average r) as (text & T & A); [rewrite R3; exact V|lia|].
  exists r, text, (r_size r - 14 * r_lists r)%N. split; [exact R|]. split; [exact T|]. split; [exact R4|].
  rewrite <- R3, <- R2. replace (r_size r - 14 * r_lists r + 14 * r_lists r)%N with (r_size r) by lia. exact A.
Qed.

(* Two averages printed alike. *)
Lemma averages_apart : forall a a' b text, (0 < b)%N -> (1000006 * a < 999994 * a')%N ->
  prints_average a b text -> ~ prints_average a' b text.
Proof.
  intros a a' b text B L (w & x & -> & D & A) (w' & y & E & D' & A').
  injection E as <-. assert (x = y) as -> by (eapply denotes_one; eauto). unfold about in *.
  apply Qabs_Qle_condition in A. apply Qabs_Qle_condition in A'. assert (P := of_N_pos b B).
  apply of_N_lt in L. rewrite !of_N_mul in L. change (of_N 1000006) with 1000006 in L. change (of_N 999994) with 999994 in L.
  assert (K : 1000006 * (of_N a / of_N b) < 999994 * (of_N a' / of_N b)).
  { setoid_replace (1000006 * (of_N a / of_N b)) with (1000006 * of_N a / of_N b) by (field; lra).
    setoid_replace (999994 * (of_N a' / of_N b)) with (999994 * of_N a' / of_N b) by (field; lra).
    apply Qlt_shift_div_r; [exact P|].
    setoid_replace (999994 * of_N a' / of_N b * of_N b) with (999994 * of_N a') by (field; lra). exact L. }
  lra.
Qed.

Theorem tries_average_wrong : forall fm min_size max_size rank_type block runs levelwise one u lists file bytes r text,
  collection_ok one u lists ->
  build_tries fm min_size max_size rank_type block runs levelwise (collection_file one u lists) = Ok file ->
  (8 * N.of_nat (length file) < 2 ^ 64)%N ->
  let kept := kept_lists min_size max_size lists in
  (0 < all_values kept)%N -> (header_bytes rank_type + bytes = N.of_nat (length file))%N ->
  (6 * bytes < 1000000 * N.of_nat (length kept))%N ->
  report_tries fm min_size max_size rank_type block runs levelwise true (collection_file one u lists) = Ok (file, r) ->
  report_bpi r = Ok text -> ~ prints_average (8 * bytes) (all_values kept) text.
Proof.
  intros fm a b rank block runs levelwise one u lists file bytes r text C B L kept V HB W R T.
  destruct (tries_average fm a b rank block runs levelwise one u lists file C B L V)
    as (r' & text' & bytes' & R' & T' & HB' & LB & A).
  rewrite R in R'. injection R' as <-. rewrite T in T'. injection T' as <-.
  assert (bytes' = bytes) as -> by lia. fold kept in A, LB. revert A. apply averages_apart; [exact V|].
  set (k := N.of_nat (length kept)) in *. clearbody k. clear - W LB. lia.
Qed.

(* The exponents fit. *)
Theorem quotient_range : forall p a b, (24 <= p)%N -> (0 < a < 2 ^ 64)%N -> (0 < b < 2 ^ 64)%N ->
  exists m e, float_div p (float_of p a) (float_of p b) = Finite (m, e) /\
    2 ^ (-(126)) <= of_N m * 2 ^ e /\ of_N m * 2 ^ e < 2 ^ 128.
Proof.
  intros p a b Hp (A & A') (B & B').
  assert (WX := float_of_value p a ltac:(lia) A). assert (WY := float_of_value p b ltac:(lia) B).
  assert (R := precise p Hp). set (r := 2 ^ (- Z.of_N p)) in *.
  apply of_N_lt in A'. apply of_N_lt in B'. change (of_N (2 ^ 64)) with (2 ^ 64) in *.
  assert (A1 : 1 <= of_N a) by (change 1 with (of_N 1); apply of_N_le; lia).
  assert (B1 : 1 <= of_N b) by (change 1 with (of_N 1); apply of_N_le; lia).
  assert (PX : 0 < value (float_of p a)) by (eapply within_pos; [|apply of_N_pos, A|exact WX]; lra).
  assert (PY : 0 < value (float_of p b)) by (eapply within_pos; [|apply of_N_pos, B|exact WY]; lra).
  destruct (float_div_value p (float_of p a) (float_of p b) Hp (value_pos _ PX) (value_pos _ PY)) as ((m, e) & E & W).
  exists m, e. split; [exact E|]. fold r in W. change (of_N m * 2 ^ e) with (value (m, e)).
  set (x := value (float_of p a)) in *. set (y := value (float_of p b)) in *. set (z := value (m, e)) in *.
  clearbody x y z. rewrite within_bounds in WX, WY, W.
  change (2 ^ 64) with 18446744073709551616 in *.
  assert (X1 : 1 # 2 <= x) by nra. assert (X2 : x <= 36893488147419103232) by nra.
  assert (Y1 : 1 # 2 <= y) by nra. assert (Y2 : y <= 36893488147419103232) by nra.
  assert (Q1 : 1 # 73786976294838206464 <= x / y).
  { apply Qle_shift_div_l; [lra|]. lra. }
  assert (Q2 : x / y <= 73786976294838206464).
  { apply Qle_shift_div_r; [lra|]. lra. }
  set (q := x / y) in *. clearbody q.
  assert (Z1 : (1 # 2) * q <= z) by nra. assert (Z2 : z <= 2 * q) by nra.
  split.
  - apply Qle_trans with (1 # 147573952589676412928); [discriminate|]. lra.
  - apply Qle_lt_trans with 147573952589676412928; [lra|reflexivity].
Qed.
