(** Proofs about query logs. *)

From Coq Require Import String Ascii.
From Verif Require Import Base Text SpecText Facts.

Lemma space_is : forall c, space c -> is_space c = true.
Proof.
  unfold space. cbn [In]. intros c H.
  repeat destruct H as [H|H]; try (subst; reflexivity). destruct H.
Qed.

Lemma space_not_newline : forall c, space c -> c <> newline.
Proof.
  unfold space, newline. cbn [In]. intros c H.
  repeat destruct H as [H|H]; try (subst; discriminate). destruct H.
Qed.

Lemma digit_is : forall c, (48 <= c <= 57)%N -> is_digit c = true.
Proof.
  intros c H. unfold is_digit. apply andb_true_intro. split; apply N.leb_le; lia.
Qed.

Lemma digit_not_space : forall c, (48 <= c <= 57)%N -> is_space c = false.
Proof.
  intros c H. unfold is_space. apply orb_false_intro; [apply N.eqb_neq; lia|].
  apply andb_false_intro2. apply N.leb_gt. lia.
Qed.

(** * Words *)

Lemma words_spaces : forall b rest, Forall space b -> get_words (b ++ rest) [] = get_words rest [].
Proof.
  intros b rest H. induction H; cbn [app get_words]; auto. rewrite space_is; auto.
Qed.

Lemma words_digits : forall w rest acc, Forall (fun c => 48 <= c <= 57)%N w ->
  get_words (w ++ rest) acc = get_words rest (acc ++ w).
Proof.
  intros w rest acc H. revert acc. induction H; intros acc; cbn [app get_words].
  - rewrite app_nil_r. reflexivity.
  - rewrite digit_not_space by auto. rewrite IHForall, <- app_assoc. reflexivity.
Qed.

Lemma words_end : forall w rest, w <> [] -> (forall c rest', rest = c :: rest' -> space c) ->
  get_words rest w = w :: get_words rest [].
Proof.
  intros w [|c rest] N0 H; cbn [get_words].
  - destruct w; [congruence|reflexivity].
  - rewrite space_is by (eapply H; eauto). destruct w; [congruence|reflexivity].
Qed.

Lemma line_words : forall line q, line_of line q ->
  exists ws, get_words line [] = ws /\ Forall decimal ws /\ map decimal_value ws = q.
Proof.
  intros line q H. induction H as [b Hb|b w rest q Hb (N0 & Hw) Hr H (ws & E & F & M)].
  - exists []. rewrite <- (app_nil_r b), words_spaces by auto. cbn. auto.
  - exists (w :: ws). rewrite words_spaces, words_digits by auto. cbn [app].
    rewrite words_end by auto. rewrite E. split; auto. split; [constructor; [split; auto|auto]|].
    cbn [map]. congruence.
Qed.

(** * Lines *)

Lemma line_no_newline : forall line q, line_of line q -> ~ In newline line.
Proof.
  intros line q H. induction H as [b Hb|b w rest q Hb (N0 & Hw) Hr H IH].
  - intros I. rewrite Forall_forall in Hb. apply Hb in I. apply space_not_newline in I. congruence.
  - rewrite !in_app_iff. intros [I|[I|I]]; auto.
    + rewrite Forall_forall in Hb. apply Hb in I. apply space_not_newline in I. congruence.
    + rewrite Forall_forall in Hw. apply Hw in I. unfold newline in I. lia.
Qed.

Lemma lines_cons : forall line text acc, ~ In newline line ->
  get_lines (line ++ newline :: text) acc = (acc ++ line) :: get_lines text [].
Proof.
  induction line as [|c line IH]; intros text acc H; cbn [app get_lines].
  - rewrite N.eqb_refl, app_nil_r. reflexivity.
  - destruct (N.eqb_spec c 10) as [->|E].
    + exfalso. apply H. left. reflexivity.
    + rewrite IH by (intros I; apply H; right; auto). rewrite <- app_assoc. reflexivity.
Qed.

Lemma lines_last : forall line acc, ~ In newline line -> acc ++ line <> [] ->
  get_lines line acc = [acc ++ line].
Proof.
  induction line as [|c line IH]; intros acc H N0; cbn [get_lines].
  - rewrite app_nil_r in *. destruct acc; [congruence|reflexivity].
  - destruct (N.eqb_spec c 10) as [->|E].
    + exfalso. apply H. left. reflexivity.
    + rewrite IH; rewrite <- ?app_assoc; cbn [app]; auto. intros I; apply H; right; auto.
Qed.

Lemma log_lines : forall text queries, log_of text queries ->
  Forall2 line_of (get_lines text []) queries.
Proof.
  intros text queries H. induction H.
  - constructor.
  - rewrite lines_last; [constructor; auto|eapply line_no_newline; eauto|auto].
  - rewrite lines_cons by (eapply line_no_newline; eauto). constructor; auto.
Qed.

(** * Numbers *)

Lemma read_digits_spec : forall w a, Forall (fun c => 48 <= c <= 57)%N w ->
  read_digits w (Some a) = Some (fold_left (fun a c => a * 10 + (c - 48))%N w a).
Proof.
  intros w a H. revert a. induction H; intros a; cbn [read_digits fold_left]; auto.
  rewrite digit_is by auto. apply IHForall.
Qed.

Lemma decimal_number : forall w, decimal w -> read_number w = (false, Some (decimal_value w)).
Proof.
  intros w (N0 & H). destruct H as [|c w Hc H]; [congruence|]. unfold read_number.
  cbn [skip_spaces]. rewrite digit_not_space by auto.
  destruct (N.eqb_spec c 45); [lia|]. destruct (N.eqb_spec c 43); [lia|].
  cbn [read_digits]. rewrite digit_is by auto. rewrite read_digits_spec by auto. reflexivity.
Qed.

Lemma each_some_ok : forall A B (f : A -> option B) (g : A -> B) l,
  Forall (fun a => f a = Some (g a)) l -> each_some f l = Some (map g l).
Proof.
  intros A B f g l H. induction H; cbn [each_some map]; auto. rewrite H, IHForall. reflexivity.
Qed.

Lemma each_some_none : forall A B (f : A -> option B) l a, In a l -> f a = None -> each_some f l = None.
Proof.
  intros A B f l a. induction l as [|x l IH]; intros I E; [destruct I|]. cbn [each_some].
  destruct I as [->|I]; [rewrite E; reflexivity|].
  destruct (f x); auto. rewrite IH; auto.
Qed.

Lemma stoi32_decimal : forall w, decimal w ->
  stoi32 w = if N.ltb (decimal_value w) (2 ^ 31) then Some (decimal_value w) else None.
Proof. intros w H. unfold stoi32. rewrite decimal_number by auto. reflexivity. Qed.

Lemma stoull_decimal : forall w, decimal w ->
  stoull w = if N.ltb (decimal_value w) (2 ^ 64) then Some (decimal_value w) else None.
Proof. intros w H. unfold stoull. rewrite decimal_number by auto. reflexivity. Qed.

(** * The log *)

Section Log.
  Variable conv : list N -> option N.
  Variable bound : N.
  Hypothesis conv_decimal : forall w, decimal w ->
    conv w = if N.ltb (decimal_value w) bound then Some (decimal_value w) else None.

  Lemma line_loaded : forall line q, line_of line q -> Forall (fun i => i < bound)%N q ->
    each_some conv (get_words line []) = Some q.
  Proof.
    intros line q H Hq. destruct (line_words _ _ H) as (ws & -> & F & <-).
    apply each_some_ok. rewrite Forall_forall in *. intros w I.
    rewrite conv_decimal by auto.
    assert (L : (decimal_value w < bound)%N) by (apply Hq; apply in_map; auto).
    apply N.ltb_lt in L. rewrite L. reflexivity.
  Qed.

  Lemma line_fails : forall line q i, line_of line q -> In i q -> (bound <= i)%N ->
    each_some conv (get_words line []) = None.
  Proof.
    intros line q i H I L. destruct (line_words _ _ H) as (ws & -> & F & <-).
    apply in_map_iff in I. destruct I as (w & <- & I). eapply each_some_none; [exact I|].
    rewrite Forall_forall in F. rewrite conv_decimal by auto. apply N.ltb_ge in L. rewrite L. reflexivity.
  Qed.

  Lemma log_loaded : forall text queries, log_of text queries ->
    Forall (Forall (fun i => i < bound)%N) queries ->
    each_some (fun line => each_some conv (get_words line [])) (get_lines text []) = Some queries.
  Proof.
    intros text queries H Hq. apply log_lines in H. induction H; cbn [each_some]; auto.
    inversion Hq; subst. rewrite (line_loaded x y) by auto. rewrite IHForall2; auto.
  Qed.

  Lemma log_fails : forall text queries q i, log_of text queries -> In q queries -> In i q ->
    (bound <= i)%N ->
    each_some (fun line => each_some conv (get_words line [])) (get_lines text []) = None.
  Proof.
    intros text queries q i H Iq Ii L. apply log_lines in H. induction H; [destruct Iq|].
    cbn [each_some]. destruct Iq as [->|Iq].
    - rewrite (line_fails x q i) by auto. reflexivity.
    - destruct (each_some conv (get_words x [])); auto. rewrite IHForall2; auto.
  Qed.
End Log.

Theorem query_log_loaded : forall text queries, log_of text queries ->
  Forall (Forall (fun i => i < 2 ^ 31)%N) queries -> load_query_log (Some text) = Some queries.
Proof. intros. apply log_loaded with (2 ^ 31)%N; auto. apply stoi32_decimal. Qed.

Theorem query_log_fails : forall text queries q i, log_of text queries -> In q queries -> In i q ->
  (2 ^ 31 <= i)%N -> load_query_log (Some text) = None.
Proof. intros. eapply log_fails with (bound := (2 ^ 31)%N); eauto. apply stoi32_decimal. Qed.

Theorem fast_query_log_loaded : forall text queries, log_of text queries ->
  Forall (Forall (fun i => i < 2 ^ 64)%N) queries -> fast_load_query_log (Some text) = Some queries.
Proof. intros. apply log_loaded with (2 ^ 64)%N; auto. apply stoull_decimal. Qed.

(** * Every query can be written *)

Fixpoint to_decimal (fuel : nat) (v : N) : list N :=
  match fuel with
  | O => []
  | S fuel' => if N.ltb v 10 then [(48 + v)%N] else to_decimal fuel' (v / 10) ++ [(48 + v mod 10)%N]
  end.

Lemma to_decimal_spec : forall fuel v, (v < 2 ^ N.of_nat fuel)%N ->
  0 < fuel -> decimal (to_decimal fuel v) /\ decimal_value (to_decimal fuel v) = v.
Proof.
  induction fuel as [|fuel IH]; intros v H L; [lia|]. cbn [to_decimal].
  destruct (N.ltb_spec v 10).
  - split.
    + split; [discriminate|]. constructor; [lia|constructor].
    + unfold decimal_value. cbn [fold_left]. lia.
  - rewrite Nat2N.inj_succ, N.pow_succ_r' in H.
    assert (D : (v / 10 < 2 ^ N.of_nat fuel)%N) by (apply N.div_lt_upper_bound; lia).
    assert (F : 0 < fuel) by (destruct fuel; [cbn in H; lia|lia]).
    destruct (IH (v / 10)%N D F) as ((N0 & A) & B).
    assert (M : (v mod 10 < 10)%N) by (apply N.mod_lt; discriminate).
    assert (E := N.div_mod v 10 ltac:(discriminate)).
    split.
    + split; [destruct (to_decimal fuel (v / 10)); discriminate|]. apply Forall_app. split; auto.
      constructor; [lia|constructor].
    + unfold decimal_value in *. rewrite fold_left_app, B. cbn [fold_left]. lia.
Qed.

Definition number_text (v : N) : list N := to_decimal (S (N.size_nat v)) v.

Lemma number_text_ok : forall v, decimal (number_text v) /\ decimal_value (number_text v) = v.
Proof.
  intros v. apply to_decimal_spec; [|lia].
  rewrite Nat2N.inj_succ, N.pow_succ_r'. destruct v as [|p]; [reflexivity|].
  assert (S := N.size_gt (N.pos p)).
  assert (E : N.of_nat (N.size_nat (N.pos p)) = N.size (N.pos p)).
  { clear. cbn. induction p; cbn [Pos.size_nat Pos.size]; rewrite ?Nat2N.inj_succ; try rewrite IHp; lia. }
  rewrite E. lia.
Qed.

Fixpoint line_text (q : list N) : list N :=
  match q with
  | [] => []
  | i :: q' => [32%N] ++ number_text i ++ line_text q'
  end.

Lemma line_text_ok : forall q, line_of (line_text q) q.
Proof.
  induction q as [|i q IH]; cbn [line_text]; [constructor; constructor|].
  destruct (number_text_ok i) as (A & B). rewrite <- B at 2.
  constructor; auto.
  - constructor; [|constructor]. left. reflexivity.
  - intros c rest E. destruct q; [discriminate|]. injection E as <- _. left. reflexivity.
Qed.

Definition log_text (queries : list (list N)) : list N :=
  concat (map (fun q => line_text q ++ [newline]) queries).

Theorem log_text_ok : forall queries, log_of (log_text queries) queries.
Proof.
  induction queries as [|q queries IH]; [constructor|]. unfold log_text. cbn [map concat].
  rewrite <- app_assoc. cbn [app]. constructor; auto. apply line_text_ok.
Qed.
