(** Vocabulary for the values a parallel call on run-encoded tries loses. *)

From Verif Require Import Base Intersection Tries Spec SpecTries.

(** The set [s], stored with its runs encoded when [enc] holds, has the whole
    aligned block of [b] values around [v] as a run. *)
Definition run_around (b v : N) (x : bool * list N) : Prop :=
  fst x = true /\ forall y, (y / b = v / b)%N -> In y (snd x).

(** Some of the tries have a run around [v] and some have not. *)
Definition disagree (b v : N) (xs : list (bool * list N)) : Prop :=
  Exists (run_around b v) xs /\ Exists (fun x => ~ run_around b v x) xs.

(** The encoding flag and the set of a trie. *)
Definition b_part (x : bitem) : bool * list N := (snd (fst x), snd x).
Definition f_part (x : fitem) : bool * list N := (f_enc x, snd x).

(** * What exactly a parallel call returns

    [b] is the share of one thread, [thread_block u hc]; block [q] of [b] values holds
    the values [v] with [v / b = q]. *)

(** Every set has a value in block [q] of [b] values. *)
Definition met (b q : N) (xs : list (bool * list N)) : Prop :=
  Forall (fun x => exists y, In y (snd x) /\ (y / b = q)%N) xs.

(** Block [q] is given to a thread: every set has a value in it, and no trie has a run
    of twice its size or more around it. *)
Definition share (b : N) (xs : list (bool * list N)) (q : N) : Prop :=
  met b q xs /\ forall j, (1 <= j)%N -> ~ Exists (run_around (b * 2 ^ j) (q * b)) xs.

(** The number of tasks that come out of block [q] when it is divided: none when a trie
    has the block as a run, otherwise one for each half every set has a value in. *)
Definition tasks_of (b : N) (xs : list (bool * list N)) (q : N) (k : nat) : Prop :=
  (Exists (run_around b (q * b)) xs /\ k = 0) \/
  (~ Exists (run_around b (q * b)) xs /\
   exists hs, NoDup hs /\ (forall h, In h hs <-> (h / 2 = q)%N /\ met (b / 2) h xs) /\ k = length hs).

(** Which of the blocks are divided, when [made] tasks have come out of the ones before:
    a block is, while there are at least two threads for which there is no task yet. *)
Inductive divided (nT : nat) (b : N) (xs : list (bool * list N)) : list N -> nat -> list N -> list N -> Prop :=
| divided_none : forall made, divided nT b xs [] made [] []
| divided_stop : forall q qs made, nT < length (q :: qs) + made + 2 -> divided nT b xs (q :: qs) made [] (q :: qs)
| divided_go : forall q qs made k es rest, length (q :: qs) + made + 2 <= nT -> tasks_of b xs q k ->
    divided nT b xs qs (made + k) es rest -> divided nT b xs (q :: qs) made (q :: es) rest.

(** [r] is the increasing list of the common values with property [P]. *)
Definition common_where (xs : list (bool * list N)) (P : N -> Prop) (r : list N) : Prop :=
  increasing r /\ forall v, In v r <-> Forall (fun x => In v (snd x)) xs /\ P v.

(** The vector returned: first the values of runs of all the tries of at least twice the
    share, then those of runs of all the tries of the size of a divided share, then the
    other values of the divided shares, then those of the undivided ones. *)
Definition parallel_outcome (b : N) (nT : nat) (xs : list (bool * list N)) (r : list N) : Prop :=
  exists qs es rest r1 r2 r3 r4,
    increasing qs /\ (forall q, In q qs <-> share b xs q) /\ divided nT b xs qs 0 es rest /\
    r = r1 ++ r2 ++ r3 ++ r4 /\
    common_where xs (fun v => (exists j, (1 <= j)%N /\ Forall (run_around (b * 2 ^ j) v) xs) /\
                              forall j, (1 <= j)%N -> ~ disagree (b * 2 ^ j) v xs) r1 /\
    common_where xs (fun v => In (v / b)%N es /\ Forall (run_around b v) xs) r2 /\
    common_where xs (fun v => In (v / b)%N es /\ ~ Exists (run_around b v) xs) r3 /\
    common_where xs (fun v => In (v / b)%N rest) r4.

(** * What a parallel call leaves allocated

    [m] tells the arrays made and the ones freed: two arrays, or one when runs are not
    looked for, are left of every divided share. *)
Definition leaves (b : N) (nT : nat) (xs : list (bool * list N)) (runs : bool) (m : Intersection.mem) : Prop :=
  exists qs es rest, increasing qs /\ (forall q, In q qs <-> share b xs q) /\
    divided nT b xs qs 0 es rest /\
    m_next m = length (m_freed m) + (if runs then 2 else 1) * length es.
