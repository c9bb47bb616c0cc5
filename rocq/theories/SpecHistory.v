(** What programs over several sets should show: the same programs over ideal objects,
    each of which simply holds a set. *)

From Verif Require Import Base FlatTrie LevelTrie FastTrie ParallelFor Tries Spec SpecTries SpecFiles History.

(** The steps that are allowed, and what they do to ideal objects of type [O]. *)
Record rules (K O : Type) : Type := mkRules {
  may_new : K -> O -> Prop;                 (* constructing gives this object *)
  may_encode : O -> O -> Prop;
  may_decode : O -> list N -> Prop;         (* decoding shows this set *)
  may_store : O -> Prop;
  may_load : O -> O -> Prop;                (* over the first object the second can be loaded *)
  may_meet : list O -> bool -> bool -> list (list N) -> Prop  (* the sets intersected *)
}.
Arguments may_new {K O}. Arguments may_encode {K O}. Arguments may_decode {K O}.
Arguments may_store {K O}. Arguments may_load {K O}. Arguments may_meet {K O}.

Section Ideal.

Variables (K O : Type) (R : rules K O).

(** Loading objects one after the other from the front of a file. *)
Inductive ideal_load : (nat -> option O) -> list nat -> list O -> (nat -> option O) -> Prop :=
| load_none : forall objects rest, ideal_load objects [] rest objects
| load_one : forall objects i is old new rest objects',
    objects i = Some old -> may_load R old new ->
    ideal_load (assign objects i (Some new)) is rest objects' ->
    ideal_load objects (i :: is) (new :: rest) objects'.

(** One step over ideal objects and ideal files; each vector to be shown is given by the
    sets whose common values it holds. *)
Inductive ideal_step : (nat -> option O) * (nat -> option (list O)) -> step K ->
                       (nat -> option O) * (nat -> option (list O)) -> list (list (list N)) -> Prop :=
| ideal_new : forall objects files i k x, may_new R k x ->
    ideal_step (objects, files) (New i k) (assign objects i (Some x), files) []
| ideal_encode : forall objects files i x y, objects i = Some x -> may_encode R x y ->
    ideal_step (objects, files) (EncodeRuns i) (assign objects i (Some y), files) []
| ideal_decode : forall objects files i x s, objects i = Some x -> may_decode R x s ->
    ideal_step (objects, files) (Decode i) (objects, files) [[s]]
| ideal_store : forall objects files is f xs,
    Forall2 (fun i x => objects i = Some x) is xs -> Forall (may_store R) xs ->
    ideal_step (objects, files) (Store is f) (objects, assign files f (Some xs)) []
| ideal_load_file : forall objects files is f xs objects',
    files f = Some xs -> ideal_load objects is xs objects' ->
    ideal_step (objects, files) (Restore is f) (objects', files) []
| ideal_meet : forall objects files is runs parallel xs sets,
    Forall2 (fun i x => objects i = Some x) is xs -> may_meet R xs runs parallel sets ->
    ideal_step (objects, files) (Meet is runs parallel) (objects, files) [sets]
| ideal_delete : forall objects files i,
    ideal_step (objects, files) (Delete i) (assign objects i None, files) [].

Inductive ideal_steps : (nat -> option O) * (nat -> option (list O)) -> list (step K) ->
                        list (list (list N)) -> Prop :=
| steps_none : forall a, ideal_steps a [] []
| steps_one : forall a s a' steps shown more,
    ideal_step a s a' shown -> ideal_steps a' steps more -> ideal_steps a (s :: steps) (shown ++ more).

(** An allowed program, with the sets of each vector it shows. *)
Definition ideal_program (steps : list (step K)) (shown : list (list (list N))) : Prop :=
  ideal_steps (fun _ => None, fun _ => None) steps shown.

End Ideal.
Arguments ideal_program {K O}. Arguments ideal_steps {K O}. Arguments ideal_step {K O}. Arguments ideal_load {K O}.

(** * The classes derived from binaryTrie *)

(** An ideal trie: of which class, over which universe, whether its runs are encoded, and
    the set it holds; or one made by the default constructor. *)
Inductive ideal_trie : Type :=
| Empty (v : variant)
| Holds (v : variant) (u : N) (encoded : bool) (s : list N).

Definition class_of (x : ideal_trie) : variant :=
  match x with Empty v => v | Holds v _ _ _ => v end.

(** An intersection: over one universe; with runs = false only of plain tries; with
    runs = true of nonempty sets; in parallel within the limits of C12 and C13. *)
Definition bin_may_meet (hc : N) (xs : list ideal_trie) (runs parallel : bool) (sets : list (list N)) : Prop :=
  1 <= length xs <= 16 /\
  exists u, Forall2 (fun x s => exists v enc, x = Holds v u enc s /\
                       (runs = false -> enc = false) /\ (runs = true -> s <> [])) xs sets /\
    (parallel = true -> (hc < 2 ^ 16)%N /\ (3 <= u \/ (runs = false /\ hc <= 3))%N) /\
    (parallel = true -> runs = true ->
     Forall (no_block (thread_block u hc)) sets \/ (rounded u < 4 * 2 ^ N.log2 hc)%N).

Definition bin_rules (hc : N) : rules bin_new ideal_trie :=
  mkRules bin_new ideal_trie
    (fun k x => match k with
                | FromSet v s u => x = Holds v u false s /\ (2 <= u <= 2 ^ 48)%N /\ plain_ok u v s
                | Default v => x = Empty v
                end)
    (fun x y => match x with
                | Holds v u false s => y = Holds v u true s /\ stored_ok u v true s
                | _ => False
                end)
    (fun x s => exists v u enc, x = Holds v u enc s)
    (fun x => exists v u enc s, x = Holds v u enc s /\ v <> VLevel true /\ s <> [])
    (fun x y => class_of x = class_of y)
    (bin_may_meet hc).

(** * fastBinaryTrie *)

(** [clear]: the memory of empty_trie, which the constructor does not set, held false. *)
Inductive ideal_fast : Type :=
| FastEmpty
| FastHolds (u : N) (clear encoded : bool) (s : list N).

Definition fast_may_meet (lw : nat) (hc : N) (xs : list ideal_fast) (runs parallel : bool)
           (sets : list (list N)) : Prop :=
  1 <= length xs <= 16 /\
  exists u, Forall2 (fun x s => exists clear enc, x = FastHolds u clear enc s /\ (runs = false -> enc = false)) xs sets /\
    (parallel = true -> (hc < 2 ^ 16)%N /\ (2 ^ N.of_nat lw < u \/ (runs = false /\ hc = 1))%N) /\
    (parallel = true -> runs = true ->
     Forall (no_block (thread_block u hc)) sets \/ (rounded u < 2 * 2 ^ N.of_nat lw * 2 ^ N.log2 hc)%N).

(** Fast tries are loaded only over objects just made by the default constructor (C22), and
    an encoded one is decoded only if its memory was clear (C07). *)
Definition fast_rules (lw : nat) (hc : N) : rules fast_new ideal_fast :=
  mkRules fast_new ideal_fast
    (fun k x => match k with
                | FastFromSet s u jh je =>
                  exists clear, x = FastHolds u clear false s /\ (clear = true -> je = Some false) /\
                    fast_universe u lw /\ fast_ok u s /\ u16_member jh
                | FastDefault _ _ _ _ _ => x = FastEmpty
                end)
    (fun x y => match x with
                | FastHolds u clear false s => y = FastHolds u clear true s
                | _ => False
                end)
    (fun x s => exists u clear enc, x = FastHolds u clear enc s /\ (enc = true -> clear = true))
    (fun x => exists u clear enc s, x = FastHolds u clear enc s)
    (fun x y => x = FastEmpty)
    (fast_may_meet lw hc).
