(** Property C62: the processors of the workers. *)

From Verif Require Import Base FlatTrie LevelTrie FastTrie ParallelFor Intersection Tries Affinity
  Spec SpecTries AffinityThms.

(** C62.  Full claim: worker i of a parallel loop is bound to processor i and to no other, on Linux
    and on macOS, for every number of workers.  Linux: for the first 1024 workers; the sets of the
    others are empty, which the system refuses and the code reports. *)
Theorem C62_linux_partial : forall n, exists sets, linux_bindings n = Ok sets /\ length sets = n /\
  forall i cs, nth_error sets i = Some cs -> forall c,
    N.testbit cs c = true <-> c = N.of_nat i /\ i < 1024.
Proof. exact linux_bindings_spec. Qed.
Print Assumptions C62_linux_partial.

(** macOS: for up to 32 workers. *)
Theorem C62_mac_partial : forall n, n <= 32 -> mac_bindings n = Ok (seq 0 n).
Proof. exact mac_bindings_ok. Qed.
Print Assumptions C62_mac_partial.

(** The loop then does what it does on Linux. *)
Theorem C62_mac_loop_partial : forall n t acts, t <= 32 -> mac_traces n t acts = pf_traces n t acts.
Proof. exact mac_traces_ok. Qed.
Print Assumptions C62_mac_loop_partial.

(** So an intersection is safe on fewer than 64 hardware threads. *)
Theorem C62_mac_intersection_partial : forall k Ts nTries maxLevel runs hc used levels st, (hc < 64)%N ->
  par_plan k Ts nTries maxLevel runs (N.to_nat (N.log2 hc)) (2 ^ N.log2 hc)%N = Ok (Work used levels st) ->
  mac_bindings used = Ok (seq 0 used).
Proof. exact mac_intersection. Qed.
Print Assumptions C62_mac_intersection_partial.

(** With more workers the shift 1 << 32 is undefined, always. *)
Theorem C62_mac_refuted : forall n t acts, 32 < t ->
  mac_bindings t = UB BadShift /\ mac_traces n t acts = UB BadShift.
Proof. exact (fun n t acts H => conj (mac_bindings_ub t H) (mac_traces_ub n t acts H)). Qed.
Print Assumptions C62_mac_refuted.

(** The set of all processors of a machine. *)
Theorem C62_getaffinity : forall n, mac_sched_getaffinity (Some n) =
  if n <=? 32 then Ok (Some (2 ^ N.of_nat n - 1)%N) else UB BadShift.
Proof. exact mac_getaffinity. Qed.
Print Assumptions C62_getaffinity.

(** A set of 256 values over 512 and itself, on 64 hardware threads: 64 workers.  On 63: 32. *)
Definition workers (hc : N) (s : list N) : result nat :=
  let* t := bin_build (VLevel false) s 512 in
  let* p := par_plan Bin (map bin_ops [t; t]) 2 9 false (N.to_nat (N.log2 hc)) (2 ^ N.log2 hc)%N in
  match p with
  | Work used _ _ => Ok used
  | Done _ _ => Ok 0
  end.

Example C62_example :
  let s := map (fun x => 2 * x)%N (nrange 0 256) in
  workers 63 s = Ok 32 /\ mac_bindings 32 = Ok (seq 0 32) /\
  workers 64 s = Ok 64 /\ mac_bindings 64 = UB BadShift /\
  linux_bindings 3 = Ok [1; 2; 4]%N /\ mac_sched_getaffinity (Some 8) = Ok (Some 255%N).
Proof. cbv zeta. repeat split; vm_compute; reflexivity. Qed.
