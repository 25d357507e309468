(** Properties C11-C12: the scavenger. *)
From stdpp Require Import base list numbers sorting.
From Coq Require Import ZArith.
From Verif.Scavenger Require Import Model Spec Proofs Conc ConcProofs.
Local Open Scope Z_scope.

(** C11. Up to 2^32-2 objects in the lifetime: what has been deleted was handed
    over, and after the destructor every object was deleted exactly once. *)
Theorem C11_freed_exactly_once : forall (T : Type) (n : nat) (sec : Z) (os : list (sop T)),
  Z.of_nat (length (handed_over os)) + 1 < 2 ^ 32 ->
  let '(s, ds) := srun (scav_new sec n) os in
  (exists rest, handed_over os ≡ₚ concat ds ++ rest) /\
  handed_over os ≡ₚ concat ds ++ snd (destroy s).
Proof. exact @final_once. Qed.
Print Assumptions C11_freed_exactly_once.

Example C11_example :
  let os := [Claim 1 0 0; Claim 2 1 1; Claim 3 2 2; Scavenge false 3; Claim 4 4 4; Scavenge true 5;
             Claim 5 6 6] in
  handed_over os = [1;2;3;4;5] /\
  snd (srun (scav_new 2 2) os) = [[]; []; []; [1;3]; []; [4;2]; []] /\
  snd (destroy (fst (srun (scav_new 2 2) os))) = [5].
Proof. vm_compute. repeat split. Qed.

(** C11 with one claiming thread and one scavenging thread interleaved at the
    level of single memory accesses. *)
Theorem C11_concurrent_freed_exactly_once : forall (T : Type) (sec : Z) (n : nat)
    (schedule : list (label T)) (s : cst T),
  lrun sec (c_new n 1) schedule = Some s ->
  Z.of_nat (length (c_issued s)) + 1 < 2 ^ 32 ->
  (exists rest, (c_issued s).*1 ≡ₚ c_deleted s ++ rest) /\
  (quiescent s -> (c_issued s).*1 ≡ₚ c_deleted s ++ snd (destroy (to_scav sec s))).
Proof. exact @final_conc_once. Qed.
Print Assumptions C11_concurrent_freed_exactly_once.

(** ... and no step is ever blocked or dereferences a null or out-of-range slot. *)
Theorem C11_concurrent_progress : forall (T : Type) (sec : Z) (n : nat)
    (schedule : list (label T)) (s : cst T),
  lrun sec (c_new n 1) schedule = Some s ->
  Z.of_nat (length (c_issued s)) + 1 < 2 ^ 32 ->
  (c_scav s <> SIdle -> is_Some (lstep sec s LS)) /\
  (c_threads s <> [CIdle] -> forall now, is_Some (lstep sec s (LC 0 now))).
Proof. exact @final_conc_progress. Qed.
Print Assumptions C11_concurrent_progress.

(** The scavenger empties slot 0 while the claimer is filling slot 1. *)
Example C11_concurrent_example :
  let sch := [LClaim 0 7%nat 1; LC 0 0; LC 0 0; LC 0 0; LC 0 0; LC 0 0;
              LScav false 9; LClaim 0 8%nat 9; LS; LC 0 0; LS; LS; LC 0 0; LS; LS; LC 0 0; LS;
              LC 0 0; LS; LC 0 0; LC 0 0; LS; LS; LS; LS; LS] in
  exists s, lrun 2 (c_new 2 1) sch = Some s /\ quiescent s /\
    c_deleted s = [7%nat] /\ snd (destroy (to_scav 2 s)) = [8%nat].
Proof. eexists. split; [vm_compute; reflexivity|]. vm_compute. repeat split. repeat constructor. Qed.

(** With two claiming threads, as when two worker threads retire their output
    buffers at once (StretcherProcess.cpp:513), an object is lost: both threads
    find slot 0 free and the second store overwrites the first. *)
Theorem C11_two_claimers_refuted : exists (sec : Z) (n : nat) (schedule : list (label nat)) (s : cst nat),
  lrun sec (c_new n 2) schedule = Some s /\ quiescent s /\
  ~ (c_issued s).*1 ≡ₚ c_deleted s ++ snd (destroy (to_scav sec s)).
Proof.
  exists 10, 4%nat, [LClaim 0 7%nat 1; LClaim 1 8%nat 1; LC 0 0; LC 1 0; LC 0 0; LC 1 0; LC 0 0; LC 1 0;
             LC 0 0; LC 0 0; LC 1 0; LC 1 0].
  eexists. split; [vm_compute; reflexivity|]. split; [vm_compute; split; repeat constructor|].
  intros H. apply Permutation_length in H. vm_compute in H. discriminate H.
Qed.
Print Assumptions C11_two_claimers_refuted.

(** C12 is false: when a slot expires, everything in the overflow list goes too,
    however young. One slot: b is claimed at 10 and deleted at 11. *)
Theorem C12_grace_period_refuted : exists (n : nat) (sec : Z) (os : list (sop nat)) (now : Z) (t : nat),
  t ∈ snd (scavenge (fst (srun (scav_new sec n) os)) false now) /\
  ~ (exists x, handed_over_at os t x /\ x + sec < now).
Proof.
  exists 1%nat, 2, [Claim 1%nat 0 0; Claim 2%nat 10 10], 11, 2%nat.
  split; [vm_compute; right; left|].
  intros (x & [t2 H] & Hx). apply elem_of_cons in H as [H|H]; [discriminate|].
  apply elem_of_list_singleton in H. injection H as -> ->. vm_compute in Hx. discriminate.
Qed.
Print Assumptions C12_grace_period_refuted.

(** What holds: an unforced scavenge deletes an object early only if it was
    handed over while all slots were taken. *)
Theorem C12_grace_period_partial : forall (T : Type) (n : nat) (sec : Z) (os : list (sop T)) (now : Z) (t : T),
  Z.of_nat (length (handed_over os)) + 1 < 2 ^ 32 ->
  t ∈ snd (scavenge (fst (srun (scav_new sec n) os)) false now) ->
  (exists x, handed_over_at os t x /\ x + sec < now) \/ overflowed n sec os t.
Proof. exact @final_grace. Qed.
Print Assumptions C12_grace_period_partial.

Theorem C12_concurrent_grace_partial : forall (T : Type) (sec : Z) (n : nat)
    (schedule : list (label T)) (s : cst T) (i : nat) (ot : T) (now : Z),
  lrun sec (c_new n 1) schedule = Some s ->
  Z.of_nat (length (c_issued s)) + 1 < 2 ^ 32 ->
  c_scav s = SDel i ot false now ->
  exists x, (ot, x) ∈ c_issued s /\ x + sec < now.
Proof. exact @final_conc_grace. Qed.
Print Assumptions C12_concurrent_grace_partial.

Example C12_example :
  snd (scavenge (fst (srun (scav_new 2 2) [Claim 1 0 0; Claim 2 3 3])) false 4) = [1] /\
  (exists s, lrun 2 (c_new 1 1) [LClaim 0 7%nat 1; LC 0 0; LC 0 0; LC 0 0; LC 0 0; LC 0 0;
     LScav false 4; LS; LS; LS; LS; LS] = Some s /\ c_scav s = SDel 0 7%nat false 4).
Proof. split; [reflexivity|]. eexists. split; vm_compute; reflexivity. Qed.

(** C55. Once everything handed over is older than the grace period, a single
    scavenge frees all of it, overflow included. *)
Theorem C55_old_objects_all_freed : forall (T : Type) (n : nat) (sec : Z) (os : list (sop T)) (now : Z),
  (1 <= n)%nat -> Z.of_nat (length (handed_over os)) + 1 < 2 ^ 32 ->
  (forall t x, handed_over_at os t x -> x + sec < now) ->
  let '(s, ds) := srun (scav_new sec n) os in
  handed_over os ≡ₚ concat ds ++ snd (scavenge s false now).
Proof. exact @final_all_freed. Qed.
Print Assumptions C55_old_objects_all_freed.

Example C55_example :
  let os := [Claim 1 0 0; Claim 2 1 1; Claim 3 2 2] in
  snd (scavenge (fst (srun (scav_new 2 2) os)) false 9) = [1;2;3].
Proof. reflexivity. Qed.

(** With the two threads interleaved it is false: an overflow that lands just
    after a sweep is not freed by any number of later unforced or forced
    scavenges, because they return at once when no slot is taken. *)
Theorem C55_concurrent_refuted : exists (sec : Z) (n : nat) (schedule : list (label nat)) (s : cst nat) (t : nat),
  (1 <= n)%nat /\ lrun sec (c_new n 1) schedule = Some s /\ quiescent s /\
  t ∈ (c_issued s).*1 /\ t ∉ c_deleted s /\
  forall cn now, scavenge (to_scav sec s) cn now = (to_scav sec s, []).
Proof.
  exists 2, 1%nat, [LClaim 0 7%nat 1; LC 0 0; LC 0 0; LC 0 0; LC 0 0; LC 0 0;
     LClaim 0 8%nat 1; LC 0 0; LC 0 0;
     LScav false 9; LS; LS; LS; LS; LS; LS; LS; LS; LS; LS; LC 0 1].
  eexists _, 8%nat. split; [done|]. split; [vm_compute; reflexivity|].
  split; [vm_compute; split; repeat constructor|].
  split; [vm_compute; right; left|]. split; [|reflexivity].
  vm_compute. intros H. inversion H as [|? ? ? H']; subst. inversion H'.
Qed.
Print Assumptions C55_concurrent_refuted.
