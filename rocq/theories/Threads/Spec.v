(** What is asked of a worker thread. *)
From stdpp Require Import prelude.
From Verif Require Import Threads.Model.

(** A sample that some window took in. *)
Definition covered (s : st) (i : nat) : Prop := exists a n, (a, n) ∈ windows s /\ (a <= i < a + n)%nat.
Definition ended (s : st) : Prop := at_ s = Done \/ at_ s = Abandoned.
(** How often the worker gets to run. *)
Fixpoint turns (acts : list act) : nat :=
  match acts with [] => 0 | Worker :: acts => S (turns acts) | _ :: acts => turns acts end.

(** Sizes the engine may have: the increment is less than half the window, which fits into the
    input buffer. *)
Record proper (z : sizes) : Prop := Proper {
  pr_inc : (1 <= inc z < aw z / 2)%nat;
  pr_win : (4 <= aw z)%nat;
  pr_cap : (aw z <= cap z)%nat
}.
(** What is written for a chunk is less than the synthesis window, so that the next overlaps it. *)
Record overlapping (z : sizes) : Prop := Overlapping {
  ov_bit : (aw z / 4 < sw z)%nat;
  ov_shift : forall k, (shifts z k <= aw z -> shifts z k < sw z)%nat
}.
(** Windows at every multiple of the increment, each full unless it is the end of the input. *)
Definition in_order (z : sizes) (s : st) : Prop := forall k a n, windows s !! k = Some (a, n) ->
  a = (k * inc z)%nat /\ (n = aw z \/ closed s = true /\ (a + n)%nat = written s).
