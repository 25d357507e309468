(** Specification of the scavenger: what the caller handed over, and when. *)
From stdpp Require Import base list numbers.
From Coq Require Import ZArith.
From Verif.Scavenger Require Import Model.
Local Open Scope Z_scope.

Section spec.
Context {T : Type}.
(** Objects handed over by a history of calls. *)
Definition handed_over (os : list (sop T)) : list T :=
  omap (fun o => match o with Claim t _ _ => Some t | _ => None end) os.

(** [x] was handed over at time [t] in the history. *)
Definition handed_over_at (os : list (sop T)) (x : T) (t : Z) : Prop :=
  exists t2, Claim x t t2 ∈ os.

(** Number of objects handed over and not yet deleted. *)
Definition outstanding (os : list (sop T)) (ds : list (list T)) : nat :=
  (length (handed_over os) - length (concat ds))%nat.
(** [t] was handed over while at least [n] (the number of slots) objects were
    outstanding. *)
Definition overflowed (n : nat) (sec : Z) (os : list (sop T)) (t : T) : Prop :=
  exists pre c1 c2 post, os = pre ++ Claim t c1 c2 :: post /\
    (n <= outstanding pre (snd (srun (scav_new sec n) pre)))%nat.
End spec.
