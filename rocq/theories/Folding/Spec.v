(** What folding a frame into a transform buffer is to do: the middle of the frame goes to
    index 0, and indices count round the buffer. *)
From stdpp Require Import prelude.
From Coq Require Import ZArith.
From Verif Require Import Base.Arith.
From stdpp Require Import list.
Local Open Scope Z_scope.

(** Where sample [i] of [w] belongs in a buffer of [size]. *)
Definition place (w size i : Z) : Z := (i - w / 2) mod size.
(** The samples of [x] that belong at [k], in order of time. *)
Definition landing {A} (size : Z) (x : list A) (k : Z) : list A :=
  omap (fun p : nat * A => if place (zlen x) size (Z.of_nat (fst p)) =? k then Some (snd p) else None) (imap pair x).
(** [t] is [x] folded: everything that belongs at [k], added up. *)
Definition folded {A} (zero : A) (add : A -> A -> A) (x t : list A) : Prop :=
  forall k, 0 <= k < zlen t -> getZ t k = Some (foldl add zero (landing (zlen t) x k)).
(** [y], as long as the frame, read back from [t]. *)
Definition unfolded {A} (t y : list A) : Prop :=
  forall i, 0 <= i < zlen y -> getZ y i = getZ t (place (zlen y) (zlen t) i).
