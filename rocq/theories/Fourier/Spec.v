(** What a discrete Fourier transform of [n] points is: sums of the input times points of the
    unit circle. Nothing of the algorithm occurs here. *)
From Coq Require Import ZArith Reals.
From stdpp Require Import list.
From Verif Require Import Fourier.Model.
Local Open Scope R_scope.

(** The point of the unit circle at an angle. *)
Definition cis (t : R) : C := (cos t, sin t).

Fixpoint csum (n : nat) (f : nat -> C) : C :=
  match n with O => (0, 0) | S n => cadd (csum n f) (f n) end.

(** [turn n j k] is the angle of j*k/n turns. *)
Definition turn (n j k : nat) : R := 2 * PI * (INR j * INR k) / INR n.

(** Forward: bin k of the real signal x. *)
Definition spectrum (n : nat) (x : nat -> R) (k : nat) : C :=
  csum n (fun j => cmul (x j, 0) (cis (- turn n j k))).

(** Of a complex signal; [s] is -1 forward and 1 backward. *)
Definition dft (s : R) (n : nat) (x : nat -> C) (k : nat) : C :=
  csum n (fun j => cmul (x j) (cis (s * turn n j k))).

(** The whole spectrum of a real signal from its first n/2+1 bins: the others mirror them. *)
Definition whole (n : nat) (y : nat -> C) (k : nat) : C :=
  if decide (k <= n / 2)%nat then y k else conj (y (n - k)%nat).

(** Backward (not divided by n): sample j of the real signal, the real part of the sum. *)
Definition signal (n : nat) (y : nat -> C) (j : nat) : R :=
  fst (csum n (fun k => cmul (whole n y k) (cis (turn n j k)))).
