(** The interpolating window of one channel of the R2 engine, used with OptionSmoothingOn. *)
From stdpp Require Import prelude.
From Coq Require Import ZArith.
From Verif Require Import Base.Arith.
From stdpp Require Import list.
Local Open Scope Z_scope.

Section Model.
(** [s i p] is sin(a)/a for a = 2 pi i / p; [one] is 1. *)
Context {A : Type} (zero one : A) (s : Z -> Z -> A).

(** faster/SincWindow.h:128-136: [k] more from [i] on *)
Fixpoint halfLoop (dst : list A) (half p i : Z) (k : nat) : option (list A) :=
  match k with O => Some dst | S k => d ← setZ dst (half + i) (s i p); halfLoop d half p (i + 1) k end.
Definition writeHalf (dst : list A) (n p : Z) : option (list A) :=
  let half := n / 2 in d ← setZ dst half one; halfLoop d half p 1 (Z.to_nat (half - 1)).
(** faster/SincWindow.h:102-113 *)
Fixpoint mirror (dst : list A) (target i : Z) (k : nat) : option (list A) :=
  match k with O => Some dst | S k => x ← getZ dst i; d ← setZ dst target x; mirror d (target - 1) (i + 1) k end.
Definition write (dst : list A) (n p : Z) : option (list A) :=
  let half := n / 2 in
  d ← writeHalf dst n p; d ← mirror d (half - 1) (half + 1) (Z.to_nat (n - half - 1)); setZ d 0 (s half p).

(** interpolator (as long as inbuf) and interpolatorScale *)
Record chan := Chan { interpolator : list A; scale : Z }.
Definition construct (maxSize : Z) : chan := Chan (replicate (Z.to_nat maxSize) zero) 0.
(** StretcherProcess.cpp:1008-1015, 1022-1026, when wsz > fsz: the channel and the window used *)
Definition chunk (ch : chan) (wsz shift : Z) : option (chan * list A) :=
  let p := shift * 2 in
  ch ← (if scale ch =? p then Some ch else d ← write (interpolator ch) wsz p; Some (Chan d p));
  if wsz <=? zlen (interpolator ch) then Some (ch, take (Z.to_nat wsz) (interpolator ch)) else None.
(** StretcherChannelData.cpp:113-201 *)
Definition setSizes (ch : chan) (windowSize fftSize : Z) : chan :=
  let maxSize := 2 * (windowSize `max` fftSize) in
  if maxSize <=? zlen (interpolator ch) then ch else construct maxSize.
(** StretcherChannelData.cpp:278 *)
Definition reset (ch : chan) : chan := Chan (interpolator ch) 0.

Inductive op := Chunk (wsz shift : Z) | Sizes (windowSize fftSize : Z) | Reset.
Definition step (ch : chan) (o : op) : option chan :=
  match o with Chunk w sh => '(ch, _) ← chunk ch w sh; Some ch | Sizes w f => Some (setSizes ch w f) | Reset => Some (reset ch) end.
Fixpoint run (ch : chan) (os : list op) : option chan :=
  match os with [] => Some ch | o :: os => ch ← step ch o; run ch os end.
End Model.
