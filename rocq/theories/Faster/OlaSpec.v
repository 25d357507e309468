(** What overlap-add should produce (property C39): frames placed at positions and
    added up, sample by sample. *)
From stdpp Require Import prelude.
From Coq Require Import ZArith.
From Verif Require Import Base.Arith.
Local Open Scope Z_scope.

Section Ola.
Context {A : Type} (add : A -> A -> A).

(** The sum at position [i] of the frames covering it, in the order given, on top of [init].
    Each frame comes with the position of its first sample. *)
Definition sumAt (init : A) (frames : list (Z * list A)) (i : Z) : A :=
  foldl (fun a '(o, f) => match getZ f (i - o) with Some x => add a x | None => a end) init frames.

(** Frames laid out with the given distances to the next one. *)
Fixpoint layout (pos : Z) (frames : list (list A * Z)) : list (Z * list A) :=
  match frames with [] => [] | (f, n) :: fs => (pos, f) :: layout (pos + n) fs end.
Definition span (frames : list (list A * Z)) : Z := sumZ (snd <$> frames).

(** Positions [0 .. n-1]. *)
Definition upTo (n : Z) : list Z := Z.of_nat <$> seq 0 (Z.to_nat n).
(** The normalised sum of frames and of weights over the first [n] positions; the weight
    at the very first position starts from [one] (StretcherChannelData.cpp:109, 270). *)
Definition ola (zero one : A) (quot : A -> A -> A) (frames weights : list (Z * list A)) (n : Z) : list A :=
  (fun i => quot (sumAt zero frames i) (sumAt (if i =? 0 then one else zero) weights i)) <$> upTo n.
(** Where the last frame ends. *)
Definition extent (frames : list (Z * list A)) : Z := foldr (fun '(o, f) m => Z.max (o + zlen f) m) 0 frames.
End Ola.
