(** Moving a windowed frame into the buffer of the Fourier transform and back. *)
From stdpp Require Import prelude.
From Coq Require Import ZArith.
From Verif Require Import Base.Arith.
From stdpp Require Import list.
Local Open Scope Z_scope.

Section Model.
(** Samples; [zero], [add], [mul] are those of the sample type, with no laws supposed. *)
Context {A : Type} (zero : A) (add mul : A -> A -> A).

(** a[i]; outside the array is [None]. *)
Definition put (a : list A) (i : Z) (x : A) : option (list A) :=
  if (0 <=? i) && (i <? zlen a) then Some (<[Z.to_nat i := x]> a) else None.

(** common/VectorOps.h v_convert and v_copy: [n] samples of [src] from [s] on go to [dst]
    from [d] on. *)
Definition copy (dst : list A) (d : Z) (src : list A) (s n : Z) : option (list A) :=
  if (0 <=? n) && (0 <=? s) && (s + n <=? zlen src) && (0 <=? d) && (d + n <=? zlen dst)
  then Some (take (Z.to_nat d) dst ++ take (Z.to_nat n) (drop (Z.to_nat s) src) ++ drop (Z.to_nat (d + n)) dst) else None.

(** while (j < 0) j += targetSize; (faster/R2Stretcher.h:148, StretcherProcess.cpp:1000); at
    most windowSize rounds are needed, more is reported as [None]. *)
Fixpoint lift (fuel : nat) (j size : Z) : option Z :=
  match fuel with O => None | S f => if j <? 0 then lift f (j + size) size else Some j end.

(** faster/R2Stretcher.h:149-152 *)
Fixpoint foldIn (target : list A) (size j : Z) (src : list A) : option (list A) :=
  match src with
  | [] => Some target
  | x :: src => y ← getZ target j; t ← put target j (add y x); foldIn t size (if j + 1 =? size then 0 else j + 1) src
  end.
(** faster/R2Stretcher.h:134-154; [src] is windowSize samples, cut in place by the window
    (common/Window.h:77-79).  Division of ints that are not negative.  Returns target and src. *)
Definition cutShiftAndFold (target src window : list A) : option (list A * list A) :=
  let src := zip_with mul src window in
  let size := zlen target in let windowSize := zlen window in
  let hs := size / 2 in
  if windowSize =? size then
    t ← copy target 0 src hs hs; t ← copy t hs src 0 hs; Some (t, src)
  else
    j ← lift (S (length window)) (size - windowSize / 2) size;
    t ← foldIn (replicate (length target) zero) size j src; Some (t, src).

(** faster/StretcherProcess.cpp:1001-1004 *)
Fixpoint foldOut (dbl : list A) (size j : Z) (n : nat) : option (list A) :=
  match n with
  | O => Some []
  | S n => y ← getZ dbl j; r ← foldOut dbl size (if j + 1 =? size then 0 else j + 1) n; Some (add zero y :: r)
  end.
(** faster/StretcherProcess.cpp:993-1006: from the transform buffer into the frame buffer. *)
Definition unfold (flt dbl : list A) : option (list A) :=
  let size := zlen dbl in let wsz := zlen flt in let hs := size / 2 in
  if wsz =? size then f ← copy flt 0 dbl hs hs; copy f hs dbl 0 hs
  else j ← lift (S (length flt)) (size - wsz / 2) size; foldOut dbl size j (length flt).

(** common/VectorOps.h:831-841 *)
Fixpoint swaps (p : list A) (hs i : Z) (n : nat) : option (list A) :=
  match n with
  | O => Some p
  | S n => t ← getZ p i; u ← getZ p (i + hs); p ← put p i u; p ← put p (i + hs) t; swaps p hs (i + 1) n
  end.
Definition fftshift (p : list A) : option (list A) := swaps p (zlen p / 2) 0 (Z.to_nat (zlen p / 2)).

(** finer/R3Stretcher.cpp:1195-1202, 1294 (one scale; [source] is the window source, at least
    [longest] samples): the middle samples, windowed, halves exchanged. *)
Definition analyseScale (longest : Z) (source window : list A) : option (list A) :=
  let n := zlen window in let offset := (longest - n) / 2 in
  if (0 <=? offset) && (offset + n <=? zlen source) then fftshift (zip_with mul (drop (Z.to_nat offset) source) window) else None.
(** finer/R3Stretcher.cpp:1622-1636: halves exchanged back, the middle as long as the
    synthesis window cut and added to the middle of the accumulator, of [longest] samples. *)
Definition synthesiseScale (acc frame window : list A) : option (list A) :=
  let n := zlen window in let from := (zlen frame - n) / 2 in let to := (zlen acc - n) / 2 in
  f ← fftshift frame;
  if (0 <=? from) && (from + n <=? zlen f) && (0 <=? to) && (to + n <=? zlen acc)
  then Some (take (Z.to_nat to) acc ++ zip_with add (drop (Z.to_nat to) acc) (zip_with mul (drop (Z.to_nat from) f) window) ++ drop (Z.to_nat (to + n)) acc)
  else None.
End Model.
