(** Formant preservation in both engines: the spectral envelope and the magnitudes. *)
From stdpp Require Import prelude.
From Coq Require Import ZArith QArith Qround.
From Verif Require Import Base.Arith.
From stdpp Require Import list.
Local Open Scope Z_scope.

(** Magnitudes and envelope are rationals: rounding of floats is not modelled, nor is the
    Fourier transform; access outside an array is [None]. *)

(** * R2: faster/StretcherProcess.cpp:908-960 *)

(** for (i = from; ...; ++i) a[i] = f(a[i]), [k] times *)
Fixpoint over (f : Q -> Q) (a : list Q) (i : Z) (k : nat) : option (list Q) :=
  match k with O => Some a | S k => x ← getZ a i; a ← setZ a i (f x); over f a (i + 1) k end.
(** 922-933: the cepstrum [c] of [sz] values cut for the envelope; integer division *)
Definition cutCepstrum (rate : Z) (c : list Q) (sz : Z) : option (list Q) :=
  let cutoff := rate / 700 in
  c ← over (fun x => x / 2)%Q c 0 1;
  c ← over (fun x => x / 2)%Q c (cutoff - 1) 1;
  c ← over (fun _ => 0%Q) c cutoff (Z.to_nat (sz - cutoff));
  over (fun x => x * (1 / inject_Z sz))%Q c 0 (Z.to_nat cutoff).
(** 941-950: pitch up *)
Fixpoint upLoop (pitch : Q) (hs : Z) (e : list Q) (target : Z) (k : nat) : option (list Q) :=
  match k with
  | O => Some e
  | S k =>
    let source := rint (inject_Z target * pitch) in
    v ← (if hs <? source then Some 0%Q else getZ e source);
    e ← setZ e target v; upLoop pitch hs e (target + 1) k
  end.
(** 951-957: pitch down; [target] is the value before it is decremented *)
Fixpoint downLoop (pitch : Q) (e : list Q) (target : Z) (k : nat) : option (list Q) :=
  match k with
  | O => Some e
  | S k =>
    let target := target - 1 in
    v ← getZ e (rint (inject_Z target * pitch)); e ← setZ e target v; downLoop pitch e target k
  end.
(** common/VectorOps.h v_divide, v_multiply: the first [k] *)
Fixpoint zipInto (f : Q -> Q -> Q) (a b : list Q) (i : Z) (k : nat) : option (list Q) :=
  match k with O => Some a | S k => x ← getZ a i; y ← getZ b i; a ← setZ a i (f x y); zipInto f a b (i + 1) k end.
(** 938-959, from the envelope on: envelope and magnitudes afterwards *)
Definition shiftFormants (pitch : Q) (hs : Z) (mag envelope : list Q) : option (list Q * list Q) :=
  m ← zipInto Qdiv mag envelope 0 (Z.to_nat (hs + 1));
  e ← (if ltQ 1 pitch then upLoop pitch hs envelope 0 (Z.to_nat (hs + 1)) else downLoop pitch envelope hs (Z.to_nat hs));
  m ← zipInto Qmult m e 0 (Z.to_nat (hs + 1));
  Some (e, m).

(** * R3 *)
(** int(...) of a number that is whole: undefined when it does not fit *)
Definition toInt (z : Z) : option Z := if (-2147483648 <=? z) && (z <=? 2147483647) then Some z else None.
(** finer/R3Stretcher.h:200-210; at() throws outside the array *)
Definition envelopeAt (env : list Q) (fftSize : Z) (bin : Q) : option Q :=
  b0 ← toInt (Qfloor bin); b1 ← toInt (Qceiling bin);
  if (b0 <? 0) || (fftSize / 2 <? b0) then Some 0%Q
  else if (b1 =? b0) || (fftSize / 2 <? b1) then getZ env b0
  else let diff := (bin - inject_Z b0)%Q in
    x ← getZ env b0; y ← getZ env b1; Some (x * (1 - diff) + y * diff)%Q.
Record band := Band { bandSize : Z; b0min : Z; b1max : Z }.
(** finer/R3Stretcher.cpp:1515-1520 *)
Definition adjustOne (source target : Q) (mag : list Q) (i : Z) : option (list Q) :=
  if ltQ 0 target then
    let ratio := (source / target)%Q in
    let ratio := if ltQ ratio (1 # 60) then (1 # 60)%Q else ratio in
    let ratio := if ltQ 60 ratio then 60%Q else ratio in
    x ← getZ mag i; setZ mag i (x * ratio)%Q
  else Some mag.
(** finer/R3Stretcher.cpp:1512-1521: [k] bins from [i] on *)
Fixpoint adjustLoop (env : list Q) (formantSize : Z) (sourceFactor targetFactor : Q) (mag : list Q) (i : Z) (k : nat) : option (list Q) :=
  match k with
  | O => Some mag
  | S k =>
    source ← envelopeAt env formantSize (inject_Z i * sourceFactor);
    target ← envelopeAt env formantSize (inject_Z i * targetFactor);
    mag ← adjustOne source target mag i;
    adjustLoop env formantSize sourceFactor targetFactor mag (i + 1) k
  end.
(** finer/R3Stretcher.cpp:1490-1525, for one scale *)
Fixpoint adjustBands (rate : Q) (env : list Q) (formantSize : Z) (pitch formantScale : Q) (fftSize : Z) (mag : list Q) (bands : list band) : option (list Q) :=
  match bands with
  | [] => Some mag
  | b :: bands =>
    mag ← (if bandSize b =? fftSize then
             let highBin := Qfloor (inject_Z fftSize * 10000 / rate) in
             let targetFactor := (inject_Z formantSize / inject_Z fftSize)%Q in
             let fs := if Qeq_bool formantScale 0 then (1 / pitch)%Q else formantScale in
             let sourceFactor := (targetFactor / fs)%Q in
             adjustLoop env formantSize sourceFactor targetFactor mag (b0min b) (Z.to_nat (Z.min (b1max b) highBin - b0min b))
           else Some mag);
    adjustBands rate env formantSize pitch formantScale fftSize mag bands
  end.
