(** What the bands of a guidance must be. *)
From stdpp Require Import prelude list numbers.
From Coq Require Import ZArith QArith.
From Verif Require Import Base.Arith Finer.SegmenterModel Finer.GuideModel.
Local Open Scope Z_scope.

(** The bands follow one another from 0 to nyquist. *)
Definition contiguous (rate : Q) (s : guidance) : Prop :=
  (fftBandCount s = 1 /\ f0 (band0 s) = 0%Q /\ f1 (band0 s) = (rate / 2)%Q) \/
  (fftBandCount s = 3 /\ f0 (band0 s) = 0%Q /\ f1 (band0 s) = f0 (band1 s) /\ f1 (band1 s) = f0 (band2 s) /\ f1 (band2 s) = (rate / 2)%Q).
Definition used (s : guidance) : list fftBand := take (Z.to_nat (fftBandCount s)) [band0 s; band1 s; band2 s].
(** Each band in turn upwards, within the limits of its FFT size (which are those of the bins
    whose phases are computed) unless it is empty. *)
Definition upwards (s : guidance) : Prop := Forall (fun b => (0 <= f0 b /\ f0 b <= f1 b)%Q) (used s).
Definition within (ls : list limits) (s : guidance) : Prop :=
  Forall2 (fun l b => lfft l = fftSize b /\ (f0 b == f1 b \/ f0min l <= f0 b /\ f1 b <= f1max l)%Q) ls (used s).
Definition kicks_apart (s : guidance) : Prop :=
  ~ (present (kick s) = true /\ present (preKick s) = true) /\
  (present (kick s) = true -> rf0 (kick s) = 0%Q /\ (40 < rf1 (kick s))%Q) /\
  (present (preKick s) = true -> rf0 (preKick s) = 0%Q /\ (40 < rf1 (preKick s))%Q).
(** A search for the phase-lock band of a frequency stops. *)
Definition locks_stop (rate : Q) (s : guidance) : Prop :=
  (lockCount s = 3 /\ lf1 (lock2 s) = (rate / 2)%Q) \/ (lockCount s = 4 /\ lf1 (lock3 s) = (rate / 2)%Q).

(** Frames as the stretcher makes them: magnitudes of all bins. *)
Definition frame_ok (g : guide) (a : frame) : Prop :=
  Z.of_nat (length (magnitudes a)) = cfft g / 2 + 1 /\ Z.of_nat (length (prevMagnitudes a)) = cfft g / 2 + 1 /\ Z.of_nat (length (nextMagnitudes a)) = cfft g / 2 + 1.
