(** The spectral processing of the R2 engine over the reals, with the path taken by frames
    that need no change made explicit. *)
From stdpp Require Import prelude.
From Coq Require Import ZArith QArith Reals.
From Verif Require Import Base.Arith Faster.Model Faster.Hann.
From Verif Require Calculator.Model.
From stdpp Require Import list.
Local Open Scope Z_scope.

Section Unity.
(** Everything else a channel keeps (magnitudes, phases, ...), and what the onset and silence
    detectors keep; arbitrary. *)
Context {T C : Type}.
(** The transform of a windowed frame (StretcherProcess.cpp:741-743). *)
Context (look : T -> list R -> T).
(** modifyChunk (745-905) apart from [unchanged]: the new phases; and whether a phase reset
    asked for is a reset of every bin (822-829). *)
Context (next : T -> Z -> bool -> T) (full : T -> bool -> bool).
(** Sample [i] of the inverse transform (985-1006). *)
Context (resynth : T -> nat -> R).
(** Detectors over all channels (567-597): detection function value and silence. *)
Context (curve : C -> list (bool * T) -> Q * bool * C).
Context (w h : Z).

(** Window.h:77-79 *)
Definition cut (x : list R) : list R := imap (fun i v => (v * hann w (Z.of_nat i))%R) x.

(** 725-743 with window and transform of one size (no smoothing): cutShiftAndFold cuts the
    frame in place. *)
Definition lookAt (s : bool * T) (x : list R) : list R * (bool * T) := (cut x, (fst s, look (snd s) (cut x))).

(** 745-905 (761, 895-896 for the flag) and 962-1028: an unchanged frame is not transformed
    back but used as it is.  Formant preservation acts only when the pitch changes. *)
Definition modified (s : bool * T) (x : list R) (phaseIncr : Z) (reset : bool) (si : Z) : list R * (bool * T) :=
  let unchanged := (fst s && (phaseIncr =? h)) || full (snd s) reset in
  let t := next (snd s) phaseIncr reset in
  (cut (if unchanged then x else imap (fun i _ => resynth t i) x), (unchanged, t)).
(** 1026: m_swindow->add(windowAccumulator, area * 1.5) *)
Definition weight (si : Z) : list R := (fun i => (hann w (Z.of_nat i) * (area w * (3/2)))%R) <$> seq 0 (Z.to_nat w).

(** 517-648 at time ratio and pitch scale 1: calculator, previous increment of channel 0,
    detectors, silent chunks so far. *)
Definition increments1 (k : Calculator.Model.calc * Z * C * Z) (ss : list (bool * T)) : Z * Z * bool * (Calculator.Model.calc * Z * C * Z) :=
  let '(c, prev, d, quiet) := k in
  let '(df, silent, d) := curve d ss in
  let '(incr, c) := Calculator.Model.calculateSingle c 1 1 df h w w false in
  let si := Z.abs incr in
  let quiet := if silent then quiet + 1 else 0 in
  ((if prev =? 0 then si else prev), si, (incr <? 0) || (w / h <=? quiet), (c, si, d, quiet)).

Definition realDsp : dsp R (bool * T) unit (Calculator.Model.calc * Z * C * Z) :=
  Dsp _ _ _ _ 0%R 1%R Rplus Rminus Rdiv (fun x => (x / 2)%R)
    lookAt modified weight (fun r x _ _ _ => (x, r)) increments1.
End Unity.
