(** Model of the option setters (rubberband/RubberBandStretcher.h, src/RubberBandStretcher.cpp,
    src/faster/R2Stretcher.cpp, src/finer/R3Stretcher.cpp).  An [int] of options is an integer;
    the bitwise operators of Z are those of two's complement. *)
From stdpp Require Import prelude.
From Coq Require Import ZArith.
Local Open Scope Z_scope.

(** rubberband/RubberBandStretcher.h:392-436 *)
Definition OptionProcessRealTime : Z := 0x1.
Definition OptionTransientsCrisp : Z := 0x0.
Definition OptionTransientsMixed : Z := 0x100.
Definition OptionTransientsSmooth : Z := 0x200.
Definition OptionDetectorCompound : Z := 0x0.
Definition OptionDetectorPercussive : Z := 0x400.
Definition OptionDetectorSoft : Z := 0x800.
Definition OptionPhaseLaminar : Z := 0x0.
Definition OptionPhaseIndependent : Z := 0x2000.
Definition OptionFormantShifted : Z := 0x0.
Definition OptionFormantPreserved : Z := 0x1000000.
Definition OptionPitchHighSpeed : Z := 0x0.
Definition OptionPitchHighQuality : Z := 0x2000000.
Definition OptionPitchHighConsistency : Z := 0x4000000.
Definition OptionEngineFiner : Z := 0x20000000.

(** src/faster/CompoundAudioCurve.h: Type *)
Inductive detector := CompoundDetector | PercussiveDetector | SoftDetector.

(** The members that depend on the options.  [finer]: which of m_r2 and m_r3 exists
    (RubberBandStretcher.cpp:72-84); [word]: R2Stretcher::m_options or
    R3Stretcher::m_parameters.options; [realtime]: R2Stretcher::m_realtime; [hardPeaks]: the
    calculator's m_useHardPeaks; [detectorType]: m_detectorType; [curveType]: the type of
    m_phaseResetAudioCurve. *)
Record state := State {
  finer : bool; word : Z; realtime : bool; hardPeaks : bool; detectorType : detector; curveType : detector
}.
Definition has (w o : Z) : bool := negb (Z.land w o =? 0).

(** R2Stretcher.cpp:690-699: the parts of configure that read options or the detector type. *)
Definition configure (s : state) : state :=
  State (finer s) (word s) (realtime s) (negb (has (word s) OptionTransientsSmooth)) (detectorType s) (detectorType s).
(** RubberBandStretcher.cpp:72-84, R2Stretcher.cpp:58-160; an R3 stretcher has no more than the word. *)
Definition create (w : Z) : state :=
  let s := State (has w OptionEngineFiner) w (has w OptionProcessRealTime) true CompoundDetector CompoundDetector in
  if finer s then s else configure s.

(** m_options &= ~mask; options &= mask; m_options |= options *)
Definition replace (w mask o : Z) : Z := Z.lor (Z.land w (Z.lnot mask)) (Z.land o mask).
Definition with_word (s : state) (w : Z) : state := State (finer s) w (realtime s) (hardPeaks s) (detectorType s) (curveType s).

(** R2Stretcher.cpp:862-878, RubberBandStretcher.cpp:180-184 *)
Definition setTransientsOption (s : state) (o : Z) : state :=
  if finer s then s else
  if negb (realtime s) then s else
  let mask := Z.lor (Z.lor OptionTransientsMixed OptionTransientsSmooth) OptionTransientsCrisp in
  let w := replace (word s) mask o in
  State (finer s) w (realtime s) (negb (has w OptionTransientsSmooth)) (detectorType s) (curveType s).
(** R2Stretcher.cpp:880-907, RubberBandStretcher.cpp:187-191; the curve always exists. *)
Definition setDetectorOption (s : state) (o : Z) : state :=
  if finer s then s else
  if negb (realtime s) then s else
  let mask := Z.lor (Z.lor OptionDetectorPercussive OptionDetectorCompound) OptionDetectorSoft in
  let s := with_word s (replace (word s) mask o) in
  let dt := if has (word s) OptionDetectorPercussive then PercussiveDetector
            else if has (word s) OptionDetectorSoft then SoftDetector else CompoundDetector in
  State (finer s) (word s) (realtime s) (hardPeaks s) dt
    (match dt, detectorType s with
     | CompoundDetector, CompoundDetector | PercussiveDetector, PercussiveDetector | SoftDetector, SoftDetector => curveType s
     | _, _ => dt
     end).
(** R2Stretcher.cpp:909-917, RubberBandStretcher.cpp:194-198 *)
Definition setPhaseOption (s : state) (o : Z) : state :=
  if finer s then s else with_word s (replace (word s) (Z.lor OptionPhaseLaminar OptionPhaseIndependent) o).
(** R2Stretcher.cpp:919-927, R3Stretcher.cpp:250-258, RubberBandStretcher.cpp:201-206 *)
Definition setFormantOption (s : state) (o : Z) : state :=
  with_word s (replace (word s) (Z.lor OptionFormantShifted OptionFormantPreserved) o).
(** R2Stretcher.cpp:929-947, R3Stretcher.cpp:260-264, RubberBandStretcher.cpp:209-214; what
    reconfigure does besides configure does not concern the options. *)
Definition setPitchOption (s : state) (o : Z) : state :=
  if finer s then s else
  if negb (realtime s) then s else
  let prior := word s in
  let s := with_word s (replace (word s) (Z.lor (Z.lor OptionPitchHighQuality OptionPitchHighSpeed) OptionPitchHighConsistency) o) in
  if prior =? word s then s else configure s.

Inductive call := Transients (o : Z) | Detector (o : Z) | Phase (o : Z) | Formant (o : Z) | Pitch (o : Z)
| Reconfigured (* any other call that makes the stretcher reconfigure itself *).
Definition step (s : state) (a : call) : state :=
  match a with
  | Transients o => setTransientsOption s o
  | Detector o => setDetectorOption s o
  | Phase o => setPhaseOption s o
  | Formant o => setFormantOption s o
  | Pitch o => setPitchOption s o
  | Reconfigured => if finer s then s else configure s
  end.
Definition run (w : Z) (l : list call) : state := fold_left step l (create w).

(** What the engines read: StretcherProcess.cpp:764 (bandlimited), 763 (laminar), 968 and
    R3Stretcher.cpp:1340 (formants), StretcherProcess.cpp:120-125 and R3Stretcher.h:459-470 (pitch). *)
Definition bandlimited (s : state) : bool := has (word s) OptionTransientsMixed.
Definition laminar (s : state) : bool := negb (has (word s) OptionPhaseIndependent).
Definition formants (s : state) : bool := has (word s) OptionFormantPreserved.
