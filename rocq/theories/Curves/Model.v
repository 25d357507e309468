(** The onset detectors of the R2 engine: src/faster/AudioCurveCalculator.cpp,
    PercussiveAudioCurve.cpp, HighFrequencyAudioCurve.cpp, SilentAudioCurve.cpp and
    CompoundAudioCurve.cpp. Magnitudes are whole multiples of 10^-12 (so that they have an integer
    order for the median filters) and are computed with exactly. An access outside an array is
    None. *)
From stdpp Require Import prelude list numbers.
From Coq Require Import ZArith QArith.
From Verif.Filters Require Import Model.
From stdpp Require Import list numbers.
Local Open Scope Z_scope.

(** PercussiveAudioCurve.cpp:89-90 (processDouble; processFloat has the same in floats): 10^0.15 to the digits a double has, 10^-8. *)
Definition riseNum : Z := 14125375446227544.
Definition riseDen : Z := 10000000000000000.
Definition zeroThresh : Z := 10 ^ 4.
(** SilentAudioCurve.cpp:63: 10^-6 *)
Definition silentThresh : Z := 10 ^ 6.

(** AudioCurveCalculator.cpp:58-69; / rounds towards zero. The product is an int in the code and is
    not bounded here. *)
Definition lastPerceivedBin (rate fft : Z) : Z :=
  if rate =? 0 then 0
  else let b := Z.quot (16000 * fft) rate in if Z.quot fft 2 <? b then Z.quot fft 2 else b.

Definition at_ (l : list Z) (i : Z) : option Z := if i <? 0 then None else l !! Z.to_nat i.

(** PercussiveAudioCurve.cpp:98-103: one bin; whether it rose and whether it is there at all. *)
Definition rose (prev mag : Z) : bool :=
  if zeroThresh <? prev then prev * riseNum <=? mag * riseDen else zeroThresh <? mag.
Definition there (mag : Z) : bool := zeroThresh <? mag.

(** PercussiveAudioCurve.cpp:97-104: for (n = 1; n <= sz; ++n), [k] bins left. *)
Fixpoint countBins (k : nat) (n : Z) (prev mag : list Z) (c : Z * Z) : option (Z * Z) :=
  match k with
  | O => Some c
  | S k => p ← at_ prev n; m ← at_ mag n;
           countBins k (n + 1) prev mag
             (fst c + (if rose p m then 1 else 0), snd c + (if there m then 1 else 0))
  end.

(** PercussiveAudioCurve.cpp:106: v_copy(m_prevMag, mag, sz + 1) *)
Definition copyMags (prev mag : list Z) (sz : Z) : option (list Z) :=
  let k := Z.to_nat (sz + 1) in
  if decide (k <= length mag /\ k <= length prev)%nat then Some (take k mag ++ drop k prev) else None.

(** PercussiveAudioCurve.cpp:86-110 (and 60-84) *)
Definition percussive (sz : Z) (prev mag : list Z) : option (list Z * Q) :=
  c ← countBins (Z.to_nat sz) 1 prev mag (0, 0);
  prev ← copyMags prev mag sz;
  Some (prev, if snd c =? 0 then 0%Q else (inject_Z (fst c) / inject_Z (snd c))%Q).

(** HighFrequencyAudioCurve.cpp:58-71 (and 44-56): for (n = 0; n <= sz; ++n), [k] bins left. *)
Fixpoint weigh (k : nat) (n : Z) (mag : list Z) (acc : Z) : option Z :=
  match k with O => Some acc | S k => m ← at_ mag n; weigh k (n + 1) mag (acc + m * n) end.
Definition highFrequency (sz : Z) (mag : list Z) : option Z := weigh (Z.to_nat (sz + 1)) 0 mag 0.

(** SilentAudioCurve.cpp:59-71 (and 46-57) *)
Fixpoint quiet (k : nat) (n : Z) (mag : list Z) : option bool :=
  match k with
  | O => Some true
  | S k => m ← at_ mag n; if silentThresh <? m then Some false else quiet k (n + 1) mag
  end.
Definition silent (sz : Z) (mag : list Z) : option bool := quiet (Z.to_nat (sz + 1)) 0 mag.

Inductive kind := PercussiveDetector | CompoundDetector | SoftDetector.

Definition filter19 := mm Z.
Definition push (f : filter19) (x : Z) : option filter19 := mm_push (fun x => x) (fun _ => false) 0 f x.

(** CompoundAudioCurve.h:51-63 with the parts' m_fftSize, m_sampleRate, m_prevMag *)
Record detector := Detector {
  rate : Z; fftSize : Z; prevMag : list Z; typ : kind;
  hfFilter : filter19; hfDerivFilter : filter19;
  lastHf : Z; lastResult : Z; risingCount : Z }.

Definition zeros (fft : Z) : list Z := replicate (Z.to_nat (Z.quot fft 2 + 1)) 0.

(** CompoundAudioCurve.cpp:34-45, PercussiveAudioCurve.cpp:35-39 *)
Definition newDetector (rate fft : Z) : detector :=
  Detector rate fft (zeros fft) CompoundDetector
    (mm_new 0 19 (Some (85 # 1))) (mm_new 0 19 (Some (90 # 1))) 0 0 0.

(** CompoundAudioCurve.cpp:53-57 *)
Definition setType (d : detector) (t : kind) : detector :=
  Detector (rate d) (fftSize d) (prevMag d) t (hfFilter d) (hfDerivFilter d) (lastHf d) (lastResult d) (risingCount d).

(** CompoundAudioCurve.cpp:59-68, PercussiveAudioCurve.cpp:46-50; m_risingCount is left *)
Definition reset (d : detector) : detector :=
  Detector (rate d) (fftSize d) (zeros (fftSize d)) (typ d) (mm_reset 0 (hfFilter d)) (mm_reset 0 (hfDerivFilter d)) 0 0 (risingCount d).

(** CompoundAudioCurve.cpp:70-78, PercussiveAudioCurve.cpp:52-58 (which ends with reset()) *)
Definition setFftSize (d : detector) (fft : Z) : detector :=
  Detector (rate d) fft (zeros fft) (typ d) (hfFilter d) (hfDerivFilter d) 0 0 (risingCount d).

(** CompoundAudioCurve.cpp:120-163 *)
Definition processFiltering (d : detector) (perc : Q) (hf : Z) : option (detector * Q) :=
  match typ d with
  | PercussiveDetector => Some (d, perc)
  | _ =>
    let hfDeriv := hf - lastHf d in
    f ← push (hfFilter d) hf;
    g ← push (hfDerivFilter d) hfDeriv;
    hfFiltered ← mm_get f;
    hfDerivFiltered ← mm_get g;
    let hfExcess := hf - hfFiltered in
    let result := if 0 <? hfExcess then hfDeriv - hfDerivFiltered else 0 in
    let '(rv, rising) :=
      if result <? lastResult d
      then (if (3 <? risingCount d) && (0 <? lastResult d) then (1 # 2)%Q else 0%Q, 0)
      else (0%Q, risingCount d + 1) in
    let rv := match typ d with
              | CompoundDetector => if negb (Qle_bool perc (35 # 100)) && negb (Qle_bool perc rv) then perc else rv
              | _ => rv
              end in
    Some (Detector (rate d) (fftSize d) (prevMag d) (typ d) f g hf result rising, rv)
  end.

(** CompoundAudioCurve.cpp:100-118 (and 80-98) *)
Definition process (d : detector) (mag : list Z) : option (detector * Q) :=
  let sz := lastPerceivedBin (rate d) (fftSize d) in
  '(prev, perc) ← (match typ d with SoftDetector => Some (prevMag d, 0%Q) | _ => percussive sz (prevMag d) mag end);
  hf ← (match typ d with PercussiveDetector => Some 0 | _ => highFrequency sz mag end);
  processFiltering (Detector (rate d) (fftSize d) prev (typ d) (hfFilter d) (hfDerivFilter d) (lastHf d) (lastResult d) (risingCount d)) perc hf.

Inductive op := Frame (mag : list Z) | SetType (t : kind) | Reset | SetFft (fft : Z).
Fixpoint run (d : detector) (os : list op) : option (detector * list Q) :=
  match os with
  | [] => Some (d, [])
  | Frame mag :: os => '(d, v) ← process d mag; '(d, vs) ← run d os; Some (d, v :: vs)
  | SetType t :: os => run (setType d t) os
  | Reset :: os => run (reset d) os
  | SetFft fft :: os => run (setFftSize d fft) os
  end.
