(** Model of src/finer/Guide.h, and of the bins each band synthesises
    (src/finer/R3Stretcher.cpp:1585-1616).  Doubles are rationals; magnitude arrays are lists and
    a read outside one is [None]. *)
From stdpp Require Import prelude list numbers.
From Coq Require Import ZArith QArith Qround.
From Verif Require Import Base.Arith MathMisc.Model Finer.PeakModel Finer.SegmenterModel.
Local Open Scope Z_scope.

Definition ltq (a b : Q) : bool := negb (Qle_bool b a).
Definition minq (a b : Q) : Q := if ltq b a then b else a.                (* std::min *)
Definition maxq (a b : Q) : Q := if ltq a b then b else a.                (* std::max *)
(** common/mathmisc.h:49-51 *)
Definition binForFrequency (f : Q) (fftSize : Z) (rate : Q) : Z := cround (f * inject_Z fftSize / rate).

(** Guide.h:39-68 *)
Record fftBand := FftBand { fftSize : Z; f0 : Q; f1 : Q }.
Record lockBand := LockBand { lp : Z; lbeta : Q; lf0 : Q; lf1 : Q }.
Record range := Range { present : bool; rf0 : Q; rf1 : Q }.
(** Guide.h:70-80 *)
Record guidance := Guidance {
  band0 : fftBand; band1 : fftBand; band2 : fftBand; fftBandCount : Z;
  lock0 : lockBand; lock1 : lockBand; lock2 : lockBand; lock3 : lockBand; lockCount : Z;
  kick : range; preKick : range; highUnlocked : range; phaseReset : range; channelLock : range
}.
Definition noBand : fftBand := FftBand 0 0 0.
Definition noLock : lockBand := LockBand 0 1 0 0.
Definition noRange : range := Range false 0 0.
(** R3Stretcher.h: a new ChannelData has a Guidance as constructed; counts are uninitialised there
    and set before use, 0 here. *)
Definition guidance0 : guidance := Guidance noBand noBand noBand 0 noLock noLock noLock noLock 0 noRange noRange noRange noRange noRange.
(** Guide.h:82-95 *)
Record limits := Limits { lfft : Z; f0min : Q; f1max : Q; b0min : Z; b1max : Z }.
Definition bandLimits (fft : Z) (rate f0 f1 : Q) : limits :=
  Limits fft f0 f1 (Qfloor (f0 * inject_Z fft / rate)) (cceil (f1 * inject_Z fft / rate)).
(** Guide.h:97-113 and the members 472-478 *)
Record guide := Guide {
  rate : Q; singleWindow : bool;
  longest : Z; shortest : Z; cfft : Z; bandLimit : list limits;
  minLower : Q; minHigher : Q; defaultLower : Q; defaultHigher : Q; maxLower : Q; maxHigher : Q
}.
(** Guide.h:115-193 *)
Definition newGuide (rate : Q) (single : bool) : option guide :=
  n ← roundUpDiv rate 32;
  let n := if n <? 1024 then 1024 else n in
  let nyquist := (rate / 2)%Q in
  Some (if single then
    Guide rate single n n n [bandLimits n rate 0 nyquist] nyquist nyquist nyquist nyquist nyquist nyquist
  else
    Guide rate single (n * 2) (n / 2) n
      [bandLimits (n * 2) rate 0 1100; bandLimits n rate 0 nyquist; bandLimits (n / 2) rate 4000 nyquist]
      500 4000 700 4800 1100 7000).

(** Guide.h:598-606 *)
Definition betaFor (f ratio : Q) : Q :=
  let b := ((2 + ratio) / 3)%Q in
  if ltq 10000 f then b else (1 + f * (b - 1) / 10000)%Q.
(** Guide.h:566-571: sum of the magnitudes of bins 1 to [b] *)
Fixpoint sumBins (m : list Q) (bins : list Z) (acc : Q) : option Q :=
  match bins with [] => Some acc | i :: bins => x ← at_ m i; sumBins m bins (acc + x)%Q end.
(** Guide.h:561-573 *)
Definition checkPotentialKick (g : guide) (m prev : list Q) : option bool :=
  let b := binForFrequency 200 (cfft g) (rate g) in
  here ← sumBins m (seqZ 1 b) 0; there ← sumBins prev (seqZ 1 b) 0;
  Some (ltq (10 # 1000) here && ltq (there * (14 # 10)) here).
(** Guide.h:584-592 *)
Fixpoint descend (k : nat) (n : Z) (m : list Q) (b : Z) : option Z :=
  match k with
  | O => Some b
  | S k =>
      up ← (if b <? n then x ← at_ m (b + 1); y ← at_ m b; Some (ltq x y) else Some false);
      if (up : bool) then descend k n m (b + 1) else
      down ← (if 0 <? b then x ← at_ m (b - 1); y ← at_ m b; Some (ltq x y) else Some false);
      if (down : bool) then descend k n m (b - 1) else Some b
  end.
(** Guide.h:575-596 *)
Definition descendToValley (g : guide) (f : Q) (m : list Q) : option Q :=
  if Qeq_bool f 0 || Qeq_bool f (rate g / 2) then Some f else
  let n := cfft g / 2 in
  let b := Z.min (binForFrequency f (cfft g) (rate g)) n in
  b ← descend 3 n m b;
  Some (frequencyForBin b (cfft g) (rate g)).

Definition setF (b : fftBand) (lo hi : Q) : fftBand := FftBand (fftSize b) lo hi.
Definition setRange (r : range) (lo hi : Q) : range := Range true lo hi.
Definition absent (r : range) : range := Range false (rf0 r) (rf1 r).
Definition withBands (s : guidance) (b0 b1 b2 : fftBand) : guidance :=
  Guidance b0 b1 b2 (fftBandCount s) (lock0 s) (lock1 s) (lock2 s) (lock3 s) (lockCount s) (kick s) (preKick s) (highUnlocked s) (phaseReset s) (channelLock s).
Definition withLocks (s : guidance) (l0 l1 l2 l3 : lockBand) : guidance :=
  Guidance (band0 s) (band1 s) (band2 s) (fftBandCount s) l0 l1 l2 l3 (lockCount s) (kick s) (preKick s) (highUnlocked s) (phaseReset s) (channelLock s).
Definition withRanges (s : guidance) (k p h r c : range) : guidance :=
  Guidance (band0 s) (band1 s) (band2 s) (fftBandCount s) (lock0 s) (lock1 s) (lock2 s) (lock3 s) (lockCount s) k p h r c.
Definition withReset (s : guidance) (r : range) : guidance := withRanges s (kick s) (preKick s) (highUnlocked s) r (channelLock s).

(** Guide.h:480-496, and 507-521 which is the same *)
Definition updateForSilence (g : guide) (s : guidance) : guidance :=
  let nyquist := (rate g / 2)%Q in
  let s := if singleWindow g then s else withBands s (setF (band0 s) 0 0) (setF (band1 s) 0 nyquist) (setF (band2 s) nyquist nyquist) in
  withReset s (Range true 0 nyquist).
(** Guide.h:498-559 *)
Definition updateForUnity (g : guide) (s : guidance) (hadPhaseReset : bool) (seg : segmentation) (realtime : bool) : guidance :=
  let nyquist := (rate g / 2)%Q in
  if negb realtime then updateForSilence g s else
  let s := if singleWindow g then s else
    withBands s (setF (band0 s) 0 (minLower g)) (setF (band1 s) (minLower g) (minHigher g)) (setF (band2 s) (minHigher g) nyquist) in
  if negb hadPhaseReset then withReset s (Range true 16000 nyquist) else
  let lo := (rf0 (phaseReset s) * (9 # 10))%Q in let hi := (rf1 (phaseReset s) * (11 # 10))%Q in
  let lo := if ltq lo (residualAbove seg) then minq lo (percussiveAbove seg) else lo in
  let hi := if ltq 16000 hi then nyquist else hi in
  let lo := if ltq lo 100 then 0%Q else lo in
  withReset s (Range true lo hi).

(** Guide.h:239-248: bands that start or end above nyquist *)
Definition clampLock (nyquist : Q) (b : lockBand) : lockBand :=
  LockBand (lp b) (lbeta b) (if ltq nyquist (lf0 b) then nyquist else lf0 b) (if ltq nyquist (lf1 b) then nyquist else lf1 b).
(** Guide.h:223-262: counts and sizes, for single windows the bands as well *)
Definition prepare (g : guide) (ratio : Q) (outhop : Z) (s : guidance) : guidance :=
  let nyquist := (rate g / 2)%Q in
  if singleWindow g then
    Guidance (FftBand (cfft g) 0 nyquist) (band1 s) (band2 s) 1
      (clampLock nyquist (LockBand 1 (betaFor 1200 ratio) 0 1600)) (clampLock nyquist (LockBand 2 (betaFor 5000 ratio) 1600 7000))
      (clampLock nyquist (LockBand (if 256 <? outhop then 4 else 5) (betaFor 10000 ratio) 7000 nyquist)) (lock3 s) 3
      (kick s) (preKick s) (highUnlocked s) (phaseReset s) (channelLock s)
  else
    Guidance (FftBand (longest g) (f0 (band0 s)) (f1 (band0 s))) (FftBand (cfft g) (f0 (band1 s)) (f1 (band1 s)))
      (FftBand (shortest g) (f0 (band2 s)) (f1 (band2 s))) 3
      (lock0 s) (lock1 s) (lock2 s) (LockBand (lp (lock3 s)) (lbeta (lock3 s)) (lf0 (lock3 s)) nyquist) 4
      (kick s) (preKick s) (highUnlocked s) (phaseReset s) (channelLock s).
(** Guide.h:309-328: is there a kick now, or in the next frame; && is lazy *)
Definition detectKicks (g : guide) (m prev next : list Q) (seg pseg nseg : segmentation) : option (bool * bool) :=
  k ← (if ltq 40 (percussiveBelow seg) && ltq (percussiveBelow pseg) 40 then checkPotentialKick g m prev else Some false);
  f ← (if negb k && ltq 40 (percussiveBelow nseg) && ltq (percussiveBelow seg) 40 then checkPotentialKick g next m else Some false);
  Some (k, f).
(** Guide.h:364-429 *)
Definition chooseBands (g : guide) (ratio : Q) (outhop : Z) (m : list Q) (s : guidance) : option guidance :=
  let nyquist := (rate g / 2)%Q in
  lower ← descendToValley g (f1 (band0 s)) m;
  let lower := if ltq (maxLower g) lower || ltq lower (minLower g) then defaultLower g else lower in
  higher ← descendToValley g (f1 (band1 s)) m;
  let higher := if ltq (maxHigher g) higher || ltq higher (minHigher g) then defaultHigher g else higher in
  let top := if 256 <? outhop then nyquist else higher in
  let s := withBands s (setF (band0 s) 0 lower) (setF (band1 s) lower top) (setF (band2 s) top nyquist) in
  let mid := maxq lower 1600 in
  Some (withLocks s (LockBand 1 (betaFor 300 ratio) 0 lower) (LockBand 2 (betaFor 1600 ratio) lower mid)
    (LockBand 3 (betaFor 5000 ratio) mid higher) (LockBand (if 256 <? outhop then 3 else 4) (betaFor 10000 ratio) higher nyquist)).

(** The arguments of updateGuidance *)
Record frame := Frame {
  ratio : Q; outhop : Z; magnitudes : list Q; prevMagnitudes : list Q; nextMagnitudes : list Q;
  segm : segmentation; prevSegm : segmentation; nextSegm : segmentation; meanMagnitude : Q;
  unityCount : Z; realtime : bool; tighterChannelLock : bool; resetOnSilence : bool
}.
(** Guide.h:199-462 *)
Definition updateGuidance (g : guide) (a : frame) (s : guidance) : option guidance :=
  let hadPhaseReset := present (phaseReset s) in
  let s := withRanges s (absent (kick s)) (absent (preKick s)) (absent (highUnlocked s)) (absent (phaseReset s)) (absent (channelLock s)) in
  let nyquist := (rate g / 2)%Q in
  let s := prepare g (ratio a) (outhop a) s in
  if resetOnSilence a && ltq (meanMagnitude a) (1 # 1000000) then Some (updateForSilence g s) else
  if 0 <? unityCount a then Some (updateForUnity g s hadPhaseReset (segm a) (realtime a)) else
  let lock := Range true 0 (if tighterChannelLock a then nyquist else 600%Q) in
  '(k, fk) ← (if singleWindow g then Some (false, false)
              else detectKicks g (magnitudes a) (prevMagnitudes a) (nextMagnitudes a) (segm a) (prevSegm a) (nextSegm a));
  let kicked := if (k : bool) then Range true 0 (percussiveBelow (segm a)) else kick s in
  let prekicked := if (k : bool) then preKick s else if (fk : bool) then Range true 0 (percussiveBelow (nextSegm a)) else preKick s in
  let pa := percussiveAbove (segm a) in let ra := residualAbove (segm a) in
  let high := if ltq pa ra then Range true pa ra else highUnlocked s in
  let rst := if ltq (pa + 4000) ra && ltq (residualAbove (prevSegm a)) (percussiveAbove (prevSegm a) + 4000) then
      let lo := minq pa (percussiveAbove (nextSegm a)) in
      Range true (if ltq lo 200 then 0%Q else lo) (maxq ra (residualAbove (nextSegm a)))
    else phaseReset s in
  let s := withRanges s kicked prekicked high rst lock in
  s ← (if singleWindow g then Some s else chooseBands g (ratio a) (outhop a) (magnitudes a) s);
  if ltq 2 (ratio a) then
    let limit := (rf1 (channelLock s) - (ratio a - 2) * 150)%Q in
    let limit := if ltq limit 100 then 100%Q else limit in
    let above := (12000 - (ratio a - 2) * 400)%Q in
    let above := if ltq above limit then limit else above in
    let lo := if present (highUnlocked s) then minq (rf0 (highUnlocked s)) above else above in
    Some (withRanges s (kick s) (preKick s) (Range true lo nyquist) (phaseReset s) (Range true (rf0 (channelLock s)) limit))
  else Some s.
(** Frame after frame from a new or reset channel. *)
Fixpoint guideRun (g : guide) (s : guidance) (l : list frame) : option (list guidance) :=
  match l with [] => Some [] | a :: l => s ← updateGuidance g a s; r ← guideRun g s l; Some (s :: r) end.

(** R3Stretcher.cpp:1585-1602: the bins of a band that are synthesised are [lowBin, highBin);
    scale->mag.size() is fftSize/2+1 (R3Stretcher.h:173) *)
Definition synthesisBins (rate : Q) (b : fftBand) : Z * Z :=
  let lowBin := binForFrequency (f0 b) (fftSize b) rate in
  let highBin := binForFrequency (f1 b) (fftSize b) rate in
  let highBin := if (highBin mod 2 =? 0) && (0 <? highBin) then highBin - 1 else highBin in
  let n := fftSize b / 2 + 1 in
  let lowBin := if n <=? lowBin then n - 1 else lowBin in
  let highBin := if n <=? highBin then n - 1 else highBin in
  (lowBin, if highBin <? lowBin then lowBin else highBin).
