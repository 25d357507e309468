(** Model of src/finer/PhaseAdvance.h.  Phases are in turns (the code has radians), values are
    rationals: rounding is not modelled.  An access outside an array is [None]. *)
From stdpp Require Import prelude list numbers.
From Coq Require Import ZArith QArith Qround.
From Verif Require Import Base.Arith Finer.PeakModel Finer.SegmenterModel Finer.GuideModel.
From Verif Require Phases.Model.
Local Open Scope Z_scope.
Notation princ := Phases.Model.princ.

(** PhaseAdvance.h:42-51: the parameters, and Guide::Configuration's fftBandLimits *)
Record setup := Setup { pfft : Z; prate : Q; plimits : list limits }.
(** PhaseAdvance.h:255-260, one channel.  m_greatestChannel is written before it is read in each
    call and is not kept here. *)
Record memory := Memory { curPeaks : list Z; prevPeaks : list Z; prevIn : list Q; prevOut : list Q; unlocked : list Q }.
(** The arguments for one channel: outPhase (written), mag, phase, prevMag, guidance. *)
Record input := Input { outPhase : list Q; mag : list Q; phase : list Q; prevMag : list Q; guid : guidance }.
Definition binCount (s : setup) : Z := pfft s / 2 + 1.
(** PhaseAdvance.h:53-72 *)
Definition newMemory (s : setup) : memory :=
  let n := Z.to_nat (binCount s) in
  Memory (replicate n 0) (Z.of_nat <$> seq 0 n) (replicate n 0%Q) (replicate n 0%Q) (replicate n 0%Q).
(** PhaseAdvance.h:84-89: m_prevPeaks is zeroed; m_currentPeaks and m_unlocked are left *)
Definition resetMemory (s : setup) (m : memory) : memory :=
  let n := Z.to_nat (binCount s) in
  Memory (curPeaks m) (replicate n 0) (replicate n 0%Q) (replicate n 0%Q) (unlocked m).

(** A loop that sets the elements at [bins]. *)
Fixpoint fill {A} (f : Z -> option A) (l : list A) (bins : list Z) : option (list A) :=
  match bins with [] => Some l | i :: bins => x ← f i; l ← put l i x; fill f l bins end.

(** PhaseAdvance.h:103-118: bins of the first of the three bands with this FFT size, of the first
    band when there is none. *)
Definition myBand (s : setup) (g : guidance) : nat :=
  if fftSize (band0 g) =? pfft s then 0 else if fftSize (band1 g) =? pfft s then 1 else if fftSize (band2 g) =? pfft s then 2 else 0.
Definition myBins (s : setup) (g : guidance) : option (Z * Z) :=
  l ← plimits s !! myBand s g; Some (b0min l, b1max l).

Definition gtq (a b : Q) : bool := ltq b a.
Definition lockBands (g : guidance) : list lockBand := take (Z.to_nat (lockCount g)) [lock0 g; lock1 g; lock2 g; lock3 g].
(** PhaseAdvance.h:139-153 *)
Fixpoint lockPeaks (s : setup) (lo hi : Z) (mag : list Q) (bands : list lockBand) (cur : list Z) : option (list Z) :=
  match bands with
  | [] => Some cur
  | b :: bands =>
      let startBin := binForFrequency (lf0 b) (pfft s) (prate s) in
      let endBin := binForFrequency (lf1 b) (pfft s) (prate s) in
      if (hi <? startBin) || (endBin <? lo) then lockPeaks s lo hi mag bands cur else
      let endBin := if hi <? endBin then hi else endBin in
      let count := endBin - startBin + 1 in
      if count <? 1 then lockPeaks s lo hi mag bands cur else
      '(cur', _) ← findNearestAndNextPeaks gtq (binCount s) mag startBin count (lp b) (Some cur) None;
      lockPeaks s lo hi mag bands (default cur cur')
  end.
Definition bins (lo hi : Z) : list Z := seqZ lo (hi - lo + 1).
(** PhaseAdvance.h:135-158 *)
Definition findPeaks (s : setup) (lo hi : Z) (m : memory) (a : input) : option memory :=
  cur ← fill Some (curPeaks m) (bins lo hi);
  cur ← lockPeaks s lo hi (mag a) (lockBands (guid a)) cur;
  '(prev, _) ← findNearestAndNextPeaks gtq (binCount s) (prevMag a) lo (hi - lo + 1) 1 (Some (prevPeaks m)) None;
  Some (Memory cur (default (prevPeaks m) prev) (prevIn m) (prevOut m) (unlocked m)).

(** PhaseAdvance.h:160-174 for one bin; the float [gmag] is exact here *)
Fixpoint greatest (ms : list Q) (c best : nat) (gmag : Q) : nat :=
  match ms with [] => best | x :: ms => if gtq x gmag then greatest ms (S c) c x else greatest ms (S c) best gmag end.
Definition greatestChannel (xs : list input) (i : Z) : option nat :=
  ms ← mapM (fun a => at_ (mag a) i) xs;
  match ms with [] => None | x :: ms => Some (greatest ms 1 0 x) end.

(** PhaseAdvance.h:176-186 *)
Definition unlock (s : setup) (lo hi inhop outhop : Z) (m : memory) (a : input) : option memory :=
  u ← fill (fun i =>
    pin ← at_ (prevIn m) i; p ← at_ (phase a) i; pout ← at_ (prevOut m) i;
    let omega := (inject_Z inhop / inject_Z (pfft s) * inject_Z i)%Q in
    let error := princ (p - (pin + omega)) in
    let advance := (inject_Z outhop / inject_Z inhop * (omega + error))%Q in
    Some (pout + advance)%Q) (unlocked m) (bins lo hi);
  Some (Memory (curPeaks m) (prevPeaks m) (prevIn m) (prevOut m) u).

(** PhaseAdvance.h:264-266 *)
Definition inRange (f : Q) (r : range) : bool := present r && Qle_bool (rf0 r) f && ltq f (rf1 r).
(** PhaseAdvance.h:190-197, 229-230: the loop goes on from the band of the bin before; as [f] grows
    from bin to bin, starting over finds the same. *)
Fixpoint betaAt (f : Q) (bands : list lockBand) : option Q :=
  match bands with
  | [] => None
  | [b] => Some (lbeta b)
  | b :: bands => if ltq (lf1 b) f then betaAt f bands else Some (lbeta b)
  end.
(** PhaseAdvance.h:211-222: the channel whose peak is followed *)
Definition peakChannel (ms : list memory) (xs : list input) (c : nat) (i : Z) (f : Q) (g : guidance) (prevPeak : Z) : option nat :=
  if inRange f (channelLock g) then
    (* with one channel m_greatestChannel is zero, 172-174, and so is this *)
    other ← greatestChannel xs i;
    oa ← xs !! other; om ← ms !! other;
    if negb (other =? c)%nat && inRange f (channelLock (guid oa)) then
      otherPeak ← at_ (curPeaks om) i; otherPrev ← at_ (prevPeaks om) otherPeak;
      Some (if otherPrev =? prevPeak then other else c)
    else Some c
  else Some c.
(** PhaseAdvance.h:208-232 *)
Definition locked (ms : list memory) (xs : list input) (c : nat) (i : Z) (f : Q) (m : memory) (a : input) : option Q :=
  peak ← at_ (curPeaks m) i; prevPeak ← at_ (prevPeaks m) peak;
  pc ← peakChannel ms xs c i f (guid a) prevPeak;
  pm ← ms !! pc; pa ← xs !! pc;
  u ← at_ (unlocked pm) peak; o ← at_ (prevOut pm) peak; o' ← at_ (prevOut pm) prevPeak;
  p ← at_ (phase a) i; pp ← at_ (phase pa) peak;
  beta ← betaAt f (lockBands (guid a));
  Some (o' + (u - o) + beta * (p - pp))%Q.
(** PhaseAdvance.h:192-233; [sideReset] is 201-202, the range of the second channel's guidance
    with mid-side processing of two channels *)
Definition newPhase (s : setup) (inhop outhop : Z) (sideReset : option range) (ms : list memory) (xs : list input) (c : nat) (m : memory) (a : input) (i : Z) : option Q :=
  let f := frequencyForBin i (pfft s) (prate s) in
  let g := guid a in
  ph ← (if inRange f (phaseReset g) || inRange f (kick g) then at_ (phase a) i
        else if match sideReset with Some r => (c =? 0)%nat && inRange f r | None => false end then at_ (phase a) i
        else if (inhop =? outhop) || inRange f (highUnlocked g) then at_ (unlocked m) i
        else locked ms xs c i f m a);
  Some (princ ph).
(** PhaseAdvance.h:188-235 for one channel *)
Definition newPhases (s : setup) (lo hi inhop outhop : Z) (sideReset : option range) (ms : list memory) (xs : list input) (c : nat) (m : memory) (a : input) : option (list Q) :=
  fill (newPhase s inhop outhop sideReset ms xs c m a) (outPhase a) (bins lo hi).
(** PhaseAdvance.h:237-244 *)
Definition remember (lo hi : Z) (m : memory) (a : input) (out : list Q) : option memory :=
  pin ← fill (at_ (phase a)) (prevIn m) (bins lo hi);
  pout ← fill (at_ out) (prevOut m) (bins lo hi);
  Some (Memory (curPeaks m) (prevPeaks m) pin pout (unlocked m)).

(** Two lists of the same length, element by element. *)
Fixpoint both {A B C} (f : A -> B -> option C) (xs : list A) (ys : list B) : option (list C) :=
  match xs, ys with
  | [], [] => Some []
  | x :: xs, y :: ys => z ← f x y; zs ← both f xs ys; Some (z :: zs)
  | _, _ => None
  end.
Fixpoint numbered {A} (k : nat) (xs : list A) : list (nat * A) := match xs with [] => [] | x :: xs => (k, x) :: numbered (S k) xs end.
(** PhaseAdvance.h:91-245: a call with [inhop], [outhop] and usingMidSide *)
Record call := Call { inputs : list input; midSide : bool; inhop : Z; outhop : Z }.
Definition advanceAll (s : setup) (ms : list memory) (k : call) : option (list memory * list (list Q)) :=
  first ← inputs k !! 0%nat;
  '(lo, hi) ← myBins s (guid first);
  ms ← both (findPeaks s lo hi) ms (inputs k);
  ms ← both (unlock s lo hi (inhop k) (outhop k)) ms (inputs k);
  let sideReset := if midSide k && (length ms =? 2)%nat then a ← inputs k !! 1%nat; Some (phaseReset (guid a)) else None in
  outs ← both (fun '(c, m) a => newPhases s lo hi (inhop k) (outhop k) sideReset ms (inputs k) c m a) (numbered 0 ms) (inputs k);
  ms ← both (fun '(m, a) out => remember lo hi m a out) (zip ms (inputs k)) outs;
  Some (ms, outs).
(** An object for [n] channels and the calls made to it, with what each of them puts out. *)
Inductive op := Do (k : call) | Clear.
Definition create (s : setup) (n : nat) : list memory := replicate n (newMemory s).
Fixpoint runOps (s : setup) (ms : list memory) (os : list op) : option (list memory * list (list (list Q))) :=
  match os with
  | [] => Some (ms, [])
  | Do k :: os => '(ms, o) ← advanceAll s ms k; '(ms, r) ← runOps s ms os; Some (ms, o :: r)
  | Clear :: os => runOps s (resetMemory s <$> ms) os
  end.
