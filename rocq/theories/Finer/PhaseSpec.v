(** What is said about the phases of the R3 engine. *)
From stdpp Require Import prelude list numbers.
From Coq Require Import ZArith QArith.
From Verif Require Import Base.Arith Finer.PeakModel Finer.PeakSpec Finer.SegmenterModel Finer.GuideModel Finer.PhaseModel.
From Verif Require Phases.Spec.
Local Open Scope Z_scope.

(** The bins of a phase-lock band, and the last of the bands with bin [i]. *)
Definition bandStart (s : setup) (b : lockBand) : Z := binForFrequency (lf0 b) (pfft s) (prate s).
Definition bandEnd (s : setup) (hi : Z) (b : lockBand) : Z := Z.min hi (binForFrequency (lf1 b) (pfft s) (prate s)).
Fixpoint lastBand (s : setup) (hi : Z) (bands : list lockBand) (i : Z) : option lockBand :=
  match bands with
  | [] => None
  | b :: bands => match lastBand s hi bands i with
                  | Some b => Some b
                  | None => if (bandStart s b <=? i) && (i <=? bandEnd s hi b) then Some b else None
                  end
  end.
(** Bin [p] is the peak that bin [i] belongs to, among the magnitudes of its band. *)
Definition bandPeaks (s : setup) (hi : Z) (a : input) (b : lockBand) : Z -> Prop := peak_at gtq (mag a) (bandStart s b) (bandEnd s hi b + 1) (lp b).
Definition peakOf (s : setup) (hi : Z) (a : input) (i p : Z) : Prop :=
  match lastBand s hi (lockBands (guid a)) i with Some b => closest (bandPeaks s hi a b) i p | None => p = i end.
(** The peak of the frame before that bin [p] belongs to. *)
Definition oldPeakOf (lo hi : Z) (a : input) (p q : Z) : Prop := closest (peak_at gtq (prevMag a) lo (hi + 1) 1) p q.

(** How far the phase of bin [i], gone from [p'] to [p] in the input, goes on in the output. *)
Definition onward (s : setup) (k : call) (i : Z) (p' p : Q) : Q :=
  let omega := (inject_Z (inhop k) / inject_Z (pfft s) * inject_Z i)%Q in
  (inject_Z (outhop k) / inject_Z (inhop k) * (omega + princ (p - (p' + omega))))%Q.

(** Shapes. *)
Record shaped (s : setup) (m : memory) : Prop := Shaped {
  sh_cur : Z.of_nat (length (curPeaks m)) = binCount s; sh_prev : Z.of_nat (length (prevPeaks m)) = binCount s;
  sh_in : Z.of_nat (length (prevIn m)) = binCount s; sh_out : Z.of_nat (length (prevOut m)) = binCount s;
  sh_un : Z.of_nat (length (unlocked m)) = binCount s; sh_range : Forall (fun q => 0 <= q < binCount s) (prevPeaks m)
}.
(** Bands as the guide makes them. *)
Definition locksOk (g : guidance) : Prop := lockBands g <> [] /\ Forall (fun b => 0 <= lp b /\ (0 <= lf0 b)%Q) (lockBands g).
Record inputOk (s : setup) (a : input) : Prop := InputOk {
  in_out : Z.of_nat (length (outPhase a)) = binCount s; in_mag : Z.of_nat (length (mag a)) = binCount s;
  in_phase : Z.of_nat (length (phase a)) = binCount s; in_prev : Z.of_nat (length (prevMag a)) = binCount s; in_locks : locksOk (guid a)
}.
(** A setup whose bands fit, with [lo] to [hi] the bins this object deals with. *)
Record setupOk (s : setup) (lo hi : Z) : Prop := SetupOk { so_fft : 0 < pfft s; so_rate : (0 < prate s)%Q; so_lo : 0 <= lo; so_le : lo <= hi; so_hi : hi < binCount s }.
Record callOk (s : setup) (lo hi : Z) (n : nat) (k : call) : Prop := CallOk {
  co_count : length (inputs k) = n; co_in : Forall (inputOk s) (inputs k); co_hop : 0 < inhop k;
  co_bins : exists a, inputs k !! 0%nat = Some a /\ myBins s (guid a) = Some (lo, hi)
}.
Definition hz (s : setup) (i : Z) : Q := frequencyForBin i (pfft s) (prate s).
(** Bins at which the phase starts afresh. *)
Definition afresh (s : setup) (k : call) (c : nat) (a : input) (i : Z) : bool :=
  inRange (hz s i) (phaseReset (guid a)) || inRange (hz s i) (kick (guid a)) ||
  (midSide k && (length (inputs k) =? 2)%nat && (c =? 0)%nat &&
   match inputs k !! 1%nat with Some b => inRange (hz s i) (phaseReset (guid b)) | None => false end).
(** Bins whose phase goes by itself. *)
Definition free (s : setup) (k : call) (a : input) (i : Z) : bool := (inhop k =? outhop k) || inRange (hz s i) (highUnlocked (guid a)).
(** Calls to an object for [n] channels. *)
Definition opOk (s : setup) (lo hi : Z) (n : nat) (o : op) : Prop := match o with Do k => callOk s lo hi n k | Clear => True end.
Fixpoint callsOf (os : list op) : list call := match os with [] => [] | Do k :: os => k :: callsOf os | Clear :: os => callsOf os end.
(** The loudest channel in bin [i], the first of equals. *)
Definition loudest (xs : list input) (i : Z) (o : nat) : Prop :=
  exists a x, xs !! o = Some a /\ at_ (mag a) i = Some x /\ forall c b y, xs !! c = Some b -> at_ (mag b) i = Some y -> (y <= x)%Q /\ ((c < o)%nat -> (y < x)%Q).
(** Bin [i] of channel [c], whose peak was at [q] before, follows no other channel: channels are not
    locked there, or it is the loudest, or they are not locked there for the loudest, or the
    loudest had its peak elsewhere. *)
Definition onItsOwn (s : setup) (lo hi : Z) (k : call) (c : nat) (a : input) (i q : Z) : Prop :=
  inRange (hz s i) (channelLock (guid a)) = false \/ loudest (inputs k) i c \/
  exists o b, loudest (inputs k) i o /\ inputs k !! o = Some b /\
    (inRange (hz s i) (channelLock (guid b)) = false \/ exists po qo, peakOf s hi b i po /\ lo <= po /\ oldPeakOf lo hi b po qo /\ qo <> q).
(** Bin [i] leads: it goes by itself, or it is a peak, which was at [q] in the frame before, and follows no other channel. *)
Definition leadsFrom (s : setup) (lo hi : Z) (k : call) (c : nat) (i q : Z) : Prop := exists a, inputs k !! c = Some a /\ afresh s k c a i = false /\
  (free s k a i = true /\ q = i \/ free s k a i = false /\ peakOf s hi a i i /\ oldPeakOf lo hi a i q /\ onItsOwn s lo hi k c a i q).
Definition leads (s : setup) (lo hi : Z) (k : call) (c : nat) (i : Z) : Prop := leadsFrom s lo hi k c i i.
(** The phase given for bin [i] of channel [c], and the one put out. *)
Definition phaseIn (k : call) (c : nat) (i : Z) (p : Q) : Prop := exists a, inputs k !! c = Some a /\ at_ (phase a) i = Some p.
Definition phaseOut (outs : list (list Q)) (c : nat) (i : Z) (x : Q) : Prop := exists out, outs !! c = Some out /\ at_ out i = Some x.
(** A tone of [f] turns a sample, going from [p'] to [p] within the hop of the call: of all such
    [f] the one next to the frequency of the bin. *)
Definition tone (s : setup) (k : call) (i : Z) (f p' p : Q) : Prop :=
  Phases.Spec.same (p' + f * inject_Z (inhop k)) p /\ (- (1 # 2) < inject_Z (inhop k) * (f - inject_Z i / inject_Z (pfft s)) <= 1 # 2)%Q.
Definition covered (ks : list call) : Z := foldr Z.add 0 (outhop <$> ks).
(** Bins below those dealt with have no phase (R3Stretcher.cpp analyses from the lowest bin up,
    into an array that starts as zeros). *)
Definition bare (lo : Z) (k : call) : Prop := forall c a i, inputs k !! c = Some a -> 0 <= i < lo -> at_ (phase a) i = Some 0%Q.
Definition opBare (lo : Z) (o : op) : Prop := match o with Do k => bare lo k | Clear => True end.
