(** Model of the LADSPA/LV2 pitch shifters, for one channel: ladspa-lv2/RubberBandPitchShifter.cpp
    (RubberBandR3PitchShifter.cpp has the same code here, without the crispness) and
    RubberBandLivePitchShifter.cpp.  Samples and the mix are rationals.  A ring buffer is a queue
    with a limit (property C01 is that it is one); the stretcher and the live shifter are
    parameters; the control ports other than the mix are not here, as the parameters stand for
    any stretcher, whatever is set on it. *)
From stdpp Require Import prelude list numbers.
From Coq Require Import QArith.
Local Open Scope nat_scope.

(** RingBuffer::write and ::zero (src/common/RingBuffer.h): what there is no space for is dropped. *)
Definition push {A} (cap : nat) (q xs : list A) : list A := q ++ take (cap - length q) xs.
Definition silence (n : nat) : list Q := replicate n 0%Q.

(** RubberBandPitchShifter.cpp:612-625 and RubberBandLivePitchShifter.cpp:549-562, with [mix] of 0
    for an unconnected port: an output sample may be unset ([None], whatever the host had there);
    RingBuffer::readOne gives 0 when there is nothing, skip takes what there is. *)
Fixpoint blend (mix : Q) (dry : list Q) (out : list (option Q)) : list (option Q) :=
  match out with
  | [] => []
  | o :: out => ((fun w => w * (1 - mix) + hd 0 dry * mix)%Q <$> o) :: blend mix (tl dry) out
  end.
Definition mixDry (mix : Q) (dry : list Q) (out : list (option Q)) : list Q * list (option Q) :=
  if Qle_bool mix 0 then (drop (length out) dry, out) else (drop (length out) dry, blend mix dry out).

(** RubberBandPitchShifter.cpp:284-285, 303, 463-467 *)
Definition blockSize : nat := Z.to_nat 1024.
Definition reserve : nat := Z.to_nat 8192.
Definition bufsize : nat := Z.to_nat (1024 + 8192 + 8192).

(** The stretcher as the plug-in uses it, real-time: reset and setPitchScale, getSamplesRequired,
    process (not final), available, retrieve. *)
Record stretcher (S : Type) := Stretcher {
  sreset : S -> S; required : S -> nat; feed : S -> list Q -> S; available : S -> nat; retrieve : S -> nat -> list Q * S
}.
Arguments sreset {S}. Arguments required {S}. Arguments feed {S}. Arguments available {S}. Arguments retrieve {S}.

Section Plugin.
  Context {S : Type} (X : stretcher S).
  Record plugin := Plugin { st : S; outputBuffer : list Q; delayMix : list Q }.
  (** RubberBandPitchShifter.cpp:469-495, also the end of the constructor *)
  Definition activate (s : S) : plugin :=
    Plugin (feed X (sreset X s) (silence reserve)) [] (push bufsize [] (silence reserve)).
  (** RubberBandPitchShifter.cpp:463-467: getLatency *)
  Definition latency (p : plugin) : nat := reserve.
  (** RubberBandPitchShifter.cpp:647-678; [None]: does not end *)
  Fixpoint feeding (fuel : nat) (p : plugin) (xs : list Q) : option plugin :=
    match xs, fuel with
    | [], _ => Some p
    | _, O => None
    | _, Datatypes.S fuel =>
        let inchunk := length xs `min` required X (st p) in
        let s := feed X (st p) (take inchunk xs) in
        let outchunk := available X s `min` (bufsize - length (outputBuffer p)) in
        let '(ys, s') := retrieve X s outchunk in
        feeding fuel (Plugin s' (push bufsize (outputBuffer p) ys) (delayMix p)) (drop inchunk xs)
    end.
  (** RubberBandPitchShifter.cpp:628-694: what is written to the host's output, the rest of it unset *)
  Definition runBlock (p : plugin) (xs : list Q) : option (plugin * list (option Q)) :=
    p ← feeding (2 * length xs + 2) p xs;
    let got := take (length xs) (outputBuffer p) in
    Some (Plugin (st p) (drop (length xs) (outputBuffer p)) (delayMix p), (Some <$> got) ++ replicate (length xs - length got) None).
  (** RubberBandPitchShifter.cpp:600-610, [fuel] blocks at most *)
  Fixpoint runBlocks (fuel : nat) (p : plugin) (xs : list Q) : option (plugin * list (option Q)) :=
    match xs, fuel with
    | [], _ => Some (p, [])
    | _, O => None
    | _, Datatypes.S fuel =>
        '(p, out) ← runBlock p (take blockSize xs); '(p, rest) ← runBlocks fuel p (drop blockSize xs); Some (p, out ++ rest)
    end.
  (** RubberBandPitchShifter.cpp:587-626 *)
  Definition runPlugin (p : plugin) (mix : Q) (xs : list Q) : option (plugin * list (option Q)) :=
    '(p, out) ← runBlocks (length xs) (Plugin (st p) (outputBuffer p) (push bufsize (delayMix p) xs)) xs;
    let '(dry, out) := mixDry mix (delayMix p) out in
    Some (Plugin (st p) (outputBuffer p) dry, out).
  (** A host: blocks, each with the mix at the time. *)
  Fixpoint host (p : plugin) (l : list (Q * list Q)) : option (plugin * list (option Q)) :=
    match l with
    | [] => Some (p, [])
    | (mix, xs) :: l => '(p, out) ← runPlugin p mix xs; '(p, rest) ← host p l; Some (p, out ++ rest)
    end.
End Plugin.
Arguments plugin : clear implicits.

(** The live shifter: getStartDelay, reset, setPitchScale, and shift, a block in and a block out. *)
Record shifter (S : Type) := Shifter { startDelay : S -> nat; lreset : S -> S; setScale : S -> Q -> S; lshift : S -> list Q -> list Q * S }.
Arguments startDelay {S}. Arguments lreset {S}. Arguments setScale {S}. Arguments lshift {S}.
(** RubberBandLivePitchShifter.cpp:272, 286 *)
Definition bufferSize : nat := Z.to_nat 65536.
Definition liveBlock : nat := Z.to_nat 512.

Section LivePlugin.
  Context {S : Type} (X : shifter S).
  Record lplugin := LPlugin { sh : S; irb : list Q; orb : list Q; ldelayMix : list Q; ldelay : nat }.
  (** RubberBandLivePitchShifter.cpp:446-461; the scale is what updateRatio finds *)
  Definition lactivate (p : lplugin) (scale : Q) : lplugin :=
    LPlugin (setScale X (lreset X (sh p)) scale) (push bufferSize [] (silence liveBlock)) [] (push (bufferSize + ldelay p) [] (silence (ldelay p))) (ldelay p).
  (** RubberBandLivePitchShifter.cpp:274-303: a new shifter is at scale 1; no port is connected, so
      the scale found is 1 *)
  Definition lnew (s : S) : lplugin :=
    lactivate (LPlugin s (silence liveBlock) [] [] (startDelay X s)) 1.
  (** RubberBandLivePitchShifter.cpp:506-510 *)
  Definition llatency (p : lplugin) : nat := startDelay X (sh p) + liveBlock.
  (** RubberBandLivePitchShifter.cpp:532-543 *)
  Fixpoint shifting (fuel : nat) (p : lplugin) : option lplugin :=
    if length (irb p) <? liveBlock then Some p else
    match fuel with
    | O => None
    | Datatypes.S fuel =>
        let '(ys, s) := lshift X (sh p) (take liveBlock (irb p)) in
        shifting fuel (LPlugin s (drop liveBlock (irb p)) (push bufferSize (orb p) ys) (ldelayMix p) (ldelay p))
    end.
  (** RubberBandLivePitchShifter.cpp:512-563 *)
  Definition runLive (p : lplugin) (scale mix : Q) (xs : list Q) : option (lplugin * list (option Q)) :=
    let s := setScale X (sh p) scale in
    let i := push bufferSize (irb p) xs in
    p ← shifting (length i) (LPlugin s i (orb p) (push (bufferSize + ldelay p) (ldelayMix p) xs) (ldelay p));
    let got := take (length xs) (orb p) in
    let '(dry, out) := mixDry mix (ldelayMix p) ((Some <$> got) ++ replicate (length xs - length got) None) in
    Some (LPlugin (sh p) (irb p) (drop (length xs) (orb p)) dry (ldelay p), out).
  Fixpoint liveHost (p : lplugin) (l : list (Q * Q * list Q)) : option (lplugin * list (option Q)) :=
    match l with
    | [] => Some (p, [])
    | (scale, mix, xs) :: l => '(p, out) ← runLive p scale mix xs; '(p, rest) ← liveHost p l; Some (p, out ++ rest)
    end.
End LivePlugin.
Arguments lplugin : clear implicits.
