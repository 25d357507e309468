(** Model of the live pitch shifter, sample counts only: src/finer/R3LiveShifter.cpp and .h.
    Doubles are rationals and the pitch scale is taken to be above zero (the code does not check
    it); ints are unbounded.  Every channel has the same counts, so there is one.  The samples,
    and the analysis, phase and synthesis of a frame, are not here.  The two resamplers are
    parameters, of the kind of EngineModel. *)
From stdpp Require Import prelude list numbers.
From Coq Require Import ZArith QArith Qround.
From Verif Require Import Base.Arith MathMisc.Model Finer.SegmenterModel Finer.GuideModel Finer.EngineModel.
Local Open Scope Z_scope.

(** R3LiveShifter.cpp:320-324 *)
Definition blockSize : Z := 512.
(** What is fixed at construction: the window source size, the longest FFT, the limits of hops. *)
Record lshape := LShape { source : Z; frame : Z; ahead : Z; outLimit : Z }.
(** R3LiveShifter.h:97-105, 342-355, 386-388, 406-418; R3LiveShifter.cpp:65-68.  [medium] is
    OptionWindowMedium. *)
Definition newLive (medium : bool) (rate : Q) : option lshape :=
  let rate := validRate rate in
  r128 ← roundUpDiv rate 128; g ← newGuide rate true;
  let sz := cfft g + r128 in
  Some (LShape (if medium then if sz <? longest g then longest g else sz else longest g) (longest g) r128 (r128 * 5 / 4)).

(** A double made an int. *)
Definition ctrunc (q : Q) : Z := if ltq q 0 then - Qfloor (- q) else Qfloor q.

Section Live.
  Context {R : Type} (RS : resampler R) (L : lshape).
  (** R3LiveShifter.cpp:89-90: the space in either ring buffer *)
  Definition room : Z := 4 * source L.

  (** R3LiveShifter.h:320-340 and the fill of the ring buffers.  Not in the code: [front], the
      silence put into the input buffer before the first input; [refused], the input samples not
      taken, and [spilt] and [lost], the samples that the input and output buffers had no space
      for; [frames], the input and output hop of each frame, last first. *)
  Record live := Live {
    pitch : Q; firstProcess : bool; rin : R; rout : R; inFill : Z; outFill : Z; prevIn : Z; prevOut : Z;
    delayIn : Z; delayOut : Z; front : Z; refused : Z; spilt : Z; lost : Z; frames : list (Z * Z)
  }.
  (** R3LiveShifter.h:390-404 *)
  Definition inRatio (p : Q) : Q := if ltq 1 p then (1 / p)%Q else 1%Q.
  Definition outRatio (p : Q) : Q := if ltq p 1 then (1 / p)%Q else 1%Q.

  (** R3LiveShifter.cpp:227-252 *)
  Definition measureResamplerDelay (s : live) : live :=
    let '(k, r) := rres RS (rin s) blockSize blockSize (inRatio (pitch s)) false in
    let '(k', r') := rres RS (rout s) blockSize blockSize (outRatio (pitch s)) false in
    Live (pitch s) (firstProcess s) (rreset RS r) (rreset RS r') (inFill s) (outFill s) (prevIn s) (prevOut s)
      (blockSize - k) (blockSize - k') (front s) (refused s) (spilt s) (lost s) (frames s).
  (** R3LiveShifter.cpp:33-53, 202-225 *)
  Definition live0 : live :=
    measureResamplerDelay (Live 1 true (rnew RS) (rnew RS) 0 0 (ahead L / 2) (ahead L / 2) 32 32 0 0 0 0 []).
  (** R3LiveShifter.cpp:172-183 *)
  Definition setPitch (s : live) (p : Q) : live :=
    if Qeq_bool p (pitch s) then s else
    let s := Live p (firstProcess s) (rin s) (rout s) (inFill s) (outFill s) (prevIn s) (prevOut s)
      (delayIn s) (delayOut s) (front s) (refused s) (spilt s) (lost s) (frames s) in
    if firstProcess s then measureResamplerDelay s else s.
  (** R3LiveShifter.cpp:297-318; R3LiveShifter.h:229-243 *)
  Definition resetLive (s : live) : live :=
    measureResamplerDelay (Live (pitch s) true (rreset RS (rin s)) (rreset RS (rout s)) 0 0 (ahead L / 2) (cround (inject_Z (ahead L / 2) * pitch s))
      (delayIn s) (delayOut s) 0 0 0 0 []).
  (** R3LiveShifter.cpp:272-289: as an int, before it is returned as a size_t *)
  Definition startTotal (s : live) : Z :=
    let inDelay := source L + delayIn s in
    let total := Qfloor (inject_Z inDelay * outRatio (pitch s)) + delayOut s in
    if ltq 1 (pitch s) then ctrunc (inject_Z total + inject_Z blockSize * (pitch s - 1))
    else if ltq (pitch s) 1 then ctrunc (inject_Z total - inject_Z blockSize * (1 / pitch s - 1))
    else total.
  Definition getStartDelay (s : live) : Z := startTotal s mod 2 ^ 64.

  (** Samples put into the input buffer (RingBuffer::write and ::zero, as much as there is space
      for), of which [k] are sound and the others silence ahead of the first input. *)
  Definition put (s : live) (r : R) (silence k : Z) : live :=
    let f1 := inFill s + Z.min silence (room - inFill s) in
    let f2 := f1 + Z.min k (room - f1) in
    Live (pitch s) (firstProcess s) r (rout s) f2 (outFill s) (prevIn s) (prevOut s) (delayIn s) (delayOut s)
      (front s + (f1 - inFill s)) (refused s) (spilt s + (k - (f2 - f1))) (lost s) (frames s).
  (** R3LiveShifter.cpp:337-347 *)
  Definition prePad (s : live) : live :=
    if firstProcess s then put s (rin s) (if ltq 1 (pitch s) then cceil (inject_Z (source L) * pitch s) else source L) 0 else s.
  (** R3LiveShifter.cpp:375-440 *)
  Definition readIn (s : live) : live :=
    if room - inFill s <? blockSize then
      Live (pitch s) (firstProcess s) (rin s) (rout s) (inFill s) (outFill s) (prevIn s) (prevOut s) (delayIn s) (delayOut s)
        (front s) (refused s + blockSize) (spilt s) (lost s) (frames s)
    else
      let '(k, r) := rres RS (rin s) room blockSize (inRatio (pitch s)) false in
      let expected := Qfloor (inject_Z blockSize * inRatio (pitch s)) in
      put s r (if firstProcess s && (k <? expected) then expected - k else 0) k.
  (** R3LiveShifter.cpp:490-590, the frames of one block: all the same hops, as the code changes
      neither toConsume nor toGenerate in the loop. *)
  Definition oneFrame (i o : Z) (s : live) : live :=
    let w := Z.min o (room - outFill s) in
    Live (pitch s) (firstProcess s) (rin s) (rout s) (inFill s - Z.min i (inFill s)) (outFill s + w) i o (delayIn s) (delayOut s)
      (front s) (refused s) (spilt s) (lost s + (o - w)) ((i, o) :: frames s).
  Fixpoint loop (n : nat) (i o : Z) (s : live) : live :=
    match n with O => s | S n => loop n i o (oneFrame i o s) end.
  (** R3LiveShifter.cpp:478-484 *)
  Definition hopCount (toConsume toGenerate : Z) : Z := Z.max (1 + (toConsume - 1) / ahead L) (1 + (toGenerate - 1) / outLimit L).
  (** R3LiveShifter.cpp:442-593 *)
  Definition generate (s : live) (required : Z) : live :=
    if required <=? outFill s then s else
    if inFill s <=? source L then s else
    let toGenerate := required - outFill s in
    let toConsume := inFill s - source L in
    let hops := hopCount toConsume toGenerate in
    loop (Z.to_nat hops) (Z.min (1 + (toConsume - 1) / hops) toConsume) (1 + (toGenerate - 1) / hops) s.
  (** R3LiveShifter.cpp:604-661: output buffer level, resampler state, samples so far *)
  Fixpoint fill (fuel : nat) (q : Q) (tail : bool) (level : Z) (r : R) (count : Z) : option (Z * R * Z) :=
    match fuel with
    | O => None
    | S fuel =>
        if negb (count <? blockSize) then Some (level, r, count) else
        let want := if tail then 1 else let n := Qfloor (inject_Z blockSize / q) in if n =? 0 then 1 else n in
        let got := Z.min want level in
        let '(k, r') := rres RS r (blockSize - count) got q false in
        if (got =? 0) && (k =? 0) then Some (level - got, r', count) else fill fuel q true (level - got) r' (count + k)
    end.
  (** R3LiveShifter.cpp:595-693, 355-365, 372: also the silence put before the output, the samples
      of it that came from the resampler, and those made up by fading out the last one *)
  Definition readOut (s : live) : option (live * (Z * Z * Z)) :=
    '(level, r, count) ← fill (Z.to_nat (outFill s + blockSize + 1)) (outRatio (pitch s)) false (outFill s) (rout s) 0;
    let s' := Live (pitch s) false (rin s) r (inFill s) level (prevIn s) (prevOut s) (delayIn s) (delayOut s)
      (front s) (refused s) (spilt s) (lost s) (frames s) in
    Some (s', if count <? blockSize then (if firstProcess s then (blockSize - count, count, 0) else (0, count, blockSize - count)) else (0, count, 0)).
  (** R3LiveShifter.cpp:326-373 *)
  Definition shiftBlock (s : live) : option (live * (Z * Z * Z)) :=
    readOut (generate (readIn (prePad s)) (cceil (inject_Z blockSize / outRatio (pitch s)))).

  Inductive lop := SetPitch (p : Q) | Shift | ResetLive.
  (** The state after some calls and what each shift gave, in order. *)
  Fixpoint run (s : live) (l : list lop) : option (live * list (Z * Z * Z)) :=
    match l with
    | [] => Some (s, [])
    | SetPitch p :: l => run (setPitch s p) l
    | ResetLive :: l => run (resetLive s) l
    | Shift :: l => '(s', a) ← shiftBlock s; '(s'', k) ← run s' l; Some (s'', a :: k)
    end.
End Live.
Arguments live : clear implicits.
