(** Model of a whole stretcher with the finer engine, sample counts only: src/finer/R3Stretcher.cpp
    (ratios, hops, key frames, buffers, process, consume, retrieve) and R3Stretcher.h.
    Doubles are rationals, except that the ratios a caller sets may be infinite or NaN; ints and
    size_t are unbounded.  All channels have the same counts, so there is one.  The samples, and
    the analysis, phase and synthesis of a frame, are not here; a hop longer than the accumulator
    is [None], as synthesiseChannel then runs over its end.  The resampler is a parameter. *)
From stdpp Require Import prelude list numbers.
From Coq Require Import ZArith QArith Qround.
From Verif Require Import Base.Arith MathMisc.Model Finer.SegmenterModel Finer.GuideModel.
From Verif Require Calculator.Model.
Local Open Scope Z_scope.

(** A ratio as the caller gives it. *)
Inductive dbl := Fin (q : Q) | Inf (positive : bool) | NaN.
(** R3Stretcher.cpp:327-346: not above zero is replaced by 1; then, if one is NaN or infinite
    (equal to its half), both are replaced by 1. *)
Definition notPositive (x : dbl) : bool := match x with Fin q => negb (ltq 0 q) | Inf p => negb p | NaN => false end.
Definition positiveOr1 (x : dbl) : dbl := if notPositive x then Fin 1 else x.
Definition sanitise (time pitch : dbl) : Q * Q :=
  match positiveOr1 time, positiveOr1 pitch with Fin t, Fin p => (t, p) | _, _ => (1%Q, 1%Q) end.

(** What is fixed at construction: options, Limits (R3Stretcher.h:108-131), the FFT sizes of the
    guide, and [curve], which stands for pow(2.0, 8.0 + 2.0 * log10(x)). *)
Record shape := Shape {
  realTime : bool; short : bool; highConsistency : bool; highQuality : bool;
  minOut : Z; maxOut : Z; maxAhead : Z; maxIn : Z; longestFft : Z; classifyFft : Z; roundRate : Z;
  curve : Q -> Q
}.
(** R3Stretcher.h:384-397, 116-130; Guide.h for the FFT sizes *)
Definition validRate (rate : Q) : Q := if ltq rate 8000 then 8000%Q else if ltq 192000 rate then 192000%Q else rate.
Definition newShape (rt sh hc hq : bool) (rate : Q) (cv : Q -> Q) : option shape :=
  let rate := validRate rate in
  r512 ← roundUpDiv rate 512; r256 ← roundUpDiv rate 256; r128 ← roundUpDiv rate 128; r64 ← roundUpDiv rate 64; r32 ← roundUpDiv rate 32;
  g ← newGuide rate sh;
  Some (if sh then Shape rt sh hc hq r256 (r128 * 5 / 4) r128 (r64 * 3 / 2) (longest g) (cfft g) (cround rate) cv
        else Shape rt sh hc hq r512 r128 r64 r32 (longest g) (cfft g) (cround rate) cv).
Definition minIn : Z := 1.
Definition processLimit : Z := 524288.
(** R3Stretcher.h:497-505 *)
Definition windowSource (E : shape) : Z := let sz := classifyFft E + maxAhead E in if sz <? longestFft E then longestFft E else sz.
(** R3Stretcher.cpp:103-104: the size of [resampled] *)
Definition hopBuffer (E : shape) : Z := 2 * Z.max (maxIn E) (maxOut E).

(** R3Stretcher.cpp:348-398 *)
Definition proposedOuthop (E : shape) (ratio : Q) : Q :=
  let p := (if ltq (3 # 2) ratio then curve E (ratio - (1 # 2)) else if ltq ratio 1 then curve E ratio else 256)%Q in
  let p := if short E then (p * 2)%Q else p in
  let p := if ltq (inject_Z (maxOut E)) p then inject_Z (maxOut E) else p in
  if ltq p (inject_Z (minOut E)) then inject_Z (minOut E) else p.
Definition inhopFor (E : shape) (ratio : Q) : Z :=
  let h := (proposedOuthop E ratio / ratio)%Q in
  let h := if ltq h (inject_Z minIn) then inject_Z minIn else h in
  let h := if ltq (inject_Z (maxIn E)) h then inject_Z (maxIn E) else h in
  Qfloor h.
(** R3Stretcher.cpp:398-403 *)
Definition useReadahead (E : shape) (inhop : Z) : bool := inhop <? maxAhead E.

(** R3Stretcher.cpp:1167-1231: where in the source buffer each frame is cut from, and its length:
    the scales other than the classification scale, the readahead, the classification scale *)
Definition analysisCuts (g : guide) (ahead : bool) (inhop : Z) : list (Z * Z) :=
  let middle n := (longest g - n) / 2 in
  map (fun l => (middle (lfft l), lfft l)) (filter (fun l => negb (lfft l =? cfft g) = true) (bandLimit g)) ++
  (if ahead then [(middle (cfft g) + inhop, cfft g)] else []) ++ [(middle (cfft g), cfft g)].
(** R3Stretcher.cpp:193-202, 1618-1632: what each scale adds to its accumulator, which is as long
    as the longest FFT: offset in the frame, offset in the accumulator, length, length of the frame *)
Definition synthesisLength (g : guide) (fft : Z) : Z := if singleWindow g then fft else if 2048 <? fft then fft / 2 else fft.
Definition synthesisCuts (g : guide) : list (Z * Z * Z * Z) :=
  map (fun l => let w := synthesisLength g (lfft l) in ((lfft l - w) / 2, (longest g - w) / 2, w, lfft l)) (bandLimit g).

(** R3Stretcher.h:431-484: before, after *)
Definition areWeResampling (E : shape) (have : bool) (pitch : Q) : bool * bool :=
  if negb have then (false, false) else
  let unity := Qeq_bool pitch 1 in
  if negb (realTime E) then (false, negb unity)
  else if highConsistency E then (false, true)
  else if unity then (false, false)
  else if ltq 1 pitch then (if highQuality E then (false, true) else (true, false))
  else if ltq pitch 1 then (if highQuality E then (true, false) else (false, true))
  else (false, false).

(** common/Resampler.h, counts: [rres r cap n ratio final] gets [n] and may return up to [cap] *)
Record resampler (R : Type) := Resampler {
  rnew : R; rres : R -> Z -> Z -> Q -> bool -> Z * R; reff : R -> Q -> Q; rreset : R -> R
}.
Arguments rnew {R}. Arguments rres {R}. Arguments reff {R}. Arguments rreset {R}.

Inductive emode := JustCreated | Studying | Processing | Finished.
Section Engine.
  Context {R : Type} (RS : resampler R) (E : shape).

  (** R3Stretcher.h:329-359 and the fill and size of each channel's buffers (214-269).  Not in the
      code: [lost], the output frames a full buffer did not take, and [trail], the input hop, the
      output hop and what it gave after resampling of each frame, last first. *)
  Record eng := Eng {
    timeRatio : Q; pitchScale : Q; res : option R; inhop : Z; prevInhop : Z; prevOuthop : Z; startSkip : Z;
    studied : Z; supplied : Z; target : Z; consumed : Z; lastKey : Z; totalOut : Z; keys : list (Z * Z); mode : emode;
    inFill : Z; inSize : Z; outFill : Z; outSize : Z; accFill : Z; calculator : Calculator.Model.calc; lost : Z; trail : list (Z * Z * Z)
  }.
  Definition ratioOf (s : eng) : Q := (timeRatio s * pitchScale s)%Q.
  Definition resampling (s : eng) : bool * bool := areWeResampling E (bool_decide (is_Some (res s))) (pitchScale s).

  Definition setRatios (s : eng) (t p : Q) : eng :=
    let h := inhopFor E (t * p) in
    let '(pi, po) := match mode s with JustCreated => (h, cround (inject_Z h * (t * p))) | _ => (prevInhop s, prevOuthop s) end in
    Eng t p (res s) h pi po (startSkip s) (studied s) (supplied s) (target s) (consumed s) (lastKey s) (totalOut s) (keys s) (mode s)
      (inFill s) (inSize s) (outFill s) (outSize s) (accFill s) (calculator s) (lost s) (trail s).
  (** R3Stretcher.cpp:325-410 *)
  Definition calculateHop (s : eng) (t p : dbl) : eng := let '(t, p) := sanitise t p in setRatios s t p.

  (** R3Stretcher.cpp:67-160; the construction *)
  Definition engine0 (t p : dbl) : eng :=
    let ring := 16 * windowSource E in
    calculateHop (Eng 1 1 (if realTime E then Some (rnew RS) else None) 1 1 1 0 0 0 0 0 0 0 [] JustCreated 0 ring 0 ring 0
      (Calculator.Model.create (roundRate E) 1 false) 0 []) t p.

  Definition locked (s : eng) : bool := negb (realTime E) && match mode s with Studying | Processing => true | _ => false end.
  (** R3Stretcher.cpp:204-234 *)
  Definition same (x : dbl) (q : Q) : bool := match x with Fin x => Qeq_bool x q | _ => false end.
  Definition setTimeRatio (s : eng) (x : dbl) : eng := if locked s || same x (timeRatio s) then s else calculateHop s x (Fin (pitchScale s)).
  Definition setPitchScale (s : eng) (x : dbl) : eng := if locked s || same x (pitchScale s) then s else calculateHop s (Fin (timeRatio s)) x.

  Definition withKeys (s : eng) (m : list (Z * Z)) : eng :=
    Eng (timeRatio s) (pitchScale s) (res s) (inhop s) (prevInhop s) (prevOuthop s) (startSkip s) (studied s) (supplied s) (target s) (consumed s) (lastKey s) (totalOut s) m (mode s)
      (inFill s) (inSize s) (outFill s) (outSize s) (accFill s) (calculator s) (lost s) (trail s).
  (** R3Stretcher.cpp:266-279; the map as its entries in ascending order *)
  Definition setKeyFrameMap (s : eng) (m : list (Z * Z)) : eng :=
    if realTime E then s else match mode s with Processing | Finished => s | _ => withKeys s m end.

  Definition withLastKey (s : eng) (k : Z) : eng :=
    Eng (timeRatio s) (pitchScale s) (res s) (inhop s) (prevInhop s) (prevOuthop s) (startSkip s) (studied s) (supplied s) (target s) (consumed s) k (totalOut s) (keys s) (mode s)
      (inFill s) (inSize s) (outFill s) (outSize s) (accFill s) (calculator s) (lost s) (trail s).
  Definition upper_bound (k : Z) (m : list (Z * Z)) : option (Z * Z) := head (filter (fun e => (k <? e.1) = true) m).
  Definition quotient (a b : Z) : dbl :=                 (* of two non-negative ints as doubles *)
    if b =? 0 then (if a =? 0 then NaN else Inf true) else Fin (inject_Z a / inject_Z b).
  (** R3Stretcher.cpp:412-491 *)
  Definition updateRatioFromMap (s : eng) : eng :=
    match keys s with
    | [] => s
    | (k0, v0) :: _ =>
        if consumed s =? 0 then withLastKey (calculateHop s (quotient v0 k0) (Fin (pitchScale s))) 0 else
        match upper_bound (lastKey s) (keys s) with
        | None => s
        | Some (a0, b0) =>
            if a0 <=? consumed s then
              let '(a1, b1) := match upper_bound (consumed s) (keys s) with Some e => e | None => (studied s, target s) end in
              let ratio := if a0 <? a1 then quotient (if b0 <? b1 then b1 - b0 else 1) (a1 - a0) else Fin 1 in
              withLastKey (calculateHop s ratio (Fin (pitchScale s))) a0
            else s
        end
    end.

  Definition withMode (s : eng) (m : emode) : eng :=
    Eng (timeRatio s) (pitchScale s) (res s) (inhop s) (prevInhop s) (prevOuthop s) (startSkip s) (studied s) (supplied s) (target s) (consumed s) (lastKey s) (totalOut s) (keys s) m
      (inFill s) (inSize s) (outFill s) (outSize s) (accFill s) (calculator s) (lost s) (trail s).
  Definition withDurations (s : eng) (st su ta : Z) : eng :=
    Eng (timeRatio s) (pitchScale s) (res s) (inhop s) (prevInhop s) (prevOuthop s) (startSkip s) st su ta (consumed s) (lastKey s) (totalOut s) (keys s) (mode s)
      (inFill s) (inSize s) (outFill s) (outSize s) (accFill s) (calculator s) (lost s) (trail s).
  (** R3Stretcher.cpp:586-607 *)
  Definition study (s : eng) (n : Z) : eng :=
    if realTime E then s else
    match mode s with
    | Processing | Finished => s
    | JustCreated => withMode (withDurations s n (supplied s) (target s)) Studying
    | Studying => withDurations s (studied s + n) (supplied s) (target s)
    end.
  (** R3Stretcher.cpp:609-613 *)
  Definition setExpected (s : eng) (n : Z) : eng := withDurations s (studied s) n (target s).

  Definition withIn (s : eng) (fill size : Z) : eng :=
    Eng (timeRatio s) (pitchScale s) (res s) (inhop s) (prevInhop s) (prevOuthop s) (startSkip s) (studied s) (supplied s) (target s) (consumed s) (lastKey s) (totalOut s) (keys s) (mode s)
      fill size (outFill s) (outSize s) (accFill s) (calculator s) (lost s) (trail s).
  Definition withOut (s : eng) (fill size : Z) : eng :=
    Eng (timeRatio s) (pitchScale s) (res s) (inhop s) (prevInhop s) (prevOuthop s) (startSkip s) (studied s) (supplied s) (target s) (consumed s) (lastKey s) (totalOut s) (keys s) (mode s)
      (inFill s) (inSize s) fill size (accFill s) (calculator s) (lost s) (trail s).
  Definition withSkip (s : eng) (k : Z) : eng :=
    Eng (timeRatio s) (pitchScale s) (res s) (inhop s) (prevInhop s) (prevOuthop s) k (studied s) (supplied s) (target s) (consumed s) (lastKey s) (totalOut s) (keys s) (mode s)
      (inFill s) (inSize s) (outFill s) (outSize s) (accFill s) (calculator s) (lost s) (trail s).
  Definition withRes (s : eng) (r : option R) : eng :=
    Eng (timeRatio s) (pitchScale s) r (inhop s) (prevInhop s) (prevOuthop s) (startSkip s) (studied s) (supplied s) (target s) (consumed s) (lastKey s) (totalOut s) (keys s) (mode s)
      (inFill s) (inSize s) (outFill s) (outSize s) (accFill s) (calculator s) (lost s) (trail s).
  Definition withCalc (s : eng) (c : Calculator.Model.calc) : eng :=
    Eng (timeRatio s) (pitchScale s) (res s) (inhop s) (prevInhop s) (prevOuthop s) (startSkip s) (studied s) (supplied s) (target s) (consumed s) (lastKey s) (totalOut s) (keys s) (mode s)
      (inFill s) (inSize s) (outFill s) (outSize s) (accFill s) c (lost s) (trail s).

  (** R3Stretcher.cpp:665-706, the arithmetic of both; RingBuffer::resized keeps what is unread (C04) *)
  Definition grown (required fill size : Z) : Z :=
    let ws := size - fill in
    if required <? ws then size else Z.max (size - ws + required) (size * 2).
  Definition ensureInbuf (s : eng) (required : Z) : eng := withIn s (inFill s) (grown required (inFill s) (inSize s)).
  Definition ensureOutbuf (s : eng) (required : Z) : eng := withOut s (outFill s) (grown required (outFill s) (outSize s)).
  (** R3Stretcher.cpp:643-657 *)
  Definition setMaxProcessSize (s : eng) (requested : Z) : eng :=
    let n := if processLimit <? requested then processLimit else requested in
    ensureOutbuf (ensureInbuf s (n * 2)) (n * 8).

  (** R3Stretcher.cpp:965-986: the output hop of all the frames of one call of consume *)
  Definition outhopFor (s : eng) : Z * Calculator.Model.calc :=
    let eff := (1 / pitchScale s)%Q in
    let eff := match res s with Some r => reff RS r eff | None => eff end in
    let '(o, c) := Calculator.Model.calculateSingle (calculator s) (timeRatio s) eff 1 (inhop s) (longestFft E) (longestFft E) true in
    (if o <? 1 then 1 else o, c).

  (** R3Stretcher.cpp:1036-1160 (with synthesiseChannel 1634-1667): one frame, when [readSpace] was there *)
  Definition hop (s : eng) (final : bool) (ih outhop readSpace : Z) : option eng :=
    let s := ensureOutbuf s outhop in
    if longestFft E <? outhop then None else
    let acc := if readSpace =? 0 then (if outhop <? accFill s then accFill s - outhop else 0) else longestFft E in
    let '(count, r) :=
      match (resampling s).2, res s with
      | true, Some r =>
          let '(n, r) := rres RS r (hopBuffer E) outhop (1 / pitchScale s)%Q (final && (readSpace <? ih) && (acc <=? outhop)) in (n, Some r)
      | _, r => (outhop, r)
      end in
    let writeCount := if negb (realTime E) && (0 <? target s) && (target s <? totalOut s + count) then target s - totalOut s else count in
    let advance := if readSpace <? ih then readSpace else ih in
    let written := Z.min writeCount (outSize s - outFill s) in
    let outFill1 := outFill s + written in
    let '(outFill2, skip, total) :=
      if 0 <? startSkip s then let k := Z.min (startSkip s) outFill1 in (outFill1 - k, startSkip s - k, outFill1 - k)
      else (outFill1, startSkip s, totalOut s + writeCount) in
    Some (Eng (timeRatio s) (pitchScale s) r (inhop s) ih outhop skip (studied s) (supplied s) (target s) (consumed s + advance) (lastKey s) total (keys s) (mode s)
      (inFill s - advance) (inSize s) outFill2 (outSize s) acc (calculator s) (lost s + (writeCount - written)) ((advance, outhop, count) :: trail s)).
  (** R3Stretcher.cpp:1004-1163, the loop; the hops are those of the start of consume *)
  Fixpoint consumeLoop (fuel : nat) (s : eng) (final : bool) (ih outhop : Z) : option eng :=
    match fuel with
    | O => None
    | S fuel =>
        let readSpace := inFill s in
        if (readSpace <? windowSource E) && (negb final || ((readSpace =? 0) && (accFill s =? 0))) then Some s
        else s ← hop s final ih outhop readSpace; consumeLoop fuel s final ih outhop
    end.
  (** R3Stretcher.cpp:951-1164.  Each frame advances by at least one, or drains the accumulator. *)
  Definition consume (s : eng) (final : bool) : option eng :=
    let ih := inhop s in
    let '(outhop, c) := outhopFor s in
    consumeLoop (Z.to_nat (inFill s + longestFft E + 1)) (withCalc s c) final ih outhop.

  (** R3Stretcher.cpp:776-859: the loop over the input of one call *)
  Fixpoint feed (fuel : nat) (s : eng) (before : bool) (n inputIx : Z) (final : bool) : option eng :=
    match fuel with
    | O => None
    | S fuel =>
        if n <=? inputIx then Some s else
        let remaining := n - inputIx in
        s ← (if inSize s - inFill s =? 0 then consume s false else Some s);
        let s := ensureInbuf s remaining in
        let ws := inSize s - inFill s in
        '(s, took) ←
          (match before, res s with
           | true, Some r =>
               let cap := Z.min ws (hopBuffer E) in
               let take := Z.min remaining (Qfloor (inject_Z cap * pitchScale s)) in
               let take := if take =? 0 then 1 else take in
               let '(got, r) := rres RS r cap take (1 / pitchScale s)%Q (final && (n <=? inputIx + take)) in
               Some (withIn (withRes s (Some r)) (inFill s + Z.min got ws) (inSize s), take)
           | _, _ => let take := Z.min ws remaining in Some (withIn s (inFill s + take) (inSize s), take)
           end);
        s ← consume s (final && (n <=? inputIx + took));
        feed fuel s before n (inputIx + took) final
    end.
  (** R3Stretcher.cpp:725-772: offline, the target, the key frames and the padding *)
  Definition prepareOffline (s : eng) : eng :=
    if realTime E then s else
    let s := match mode s with
             | Studying => withDurations s (studied s) (supplied s) (cround (inject_Z (studied s) * timeRatio s))
             | JustCreated => if supplied s =? 0 then s else withDurations s (studied s) (supplied s) (cround (inject_Z (supplied s) * timeRatio s))
             | _ => s
             end in
    let s := updateRatioFromMap s in
    match mode s with
    | JustCreated | Studying =>
        let s := match res s with None => if Qeq_bool (pitchScale s) 1 then s else withRes s (Some (rnew RS)) | _ => s end in
        let pad := windowSource E / 2 in
        let s := ensureInbuf s pad in
        let s := withIn s (inFill s + Z.min pad (inSize s - inFill s)) (inSize s) in
        withSkip s (cround (inject_Z pad / pitchScale s))
    | _ => s
    end.
  (** R3Stretcher.cpp:708-875; nothing when finished *)
  Definition process (s : eng) (samples : Z) (final : bool) : option eng :=
    match mode s with
    | Finished => Some s
    | _ =>
        let n := if processLimit <? samples then processLimit else samples in
        let s := prepareOffline s in
        s ← (if (n =? 0) && final then consume s true else feed (Z.to_nat (n + 1)) s (resampling s).1 n 0 final);
        Some (withMode s (if final then Finished else Processing))
    end.
  (** R3Stretcher.cpp:877-886 *)
  Definition available (s : eng) : Z := if outFill s =? 0 then match mode s with Finished => -1 | _ => 0 end else outFill s.
  (** R3Stretcher.cpp:888-921 *)
  Definition retrieve (s : eng) (n : Z) : eng * Z := let got := Z.min n (outFill s) in (withOut s (outFill s - got) (outSize s), got).
  (** R3Stretcher.cpp:615-641 *)
  Definition samplesRequired (s : eng) : Z :=
    if negb (available s =? 0) then 0 else
    if inFill s <? windowSource E then
      let req := windowSource E - inFill s in
      if (resampling s).1 then Qceiling (inject_Z req * pitchScale s) else req
    else 0.
  (** R3Stretcher.cpp:551-584 and R3Stretcher.h:249-266; the sizes of the buffers stay *)
  Definition reset (s : eng) : eng :=
    setRatios (Eng (timeRatio s) (pitchScale s) (rreset RS <$> res s) 1 1 1 0 0 0 0 0 0 0 [] JustCreated
      0 (inSize s) 0 (outSize s) 0 (Calculator.Model.reset (calculator s)) 0 []) (timeRatio s) (pitchScale s).

  (** A session: calls, with the number of frames retrieve returned. *)
  Inductive op := TimeRatio (x : dbl) | PitchScale (x : dbl) | KeyFrames (m : list (Z * Z)) | Study (n : Z) | Expected (n : Z) | MaxProcess (n : Z)
                | Process (n : Z) (final : bool) | Retrieve (n : Z) | Reset.
  Definition step (s : eng) (o : op) : option (eng * Z) :=
    match o with
    | TimeRatio x => Some (setTimeRatio s x, 0) | PitchScale x => Some (setPitchScale s x, 0) | KeyFrames m => Some (setKeyFrameMap s m, 0)
    | Study n => Some (study s n, 0) | Expected n => Some (setExpected s n, 0) | MaxProcess n => Some (setMaxProcessSize s n, 0)
    | Process n f => s ← process s n f; Some (s, 0) | Retrieve n => Some (retrieve s n) | Reset => Some (reset s, 0)
    end.
  Fixpoint run (s : eng) (l : list op) : option (eng * Z) :=
    match l with [] => Some (s, 0) | o :: l => '(s, a) ← step s o; '(s, b) ← run s l; Some (s, a + b) end.
End Engine.
