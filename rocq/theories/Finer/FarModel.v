(** Model of the frames analysed without readahead, next to those with it, in the terms of
    Finer/KickModel.v.  In scope: several windows, no formant preservation, offline. *)
From stdpp Require Import prelude list numbers.
From Coq Require Import ZArith QArith.
From Verif Require Import Base.Arith Finer.PeakModel Finer.SegmenterModel Finer.GuideModel Finer.KickModel.
Local Open Scope Z_scope.

(** R3Stretcher.cpp:1226-1230, 1280-1335, 1355-1358, 1423-1437, 1526-1559: a frame without
    readahead.  Its magnitudes, and what the classifier made of them, go to the guide as those of
    the frame to come, the ones of the frame before as those of this and of the one before. *)
Definition kstepFar (g : guide) (s : kstate) (a : kframe) : option (kstate * list Q) :=
  let now := scaleBy (cfft g) (rawNow a) in
  let long := scaleBy (longest g) (rawLong a) in
  let sp := segNow s in let sn := segNext s in let sx := newSegm a in
  gd ← updateGuidance g (Frame (kratio a) (kprevOuthop a) (classifyPrev s) (classifyPrev s) now sn sp sx (meanOf (cfft g) now) (kunity a) false false true) (guid s);
  '(mag, pend) ← adjustPreKick g gd long (longPrev s) (pendingKick s);
  Some (KState gd (readaheadMag s) (haveReadahead s) now now mag pend sp sn sx, mag).
(** R3Stretcher.cpp:1222-1223: a readahead that is not used *)
Definition anew (s : kstate) : kstate :=
  KState (guid s) (readaheadMag s) false (classifyMag s) (classifyPrev s) (longPrev s) (pendingKick s) (segPrev s) (segNow s) (segNext s).
(** R3Stretcher.cpp:398-404: readahead below the limit [lim] of the input hop.  [prev] is the hop
    of the frame before. *)
Definition kstepAny (g : guide) (lim prev : Z) (s : kstate) (inhop : Z) (a : kframe) : option (kstate * list Q) :=
  if inhop <? lim then kstep g (if inhop =? prev then s else anew s) a else kstepFar g s a.
(** Frames, each with its input hop; the answer has the hop of the last one. *)
Fixpoint krunAny (g : guide) (lim prev : Z) (s : kstate) (l : list (Z * kframe)) : option (Z * kstate * list (list Q)) :=
  match l with
  | [] => Some (prev, s, [])
  | (h, a) :: l => '(s, m) ← kstepAny g lim prev s h a; '(p, s, ms) ← krunAny g lim h s l; Some (p, s, m :: ms)
  end.
