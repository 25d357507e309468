(** Model of the magnitudes of one channel of the finer engine from frame to frame: the
    readahead, the guide and the energy held back before a kick (src/finer/R3Stretcher.cpp:
    analyseChannel 1207-1425, adjustPreKick 1526-1559, the copy of synthesiseChannel 1577-1580).
    In scope: several windows, readahead in use, a steady input hop, no formant preservation.
    The magnitudes as the FFTs return them (unscaled) and the segmentation of the readahead are
    inputs. *)
From stdpp Require Import prelude list numbers.
From Coq Require Import ZArith QArith.
From Verif Require Import Base.Arith Finer.PeakModel Finer.SegmenterModel Finer.GuideModel.
Local Open Scope Z_scope.

(** One frame: unscaled magnitudes of the frame itself (used in the first frame only) and of the
    readahead frame at the classification FFT size, of the frame at the longest size, the
    segmentation of the readahead; hop and ratio. *)
Record kframe := KFrame {
  rawNow : list Q; rawNext : list Q; rawLong : list Q; newSegm : segmentation;
  kratio : Q; kprevOuthop : Z; kunity : Z
}.
Record kstate := KState {
  guid : guidance; readaheadMag : list Q; haveReadahead : bool;
  classifyMag : list Q; classifyPrev : list Q; longPrev : list Q; pendingKick : list Q;
  segPrev : segmentation; segNow : segmentation; segNext : segmentation
}.
Definition noSegm : segmentation := Segmentation 0 0 0.
(** R3Stretcher.h:164-172, 226-247 *)
Definition kstate0 (g : guide) : kstate :=
  let z := repeat 0%Q (Z.to_nat (cfft g / 2 + 1)) in let zl := repeat 0%Q (Z.to_nat (longest g / 2 + 1)) in
  KState guidance0 z false z z zl zl noSegm noSegm noSegm.

Definition scaleBy (n : Z) (m : list Q) : list Q := map (fun x => (x / inject_Z n)%Q) m.
(** R3Stretcher.cpp:1397: v_mean over bins 1 to n/2 *)
Definition meanOf (n : Z) (m : list Q) : Q := (foldr Qplus 0 (take (Z.to_nat (n / 2)) (drop 1 m)) / inject_Z (n / 2))%Q.

(** R3Stretcher.cpp:1541-1547 for the bins [is] *)
Fixpoint holdBack (is : list Z) (mag prev pend : list Q) : option (list Q * list Q) :=
  match is with
  | [] => Some (mag, pend)
  | i :: is =>
      x ← at_ mag i; y ← at_ prev i; let diff := (x - y)%Q in
      '(mag, pend) ← (if ltq 0 diff then p ← put pend i diff; m ← put mag i (x - diff)%Q; Some (m, p) else Some (mag, pend));
      holdBack is mag prev pend
  end.
(** R3Stretcher.cpp:1554-1557 *)
Fixpoint release (is : list Z) (mag pend : list Q) : option (list Q * list Q) :=
  match is with
  | [] => Some (mag, pend)
  | i :: is =>
      x ← at_ mag i; d ← at_ pend i;
      m ← put mag i (x + d)%Q; p ← put pend i 0%Q;
      release is m p
  end.
(** The bins from [f0] to [f1], both ends included (R3Stretcher.cpp:1537-1541, 1550-1554) *)
Definition binsOf (rate : Q) (fft : Z) (r : range) : list Z :=
  let from := binForFrequency (rf0 r) fft rate in let to := binForFrequency (rf1 r) fft rate in seqZ from (to - from + 1).
(** R3Stretcher.cpp:1526-1559; note the range of the pre-kick in both branches *)
Definition adjustPreKick (g : guide) (s : guidance) (mag prev pend : list Q) : option (list Q * list Q) :=
  if singleWindow g then Some (mag, pend) else
  let fft := fftSize (band0 s) in
  if present (preKick s) then holdBack (binsOf (rate g) fft (preKick s)) mag prev pend
  else if present (kick s) then release (binsOf (rate g) fft (preKick s)) mag pend
  else Some (mag, pend).

(** One frame; the answer is the magnitudes of the longest scale that are synthesised. *)
Definition kstep (g : guide) (s : kstate) (a : kframe) : option (kstate * list Q) :=
  (* 1241-1283: the current magnitudes are those of the last readahead; the readahead is not scaled, the current ones are *)
  let now := if haveReadahead s then scaleBy (cfft g) (readaheadMag s) else scaleBy (cfft g) (rawNow a) in
  let ahead := rawNext a in
  let long := scaleBy (longest g) (rawLong a) in
  (* 1360-1362 *)
  let sp := segNow s in let sn := segNext s in let sx := newSegm a in
  gd ← updateGuidance g (Frame (kratio a) (kprevOuthop a) now (classifyPrev s) ahead sn sp sx (meanOf (cfft g) now) (kunity a) false false true) (guid s);
  '(mag, pend) ← adjustPreKick g gd long (longPrev s) (pendingKick s);
  Some (KState gd ahead true now now mag pend sp sn sx, mag).
Fixpoint krun (g : guide) (s : kstate) (l : list kframe) : option (kstate * list (list Q)) :=
  match l with [] => Some (s, []) | a :: l => '(s, m) ← kstep g s a; '(s, ms) ← krun g s l; Some (s, m :: ms) end.
