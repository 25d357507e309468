(** What must become of the energy held back ahead of a drum hit. *)
From stdpp Require Import prelude list numbers.
From Coq Require Import ZArith QArith.
From Verif Require Import Base.Arith Finer.PeakModel Finer.SegmenterModel Finer.GuideModel Finer.KickModel.
Local Open Scope Z_scope.

(** Frames as the stretcher makes them: magnitudes of all bins, the segmentation within the
    spectrum (which is C50). *)
Definition full (n : Z) (m : list Q) : Prop := Z.of_nat (length m) = n / 2 + 1 /\ Forall (fun x => 0 <= x)%Q m.
Definition kframe_ok (g : guide) (a : kframe) : Prop :=
  full (cfft g) (rawNow a) /\ full (cfft g) (rawNext a) /\ full (longest g) (rawLong a) /\
  (0 <= percussiveBelow (newSegm a) /\ percussiveBelow (newSegm a) <= rate g / 2)%Q.
(** The magnitudes of the frame at the longest and the classification size, scaled. *)
Definition incoming (g : guide) (a : kframe) : list Q := map (fun x => (x / inject_Z (longest g))%Q) (rawLong a).
Definition current (g : guide) (s : kstate) (a : kframe) : list Q := map (fun x => (x / inject_Z (cfft g))%Q) (if haveReadahead s then readaheadMag s else rawNow a).
(** One bin in one frame: [x] comes in, [d] is held from before, [y] is synthesised, [e] held after. *)
Definition kept (x d y e : Q) : Prop := (y + e == x + d)%Q.
Definition lost (x y e : Q) : Prop := (y + e == x)%Q.
(** [P] of incoming, held before, synthesised and held after, at every bin *)
Definition every_bin (P : Z -> Q -> Q -> Q -> Q -> Prop) (x d y e : list Q) : Prop :=
  length d = length x /\ length y = length x /\ length e = length x /\
  forall i a b, at_ x i = Some a -> at_ d i = Some b -> exists u v, at_ y i = Some u /\ at_ e i = Some v /\ P i a b u v.
