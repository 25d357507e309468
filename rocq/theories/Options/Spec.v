(** What the documentation of the options promises (rubberband/RubberBandStretcher.h:730-773),
    bit by bit. *)
From stdpp Require Import prelude.
From Coq Require Import ZArith.
From Verif Require Import Options.Model.
Local Open Scope Z_scope.

(** The bits of each group of options. *)
Definition group (a : call) : list Z :=
  match a with
  | Transients _ => [8; 9] | Detector _ => [10; 11] | Phase _ => [13] | Formant _ => [24] | Pitch _ => [25; 26] | Reconfigured => []
  end.
Definition argument (a : call) : Z :=
  match a with Transients o | Detector o | Phase o | Formant o | Pitch o => o | Reconfigured => 0 end.
(** When a call may have an effect, given the options of construction: bit 29 is the finer
    engine, bit 0 real time. *)
Definition permitted (w : Z) (a : call) : bool :=
  match a with
  | Formant _ => true
  | Phase _ => negb (Z.testbit w 29)
  | _ => negb (Z.testbit w 29) && Z.testbit w 0
  end.
(** Bit [i] after construction with [w] and the calls [l]. *)
Fixpoint wanted (w : Z) (i : Z) (now : bool) (l : list call) : bool :=
  match l with
  | [] => now
  | a :: l => wanted w i (if permitted w a && bool_decide (i ∈ group a) then Z.testbit (argument a) i else now) l
  end.
(** The detector the two bits name. *)
Definition named (percussive soft : bool) : detector :=
  if percussive then PercussiveDetector else if soft then SoftDetector else CompoundDetector.
Definition isDetector (a : call) : bool := match a with Detector _ => true | _ => false end.
