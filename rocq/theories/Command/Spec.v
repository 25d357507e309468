(** What a user of the command-line program expects. *)
From stdpp Require Import prelude list numbers.
From Coq Require Import ZArith QArith Qround Qabs Qminmax.
From Verif.Command Require Import Model.
From stdpp Require Import list numbers.
Local Open Scope Z_scope.

(** The frames of the input file as they are given to the stretcher for processing. *)
Definition given (l : list call) : list frame :=
  flat_map (fun c => match c with Process b _ => b | _ => [] end) l.
Definition studied (l : list call) : list frame :=
  flat_map (fun c => match c with Study b _ => b | _ => [] end) l.
(** The last call says that it is the last, and no other does. *)
Definition endsOnce (l : list call) : Prop :=
  exists l' b, l = l' ++ [Process b true] /\ Forall (fun c => match c with Process _ f => f = false | _ => True end) l'.

(** Each frame given, with the pitch in force at that moment *)
Fixpoint sung (p : Q) (l : list call) : list (Q * frame) :=
  match l with
  | [] => []
  | Pitch s :: l => sung s l
  | Process b _ :: l => (pair p <$> b) ++ sung p l
  | _ :: l => sung p l
  end.
(** The pitch that frame [i] should have: that of the last line of the map at or before it. *)
Fixpoint pitchAt (shift p : Q) (m : list (Z * Q)) (i : Z) : Q :=
  match m with
  | [] => p
  | (f, x) :: m => if decide (f <= i) then pitchAt shift (shift * x) m i else p
  end.
(** A std::map: keys ascending *)
Fixpoint ascending (lo : Z) (m : list (Z * Q)) : Prop :=
  match m with [] => True | (f, _) :: m => lo <= f /\ ascending (f + 1) m end.

(** The stretcher's frames have a sample for each channel. *)
Definition shaped (ch : nat) (D : device) : Prop :=
  forall l, Forall (fun f => length f = ch) (output D l) /\ Forall (fun f => length f = ch) (late D l).

(** All it has put out in the course of these calls *)
Fixpoint sofar (D : device) (past l : list call) : list frame :=
  match l with
  | [] => []
  | c :: l => (match c with Process _ _ => output D (past ++ [c]) | _ => [] end) ++ sofar D (past ++ [c]) l
  end.

Definition times (g : Q) (l : list frame) : list frame := map (map (fun x => (g * x)%Q)) l.
Definition inScale (x : Q) : Prop := (- (1) <= x <= 1)%Q.

(** The calls made before the first change of pitch and the first process call. *)
Fixpoint setup (l : list call) : list call :=
  match l with [] => [] | Process _ _ :: _ | Pitch _ :: _ => [] | c :: l => c :: setup l end.
(** All that the stretcher puts out in the course of a session, less the start delay that it states
    when it has been set up. *)
Definition sound (D : device) (l : list call) : list frame := drop (Z.to_nat (startDelay D (setup l))) (sofar D [] l).
(** The header of the input file does not understate its length. *)
Definition honest (j : job) : Prop := Z.of_nat (length (content j)) <= count j.
(** The length asked for *)
Definition ideal (j : job) : nat := Z.to_nat (Qfloor (inject_Z (Z.of_nat (length (content j))) * ratio j)).
(** Multiplied by the gain; cut off at full scale if clipping is ignored *)
Definition scaled (ig : bool) (g : Q) (l : list frame) : list frame :=
  map (map (fun x => if ig then Qmin 1 (Qmax (- (1)) (g * x)) else g * x)%Q) l.
(** Samples and frames that are the same numbers *)
Definition same (a b : list frame) : Prop := Forall2 (Forall2 Qeq) a b.
(** A sample that can be written as it is *)
Definition quiet (x : Q) : Prop := (- (1) <= x < 1)%Q.
