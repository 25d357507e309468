(** The rules of a stretcher's life cycle in offline mode, as a client can keep count of them
    (rubberband/RubberBandStretcher.h:559-580, 868-960). *)
From stdpp Require Import prelude.
From Coq Require Import ZArith QArith.
From Verif Require Import Base.Arith Offline.Model.
Local Open Scope Z_scope.

(** How far the client has got. *)
Inductive phase := Idle | Learning | Running | Over.
Definition next {A} (ph : phase) (a : call (A := A)) : phase :=
  match a, ph with
  | Reset, _ => Idle
  | Study _ _, Idle => Learning
  | Process _ _, Over => Over
  | Process _ final, _ => if final : bool then Over else Running
  | _, _ => ph
  end.

(** Calls that must do nothing: ratios once study or process has begun, the key-frame map
    during processing, study after process, process after the last block. *)
Definition refused {A} (ph : phase) (a : call (A := A)) : bool :=
  match a, ph with
  | (SetTime _ | SetPitch _), (Learning | Running) => true
  | SetMap _, Running => true
  | Study _ _, (Running | Over) => true
  | Process _ _, Over => true
  | _, _ => false
  end.
(** Only the calls that may do something, and the answers to them. *)
Fixpoint heeded {A} (ph : phase) (l : list (call (A := A))) : list (call (A := A)) :=
  match l with
  | [] => []
  | a :: l => if refused ph a then heeded (next ph a) l else a :: heeded (next ph a) l
  end.
Fixpoint answered {A B} (ph : phase) (l : list (call (A := A))) (rs : list B) : list B :=
  match l, rs with
  | a :: l, r :: rs => if refused ph a then answered (next ph a) l rs else r :: answered (next ph a) l rs
  | _, _ => []
  end.

(** What a ratio that is not positive counts as. *)
Definition sensible (q : Q) : Q := if Qle_bool q 0 then 1%Q else q.
(** What the getters must say; [None] for other calls. *)
Fixpoint told {A} (ph : phase) (t p : Q) (l : list (call (A := A))) : list (option Q) :=
  match l with
  | [] => []
  | a :: l =>
    let r := match a with GetTime => Some t | GetPitch => Some p | _ => None end in
    let t := match a with SetTime q => if refused ph a then t else sensible q | _ => t end in
    let p := match a with SetPitch q => if refused ph a then p else sensible q | _ => p end in
    r :: told (next ph a) t p l
  end.
Definition agrees {A} (x : option Q) (r : answer (A := A)) : Prop :=
  match x with Some q => exists q', r = Ratio q' /\ (q' == q)%Q | None => True end.
