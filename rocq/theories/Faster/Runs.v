(** Sequences of API calls on one channel of an offline R2 stretcher. *)
From stdpp Require Import prelude.
From Coq Require Import ZArith QArith Qround.
From Verif Require Import Base.Arith Faster.Model.
Local Open Scope Z_scope.

(** process(block, false) and retrieve(n). *)
Inductive call (A : Type) := Process (block : list A) | Retrieve (n : Z).
Arguments Process {A}. Arguments Retrieve {A}.

(** Everything passed to process, in order. *)
Fixpoint inputs {A} (cs : list (call A)) : list A :=
  match cs with [] => [] | Process b :: cs => b ++ inputs cs | Retrieve _ :: cs => inputs cs end.

Section Runs.
Context {A S R K : Type} (D : dsp A S R K).
(** R2Stretcher.cpp:1240-1359 and StretcherProcess.cpp:1267-1284; returns everything retrieved. *)
Fixpoint calls (P : params) (c : channel A S R) (cs : list (call A)) : option (list A * channel A S R) :=
  match cs with
  | [] => Some ([], c)
  | Process b :: cs => c ← process D P c b false false; calls P c cs
  | Retrieve n :: cs =>
    let x := firstn_z n (outbuf c) in
    y ← calls P (set_out c (skipn_z n (outbuf c)) (outCount c)) cs;
    let '(out, c) := (y : list A * channel A S R) in Some (x ++ out, c)
  end.
(** The calls, then process(last, true), then retrieving all there is. *)
Definition wholeOutput (P : params) (c : channel A S R) (cs : list (call A)) (last : list A) : option (list A * channel A S R) :=
  y ← calls P c cs;
  let '(out, c) := (y : list A * channel A S R) in
  c ← process D P c last false true;
  Some (out ++ outbuf c, c).
End Runs.
