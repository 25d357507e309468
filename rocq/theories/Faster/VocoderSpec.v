(** The R2 engine as a plain function of the whole input (property C66): successive
    windows are analysed, modified and overlap-added, one after another. *)
From stdpp Require Import prelude.
From Coq Require Import ZArith QArith Qround.
From Verif Require Import Base.Arith Faster.Model Faster.OlaSpec.
Local Open Scope Z_scope.

Section Vocoder.
Context {A S R K : Type} (D : dsp A S R K).

(** What the profile says about chunk [k]: how far the phases advance, how far on the next
    frame goes, and whether the phases start afresh.  The last entry serves for all
    chunks after it; without a profile nothing is stretched. *)
Definition entry (P : params) (k : Z) : Z :=
  let n := zlen (increments P) in if n =? 0 then k else Z.min k (n - 1).
Definition phaseAdvance (P : params) (k : Z) : Z :=
  match getZ (increments P) (entry P k) with Some x => Z.abs x | None => increment P end.
Definition advance (P : params) (k : Z) : Z :=
  match getZ (increments P) (entry P k + 1) with Some x => Z.abs x | None => phaseAdvance P k end.
Definition startsAfresh (P : params) (k : Z) : bool :=
  match getZ (increments P) (entry P k) with Some x => (x <? 0) || (entry P k =? 0) | None => false end.

(** Frames and weights of [n] chunks from number [k] on, each with the distance to the next;
    and the state of the analysis afterwards. *)
Fixpoint vocoder (P : params) (s : S) (stream : list A) (k : Z) (n : nat) : list (list A * Z) * list (list A * Z) * S :=
  match n with
  | O => ([], [], s)
  | Datatypes.S n =>
    let '(spectrum, s) := analyse D s (take (Z.to_nat (window P)) (drop (Z.to_nat (k * increment P)) stream)) in
    let si := advance P k in
    let '(frame, s) := modify D s spectrum (phaseAdvance P k) (startsAfresh P k) si in
    let '(fs, ws, s) := vocoder P s stream (k + 1) n in
    ((take (Z.to_nat (window P)) frame, si) :: fs, (take (Z.to_nat (window P)) (shape D si), si) :: ws, s)
  end.

(** How many windows are complete. *)
Definition windows (P : params) (len : Z) : Z := if len <? window P then 0 else (len - window P) / increment P + 1.

(** Everything the chunks of [stream] complete so far give. *)
Definition stretched (P : params) (s : S) (stream : list A) : list A :=
  let '(fs, ws, _) := vocoder P s stream 0 (Z.to_nat (windows P (zlen stream))) in
  ola (add D) (zero D) (one D) (quot D) (layout 0 fs) (layout 0 ws) (span fs).
End Vocoder.
