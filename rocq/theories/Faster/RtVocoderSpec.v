(** The R2 engine in real time as a plain function of what each channel is given (properties
    C66, C77): chunk after chunk, a window of every channel is analysed, the increments are
    decided from all of them together, and every window is modified and overlap-added. *)
From stdpp Require Import prelude.
From Coq Require Import ZArith QArith Qround.
From Verif Require Import Base.Arith Faster.Model Faster.OlaSpec Faster.VocoderSpec Faster.RealTimeRuns.
Local Open Scope Z_scope.

Section RtVocoder.
Context {A S R K : Type} (D : dsp A S R K).

(** One frame for each channel, and the distance from this chunk to the next. *)
Record chunk := Chunk { frames : list (list A); hop : Z }.

(** The first [n] chunks of the streams [x], and the states of the increment calculator and of
    the channels' analysis afterwards. *)
Fixpoint played (P : params) (k : K) (ss : list S) (x : nat -> list A) (n : nat) : list chunk * K * list S :=
  match n with
  | O => ([], k, ss)
  | Datatypes.S n =>
    let '(done, k, ss) := played P k ss x n in
    let spectra := imap (fun i s => analyse D s (take (Z.to_nat (window P)) (drop (Z.to_nat (Z.of_nat n * increment P)) (x i)))) ss in
    let '(p, si, reset, k) := calculate D k (snd <$> spectra) in
    let modified := (fun '(sp, s) => modify D s sp p reset si) <$> spectra in
    (done ++ [Chunk (fst <$> modified) si], k, snd <$> modified)
  end.

(** Frames and weights of channel [i]. *)
Definition framesOf (P : params) (i : nat) (cs : list chunk) : list (list A * Z) :=
  (fun c => (take (Z.to_nat (window P)) (default [] (frames c !! i)), hop c)) <$> cs.
Definition weightsOf (P : params) (cs : list chunk) : list (list A * Z) :=
  (fun c => (take (Z.to_nat (window P)) (shape D (hop c)), hop c)) <$> cs.

(** What channel [i] plays of the first [n] chunks. *)
Definition heard (P : params) (k : K) (ss : list S) (x : nat -> list A) (n i : nat) : list A :=
  let '(cs, _, _) := played P k ss x n in
  ola (add D) (zero D) (one D) (quot D) (layout 0 (framesOf P i cs)) (layout 0 (weightsOf P cs)) (span (framesOf P i cs)).
End RtVocoder.
Arguments Chunk {A}. Arguments frames {A}. Arguments hop {A}.

(** What the calls have given back for channel [i]. *)
Fixpoint returned {A} (rs : list (answer A)) (i : nat) : list A :=
  match rs with
  | [] => []
  | Frames xs :: rs => default [] (xs !! i) ++ returned rs i
  | _ :: rs => returned rs i
  end.
