(** Model of src/finer/BinSegmenter.h.  Doubles are rationals. *)
From stdpp Require Import prelude list numbers.
From Coq Require Import ZArith QArith.
From Verif Require Import RingBuffer.Model Filters.Model.
Local Open Scope Z_scope.

(** BinClassifier.h:39-43 *)
Inductive classification := Harmonic | Percussive | Residual.
(** BinSegmenter.h:40-49 *)
Record segmentation := Segmentation { percussiveBelow : Q; percussiveAbove : Q; residualAbove : Q }.
(** common/mathmisc.h:52-54 *)
Definition frequencyForBin (b : Z) (fftSize : Z) (sampleRate : Q) : Q := inject_Z b * sampleRate / inject_Z fftSize.

(** BinSegmenter.h:73-82 *)
Definition numeric (c : classification) : Z := match c with Harmonic => 0 | Percussive => 1 | Residual => 2 end.

(** BinSegmenter.h:92-103: the loop from bin [i], [first] being m_numeric[0] and [l] m_numeric
    from [i] on *)
Fixpoint belowLoop (fft : Z) (rate : Q) (first : Z) (i : Z) (l : list Z) : Q :=
  match l with
  | [] => 0
  | c :: l =>
      if negb (c =? 1) then
        if (i =? 1) && negb (first =? 1) then 0%Q else frequencyForBin i fft rate
      else belowLoop fft rate first (i + 1) l
  end.
(** BinSegmenter.h:107-130: the loop down to bin 1; [l] is m_numeric[1..i] reversed *)
Fixpoint aboveLoop (fft : Z) (rate : Q) (i : Z) (l : list Z) (f1 f2 : Q) (inPercussive : bool) : Q * Q :=
  match l with
  | [] => (f1, f2)
  | c :: l =>
      if negb inPercussive then
        if c =? 2 then aboveLoop fft rate (i - 1) l f1 f2 inPercussive
        else if c =? 1 then aboveLoop fft rate (i - 1) l f1 (frequencyForBin i fft rate) true
        else (frequencyForBin i fft rate, frequencyForBin i fft rate)
      else
        if negb (c =? 1) then (frequencyForBin i fft rate, f2)
        else aboveLoop fft rate (i - 1) l f1 f2 inPercussive
  end.
(** BinSegmenter.h:92-138, after the filter *)
Definition boundaries (fft : Z) (rate : Q) (l : list Z) : segmentation :=
  let f0 := match l with [] => 0%Q | first :: rest => belowLoop fft rate first 1 rest end in
  let nyquist := (rate / 2)%Q in
  let '(f1, f2) := aboveLoop fft rate (Z.of_nat (length l) - 1) (rev (tail l)) nyquist nyquist false in
  let f1 := if Qeq_bool f1 nyquist && negb (Qle_bool nyquist f2) then 0%Q else f1 in
  Segmentation f0 f1 f2.
(** BinSegmenter.h:68-138; [cls] has binCount entries *)
Definition segment (fft : Z) (rate : Q) (f : hf) (cls : list classification) : option (hf * segmentation) :=
  '(f, l) ← hf_filter f (map numeric cls) true;
  Some (f, boundaries fft rate l).
(** BinSegmenter.h:61-66: the filter on construction *)
Definition newFilter (classFilterLength : nat) : hf := hf_new 3 classFilterLength.
(** A segmenter used on frame after frame. *)
Fixpoint segments (fft : Z) (rate : Q) (f : hf) (frames : list (list classification)) : option (list segmentation) :=
  match frames with
  | [] => Some []
  | cls :: frames => '(f, s) ← segment fft rate f cls; ss ← segments fft rate f frames; Some (s :: ss)
  end.
