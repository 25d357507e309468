(** What the onset detectors should report, from the frames alone. *)
From stdpp Require Import prelude list numbers sorting.
From Coq Require Import ZArith QArith.
From Verif.Curves Require Import Model.
From stdpp Require Import list numbers list_numbers sorting.
Local Open Scope Z_scope.

(** Magnitudes are in units of 10^-12. *)
Definition level (mag : list Z) (n : Z) : Z := default 0 (mag !! Z.to_nat n).

(** A bin rose: by 10^0.15 or more, or from (at most 10^-8) nothing to something. *)
Definition risen (prev mag : list Z) (n : Z) : Prop :=
  (10 ^ 4 < level prev n /\ level prev n * 14125375446227544 <= level mag n * 10 ^ 16) \/
  (level prev n <= 10 ^ 4 < level mag n).
Global Instance risen_dec prev mag n : Decision (risen prev mag n).
Proof. unfold risen. apply _. Defined.

(** The share of the bins 1 .. sz with something in them that rose. *)
Definition percussion (sz : Z) (prev mag : list Z) : Q :=
  let up := length (filter (risen prev mag) (seqZ 1 sz)) in
  let some := length (filter (fun n => 10 ^ 4 < level mag n) (seqZ 1 sz)) in
  if decide (some = O) then 0%Q else (inject_Z (Z.of_nat up) / inject_Z (Z.of_nat some))%Q.

(** High-frequency content of one frame *)
Definition sum (l : list Z) : Z := foldr Z.add 0 l.
Definition highs (sz : Z) (mag : list Z) : Z := sum ((fun n => level mag n * n) <$> seqZ 0 (sz + 1)).

(** The value of rank pct% in a list, and the 19 latest up to place i. *)
Definition ranked (pct : nat) (l : list Z) : Z :=
  default 0 (merge_sort Z.le l !! ((length l - 1) * pct / 100)%nat).
Definition recent (xs : list Z) (i : nat) : list Z := drop (S i - 19) (take (S i) xs).
Definition changes (hs : list Z) : list Z := zip_with Z.sub hs (0 :: hs).
Definition nth0 (xs : list Z) (i : nat) : Z := default 0 (xs !! i).

(** How strong the rise is at frame i *)
Definition strength (hs : list Z) (i : nat) : Z :=
  if decide (ranked 85 (recent hs i) < nth0 hs i)
  then nth0 (changes hs) i - ranked 90 (recent (changes hs) i) else 0.
Definition before (hs : list Z) (i : nat) : Z := match i with O => 0 | S j => strength hs j end.
Definition falls (hs : list Z) (i : nat) : Prop := strength hs i < before hs i.
(** A soft onset: the strength falls from something positive for the first time in five frames. *)
Definition soft (hs : list Z) (i : nat) : Prop :=
  (4 <= i)%nat /\ falls hs i /\ 0 < before hs i /\
  Forall (fun j => ~ falls hs (i - j)) [1; 2; 3; 4]%nat.
Global Instance falls_dec hs i : Decision (falls hs i).
Proof. unfold falls. apply _. Defined.
Global Instance soft_dec hs i : Decision (soft hs i).
Proof. unfold soft. apply _. Defined.

Definition frameAt (frames : list (list Z)) (i : nat) : list Z := default [] (frames !! i).
Definition frameBefore (frames : list (list Z)) (i : nat) : list Z :=
  match i with O => [] | S j => frameAt frames j end.

Definition softly (hs : list Z) (i : nat) : Q := if decide (soft hs i) then (1 # 2)%Q else 0%Q.
Definition louder (p s : Q) : Q := if Qlt_le_dec (35 # 100) p then if Qlt_le_dec s p then p else s else s.

Definition reported (t : kind) (sz : Z) (frames : list (list Z)) (i : nat) : Q :=
  let p := percussion sz (frameBefore frames i) (frameAt frames i) in
  let s := softly (highs sz <$> frames) i in
  match t with
  | PercussiveDetector => p
  | SoftDetector => s
  | CompoundDetector => louder p s
  end.

(** The bins up to 16 kHz of a transform of fft points *)
Definition heard (rate fft : Z) : Z := if decide (rate = 0) then 0 else Z.min (16000 * fft / rate) (fft / 2).

(** Frames have the fft/2 + 1 bins of the size in force. *)
Definition wide (fft : Z) (mag : list Z) : Prop := fft / 2 + 1 <= Z.of_nat (length mag).
Fixpoint fitting (fft : Z) (os : list op) : Prop :=
  match os with
  | [] => True
  | Frame mag :: os => wide fft mag /\ fitting fft os
  | SetFft fft :: os => 0 < fft /\ fitting fft os
  | _ :: os => fitting fft os
  end.
Definition sizeAfter (fft : Z) (os : list op) : Z :=
  fold_left (fun f o => match o with SetFft f => f | _ => f end) os fft.
