(** What the boundaries of a segmentation mean. *)
From stdpp Require Import prelude list numbers.
From Coq Require Import ZArith QArith.
From Verif Require Import Filters.Spec Finer.SegmenterModel.
Local Open Scope Z_scope.

(** [i] is the least (greatest) bin from 1 up (below [b]) with the property. *)
Definition least (l : list Z) (P : Z -> Prop) (i : nat) : Prop :=
  (1 <= i)%nat /\ (exists c, l !! i = Some c /\ P c) /\ forall j c, (1 <= j < i)%nat -> l !! j = Some c -> ~ P c.
Definition greatest (l : list Z) (b : nat) (P : Z -> Prop) (i : nat) : Prop :=
  (1 <= i < b)%nat /\ (exists c, l !! i = Some c /\ P c) /\ forall j c, (i < j < b)%nat -> l !! j = Some c -> ~ P c.
Definition none (l : list Z) (b : nat) (P : Z -> Prop) : Prop := forall j c, (1 <= j < b)%nat -> l !! j = Some c -> ~ P c.

(** The frequency of a bin; the classes as numbers *)
Definition hertz (b fft : Z) (rate : Q) : Q := (inject_Z b * rate / inject_Z fft)%Q.
Definition code (c : classification) : Z := match c with Harmonic => 0 | Percussive => 1 | Residual => 2 end.
(** Percussive up to the first other bin. *)
Definition below_ok (fft : Z) (rate : Q) (l : list Z) (f : Q) : Prop :=
  (none l (length l) (fun c => c <> 1) /\ f = 0%Q) \/
  exists i, least l (fun c => c <> 1) i /\
    f = if bool_decide (i = 1%nat /\ l !! 0%nat <> Some 1) then 0%Q else hertz (Z.of_nat i) fft rate.
(** Residual down to the highest other bin; percussive from there down to the next bin that is
    not. *)
Definition above_ok (fft : Z) (rate : Q) (l : list Z) (f1 f2 : Q) : Prop :=
  (none l (length l) (fun c => c <> 2) /\ f1 = (rate / 2)%Q /\ f2 = (rate / 2)%Q) \/
  exists i c, greatest l (length l) (fun c => c <> 2) i /\ l !! i = Some c /\ f2 = hertz (Z.of_nat i) fft rate /\
    ((c <> 1 /\ f1 = f2) \/
     (c = 1 /\ ((none l i (fun c => c <> 1) /\ f1 = 0%Q) \/
                exists j, greatest l i (fun c => c <> 1) j /\ f1 = hertz (Z.of_nat j) fft rate))).
(** The segmentation of one frame of classes: there are smoothed classes, the most common around
    each bin (C10 says where the filter does not give the most common one), that the boundaries
    follow; they lie in the spectrum. *)
Definition segmented (n : nat) (fft : Z) (rate : Q) (cls : list classification) (s : segmentation) : Prop :=
  exists l, length l = length cls /\
    (forall i, (i < length cls)%nat -> exists x, l !! i = Some x /\ in_range 3 x /\
      (array_harmless n (map code cls) -> is_mode (centred n (map code cls) i) x)) /\
    below_ok fft rate l (percussiveBelow s) /\ above_ok fft rate l (percussiveAbove s) (residualAbove s) /\
    (0 <= percussiveBelow s /\ percussiveBelow s <= rate / 2 /\ 0 <= percussiveAbove s /\ percussiveAbove s <= residualAbove s /\
     residualAbove s <= rate / 2 /\ (percussiveAbove s == 0 \/ percussiveBelow s <= percussiveAbove s))%Q.
