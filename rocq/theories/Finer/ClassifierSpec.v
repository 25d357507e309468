(** What the classification of a frame is, from the frames alone. *)
From stdpp Require Import prelude list numbers.
From Coq Require Import ZArith QArith.
From Verif Require Import Filters.Spec Finer.SegmenterModel Finer.ClassifierModel.
Local Close Scope Q_scope.
Local Open Scope nat_scope.

Definition median (l : list Z) (x : Z) : Prop := kth_smallest l ((length l - 1) / 2) x.
(** The last [n] values of bin [i]. *)
Definition lastValues (n i : nat) (fs : list (list Z)) : list Z :=
  drop (length fs - n) (map (fun f => nth i f 0%Z) fs).
(** Harmonic if the median over time exceeds the other by more than its threshold, else percussive if
    it is the other way round. *)
Definition exceeds (P : parameters) (x y : Z) (thr : Q) : Prop := (thr < inject_Z x / inject_Z (y + eps P))%Q.
Definition verdict (P : parameters) (h v : Z) (c : classification) : Prop :=
  (c = Harmonic /\ exceeds P h v (harmonicThreshold P)) \/
  (c = Percussive /\ ~ exceeds P h v (harmonicThreshold P) /\ exceeds P v h (percussiveThreshold P)) \/
  (c = Residual /\ ~ exceeds P h v (harmonicThreshold P) /\ ~ exceeds P v h (percussiveThreshold P)).
(** Class of bin [i] of the last of the frames [fs]: the median of the bin over time against the
    median around the bin in the frame [lag] earlier, which is 0 before there is one. *)
Definition bin_class (P : parameters) (fs : list (list Z)) (i : nat) (c : classification) : Prop :=
  exists h v, median (lastValues (horizontalFilterLength P) i fs) h /\
    (if decide (length fs <= horizontalFilterLag P) then v = 0%Z else
     median (centred (verticalFilterLength P) (nth (length fs - 1 - horizontalFilterLag P) fs []) i) v) /\
    verdict P h v c.
Definition frame_class (P : parameters) (fs : list (list Z)) (r : list classification) : Prop :=
  length r = binCount P /\ forall i c, r !! i = Some c -> bin_class P fs i c.
(** [fs]: frames since construction or the last reset. *)
Fixpoint history_class (P : parameters) (fs : list (list Z)) (l : list ccall) (rs : list (list classification)) : Prop :=
  match l, rs with
  | [], [] => True
  | Classify mag :: l, r :: rs => frame_class P (fs ++ [take (binCount P) mag]) r /\ history_class P (fs ++ [take (binCount P) mag]) l rs
  | Forget :: l, rs => history_class P [] l rs
  | _, _ => False
  end.
(** The blocks in use. *)
Definition live (h : list (option (list Z))) : list nat := filter (fun a => is_Some (frameOf h a)) (seq 0 (length h)).
(** Frames have at least as many bins as are classified. *)
Definition enough (P : parameters) (a : ccall) : Prop := match a with Classify mag => binCount P <= length mag | Forget => True end.
