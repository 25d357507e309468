(** Specification of the sliding-window filters: a window is a list of the
    values currently held, oldest first. *)
From stdpp Require Import base list numbers.
From Coq Require Import ZArith QArith.
From Verif.Filters Require Import Model.
Local Close Scope Q_scope.
Local Open Scope nat_scope.

(** Window after one more value, with capacity [n]: keep the last [n]. *)
Definition slide {A} (n : nat) (win : list A) (x : A) : list A :=
  let w := win ++ [x] in drop (length w - n) w.

(** [v] is the [k]-th smallest (from 0) of the keys [l]: fewer than [k+1] are
    smaller and at least [k+1] are not larger. *)
Definition count (P : Z -> bool) (l : list Z) : nat := length (List.filter P l).
Definition kth_smallest (l : list Z) (k : nat) (v : Z) : Prop :=
  v ∈ l /\ count (fun x => Z.ltb x v) l <= k /\ k < count (fun x => Z.leb x v) l.

(** MovingMedian: window after a history. *)
Section mm.
Context {T : Type} (isnan : T -> bool) (zero : T).
(** NaN counts as zero. *)
Definition denan (x : T) : T := if isnan x then zero else x.
Definition mm_win_step (n : nat) (win : list T) (o : mm_op T) : list T :=
  match o with
  | MPush x => slide n win (denan x)
  | MDrop => tail win
  | MReset => []
  | MSetPercentile _ => win
  end.
Definition mm_window (n : nat) (os : list (mm_op T)) : list T :=
  fold_left (mm_win_step n) os [].
Definition mm_percentile (p0 : option Q) (os : list (mm_op T)) : option Q :=
  fold_left (fun p o => match o with MSetPercentile q => q | _ => p end) os p0.
(** Rank asked for: [(count-1)/2] by default, [floor((count-1)*p/100)] capped at
    the largest, for another percentile. *)
Definition mm_rank (c : nat) (p : option Q) : nat :=
  match p with
  | None => (c - 1) / 2
  | Some p => Z.to_nat (Z.min (Z.of_nat c - 1) (Qround.Qfloor (inject_Z (Z.of_nat c - 1) * p / 100)))
  end.
End mm.
(** Percentiles callers may ask for: [None] is the default 50. *)
Definition pct_ok (p : option Q) : Prop :=
  match p with None => True | Some q => (0 <= q)%Q end.

(** Centred window of an array: indices [i-(len-1)/2 .. i+len/2], clipped. *)
Definition centred {A} (len : nat) (v : list A) (i : nat) : list A :=
  let lo := i - (len - 1) / 2 in
  let hi := i + len / 2 in
  drop lo (take (S hi) v).

(** HistogramFilter *)
Definition hf_win_step (n : nat) (win : list Z) (o : hf_op) : list Z :=
  match o with
  | HPush x => slide n win x
  | HDrop => tail win
  | HReset => []
  | HGetMode => win
  end.
Definition hf_window (n : nat) (os : list hf_op) : list Z := fold_left (hf_win_step n) os [].
Definition hf_op_ok (nvalues : nat) (o : hf_op) : Prop :=
  match o with HPush x => (0 <= x < Z.of_nat nvalues)%Z | _ => True end.

Definition occurrences (l : list Z) (v : Z) : nat := count (Z.eqb v) l.

(** Smallest of the most frequent values. *)
Definition is_mode (l : list Z) (m : Z) : Prop :=
  m ∈ l /\
  forall v, v ∈ l -> occurrences l v < occurrences l m \/
                    (occurrences l v = occurrences l m /\ (m <= v)%Z).

(** The values a filter over [nv] values accepts. *)
Definition in_range (nv : nat) (x : Z) : Prop := (0 <= x < Z.of_nat nv)%Z.

(** [getMode] caches its answer.  A push into a full window is harmless for the
    cache if the value it evicts is pushed again, or was not the mode. *)
Definition harmless (n : nat) (win : list Z) (o : hf_op) : Prop :=
  match o with
  | HPush x => length win = n -> match win with
                | y :: _ => y = x \/ ~ is_mode win y
                | [] => True end
  | _ => True
  end.

Fixpoint all_harmless (n : nat) (win : list Z) (os : list hf_op) : Prop :=
  match os with
  | [] => True
  | o :: os => harmless n win o /\ all_harmless n (hf_win_step n win o) os
  end.

Definition no_query (o : hf_op) : Prop := match o with HGetMode => False | _ => True end.

(** The same along an array that is filtered in place. *)
Definition array_harmless (n : nat) (v : list Z) : Prop :=
  forall j x, n <= j -> v !! j = Some x -> harmless n (drop (j - n) (take j v)) (HPush x).
