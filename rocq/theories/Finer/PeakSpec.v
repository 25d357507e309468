(** What "nearest peak" and "next peak" mean (comments of src/finer/Peak.h:44-63). *)
From stdpp Require Import prelude list.
From Coq Require Import ZArith.
Local Open Scope Z_scope.

Section spec.
  Context {T : Type} (gt : T -> T -> bool).
  (** Bin [i] is greater than the bins before it within distance [p] and inside [lo, hi), and no
      bin after it there is greater: of equal neighbours the first is the peak. *)
  Definition peak_at (v : list T) (lo hi p i : Z) : Prop :=
    lo <= i < hi /\ exists x, v !! Z.to_nat i = Some x /\
    forall k y, lo <= k < hi -> Z.abs (k - i) <= p -> v !! Z.to_nat k = Some y ->
      (k < i -> gt x y = true) /\ (i < k -> gt y x = false).
  (** [r] is a peak as close to [i] as any, the upper one of two equally close. *)
  Definition closest (P : Z -> Prop) (i r : Z) : Prop :=
    P r /\ forall q, P q -> Z.abs (r - i) <= Z.abs (q - i) /\ (Z.abs (r - i) = Z.abs (q - i) -> q <= r).
  (** [r] is the first peak from [i] upwards, or [i] itself where there is none. *)
  Definition following (P : Z -> Prop) (i r : Z) : Prop :=
    (P r /\ i <= r /\ forall q, P q -> i <= q -> r <= q) \/ (r = i /\ forall q, P q -> q < i).
  (** A strict total preorder. *)
  Record ordering : Prop := Ordering {
    or_irrefl : forall a, gt a a = false;
    or_trans : forall a b c, gt a b = true -> gt b c = true -> gt a c = true;
    or_weak : forall a b c, gt a b = false -> gt b c = false -> gt a c = false
  }.
End spec.
(** Array [new] is [old] with [ok] answers for the bins from [lo] to [hi]; none where none was
    asked for. *)
Definition written (old new : option (list Z)) (lo hi : Z) (ok : Z -> Z -> Prop) : Prop :=
  match old, new with
  | Some a, Some b => length b = length a /\
      (forall i, 0 <= i -> ~ (lo <= i < hi) -> b !! Z.to_nat i = a !! Z.to_nat i) /\
      (forall i, lo <= i < hi -> exists r, b !! Z.to_nat i = Some r /\ ok i r)
  | None, None => True
  | _, _ => False
  end.
Definition fits (hi : Z) (a : option (list Z)) : Prop := match a with Some a => hi <= Z.of_nat (length a) | None => True end.
