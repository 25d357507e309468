(** Who owns what: the heap is exactly the blocks listed, with the contents listed, and the
    rest of the program's blocks. *)
From stdpp Require Import prelude gmap.
From Verif Require Import Memory.Model.

Section Spec.
Context {A : Type}.
Record holds (rest : gmap nat (list (cell A))) (own : list (nat * list (cell A))) (h : heap A) : Prop := Holds {
  holds_cells : cells h = list_to_map own ∪ rest;
  holds_nodup : NoDup own.*1;
  holds_apart : forall b, b ∈ own.*1 -> rest !! b = None;
  holds_top : forall b, is_Some (cells h !! b) -> (b < brk h)%nat
}.
(** [old] cut or extended to [count] cells. *)
Definition refit (fill : cell A) (count : nat) (old : list (cell A)) : list (cell A) :=
  take count old ++ replicate (count - length old) fill.
(** An array of channels at [p]: the pointers and what they point to. *)
Definition array (p : nat) (chans : list (nat * list (cell A))) : list (nat * list (cell A)) :=
  (p, Ptr <$> chans.*1) :: chans.
End Spec.
