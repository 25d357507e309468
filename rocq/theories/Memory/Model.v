(** Allocation helpers over a heap of blocks. *)
From stdpp Require Import prelude gmap.
From Coq Require Import ZArith.

(** A cell is uninitialised, a number or a pointer to a block. *)
Inductive cell (A : Type) := Undef | Num (a : A) | Ptr (b : nat).
Arguments Undef {A}. Arguments Num {A}. Arguments Ptr {A}.
(** Live blocks by address, and an address above all ever used.  Access to a block that
    is not live, or outside it, is [None], as is freeing a block twice. *)
Record heap (A : Type) := Heap { cells : gmap nat (list (cell A)); brk : nat }.
Arguments Heap {A}. Arguments cells {A}. Arguments brk {A}.

Section Model.
Context {A : Type} (zero : A).
Notation heap := (heap A).
Notation cell := (cell A).

Definition load (h : heap) (b i : nat) : option cell := l ← cells h !! b; l !! i.
Definition store (h : heap) (b i : nat) (c : cell) : option heap :=
  l ← cells h !! b; if decide (i < length l)%nat then Some (Heap (<[b := <[i := c]> l]> (cells h)) (brk h)) else None.

(** common/Allocators.h:73-152.  Exhaustion of memory (an exception) is not modelled. *)
Definition allocate (h : heap) (count : nat) : nat * heap :=
  (brk h, Heap (<[brk h := replicate count Undef]> (cells h)) (S (brk h))).
(** common/Allocators.h:172-198, for a pointer that is not null *)
Definition deallocate (h : heap) (b : nat) : option heap :=
  _ ← cells h !! b; Some (Heap (delete b (cells h)) (brk h)).
(** common/VectorOps.h v_copy and v_zero: [n] cells from [i] on *)
Fixpoint v_copy (h : heap) (dst src : nat) (i n : nat) : option heap :=
  match n with O => Some h | S n => c ← load h src i; h ← store h dst i c; v_copy h dst src (S i) n end.
Fixpoint v_zero (h : heap) (dst : nat) (i n : nat) : option heap :=
  match n with O => Some h | S n => h ← store h dst i (Num zero); v_zero h dst (S i) n end.

(** common/Allocators.h:156-170 *)
Definition allocate_and_zero (h : heap) (count : nat) : option (nat * heap) :=
  let '(p, h) := allocate h count in h ← v_zero h p 0 count; Some (p, h).
(** common/Allocators.h:210-220; a null pointer is [None] *)
Definition reallocate (h : heap) (ptr : option nat) (oldcount count : nat) : option (nat * heap) :=
  let '(newptr, h) := allocate h count in
  h ← match ptr with
      | Some p => if decide (oldcount = 0%nat) then Some h else v_copy h newptr p 0 (if decide (oldcount < count)%nat then oldcount else count)
      | None => Some h end;
  h ← match ptr with Some p => deallocate h p | None => Some h end;
  Some (newptr, h).
(** common/Allocators.h:223-229 *)
Definition reallocate_and_zero (h : heap) (ptr : option nat) (oldcount count : nat) : option (nat * heap) :=
  '(p, h) ← reallocate h ptr oldcount count; h ← v_zero h p 0 count; Some (p, h).
(** common/Allocators.h:232-238 *)
Definition reallocate_and_zero_extension (h : heap) (ptr : option nat) (oldcount count : nat) : option (nat * heap) :=
  '(p, h) ← reallocate h ptr oldcount count;
  h ← (if decide (oldcount < count)%nat then v_zero h p oldcount (count - oldcount) else Some h);
  Some (p, h).

(** common/Allocators.h:240-258: allocate_channels, or with [z] allocate_and_zero_channels;
    [n] channels from [c] on *)
Fixpoint fill_channels (z : bool) (h : heap) (ptr c n count : nat) : option heap :=
  match n with
  | O => Some h
  | S n =>
    '(p, h) ← (if z then allocate_and_zero h count else Some (allocate h count));
    h ← store h ptr c (Ptr p); fill_channels z h ptr (S c) n count
  end.
Definition allocate_channels (z : bool) (h : heap) (channels count : nat) : option (nat * heap) :=
  let '(ptr, h) := allocate h channels in h ← fill_channels z h ptr 0 channels count; Some (ptr, h).

(** ptr[c], which has to be a pointer *)
Definition channel (h : heap) (ptr c : nat) : option nat :=
  x ← load h ptr c; match x with Ptr p => Some p | _ => None end.
(** common/Allocators.h:260-268; deallocate of a null channel does nothing, so [Ptr] is not needed for it: not modelled *)
Fixpoint free_channels (h : heap) (ptr c n : nat) : option heap :=
  match n with O => Some h | S n => p ← channel h ptr c; h ← deallocate h p; free_channels h ptr (S c) n end.
Definition deallocate_channels (h : heap) (ptr channels : nat) : option heap :=
  h ← free_channels h ptr 0 channels; deallocate h ptr.

(** common/Allocators.h:270-306: the copying loops; newptr[c][i] = ptr[c][i] evaluates both
    pointers each time *)
Fixpoint copy_channel (h : heap) (newptr ptr c i n : nat) : option heap :=
  match n with
  | O => Some h
  | S n => q ← channel h newptr c; p ← channel h ptr c; x ← load h p i; h ← store h q i x; copy_channel h newptr ptr c (S i) n
  end.
Fixpoint copy_channels (h : heap) (newptr ptr c n count : nat) : option heap :=
  match n with O => Some h | S n => h ← copy_channel h newptr ptr c 0 count; copy_channels h newptr ptr (S c) n count end.
(** reallocate_channels, or with [z] reallocate_and_zero_extend_channels *)
Definition reallocate_channels (z : bool) (h : heap) (ptr : option nat) (oldchannels oldcount channels count : nat) : option (nat * heap) :=
  '(newptr, h) ← allocate_channels z h channels count;
  h ← match ptr with
      | Some p => if decide (oldcount = 0%nat) then Some h else copy_channels h newptr p 0 (oldchannels `min` channels) (oldcount `min` count)
      | None => Some h end;
  h ← match ptr with Some p => deallocate_channels h p oldchannels | None => Some h end;
  Some (newptr, h).
End Model.
