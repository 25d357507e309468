(** Model of src/finer/BinClassifier.h.  Magnitudes are integers in a unit that makes all values
    in use whole; the thresholds are rationals.  The frames in the queue are blocks in a heap:
    [None] in the heap is a freed block, and any access to one is [None].  The ring buffer of
    pointers is a list with room for [lag] entries (C01 and C05 cover the ring buffer). *)
From stdpp Require Import prelude list numbers.
From Coq Require Import ZArith QArith.
From Verif Require Import RingBuffer.Model Filters.Model Finer.SegmenterModel.
Local Close Scope Q_scope.
Local Open Scope nat_scope.

(** BinClassifier.h:45-60; [eps] is the 1.0e-7 of line 126 *)
Record parameters := Parameters {
  binCount : nat; horizontalFilterLength : nat; horizontalFilterLag : nat; verticalFilterLength : nat;
  harmonicThreshold : Q; percussiveThreshold : Q; eps : Z
}.
(** BinClassifier.h:147-155; m_hf holds nothing from call to call *)
Record classifier := Classifier {
  hFilters : list (mm Z); vFilter : mm Z; heap : list (option (list Z)); vfQueue : list nat; vf : nat
}.
Definition no_nan (_ : Z) : bool := false.

(** allocate_and_zero: a new block *)
Definition alloc (h : list (option (list Z))) (n : nat) : list (option (list Z)) * nat :=
  (h ++ [Some (replicate n 0%Z)], length h).
(** deallocate: [None] for a block not in use *)
Definition dealloc (h : list (option (list Z))) (a : nat) : option (list (option (list Z))) :=
  match h !! a with Some (Some _) => Some (<[a := None]> h) | _ => None end.
Definition frameOf (h : list (option (list Z))) (a : nat) : option (list Z) := x ← h !! a; x.
(** BinClassifier.h:73-76 and 99-103: allocate and queue [k] zeroed frames *)
Fixpoint fillQueue (n lag k : nat) (h : list (option (list Z))) (q : list nat) : option (list (option (list Z)) * list nat) :=
  match k with
  | O => Some (h, q)
  | S k => let '(h, a) := alloc h n in
           if decide (length q < lag) then fillQueue n lag k h (q ++ [a]) else None
  end.
(** BinClassifier.h:94-97 *)
Fixpoint freeQueue (h : list (option (list Z))) (q : list nat) : option (list (option (list Z))) :=
  match q with [] => Some h | a :: q => h ← dealloc h a; freeQueue h q end.

(** BinClassifier.h:62-77 *)
Definition create (P : parameters) : option classifier :=
  let '(h, a) := alloc [] (binCount P) in
  '(h, q) ← fillQueue (binCount P) (horizontalFilterLag P) (horizontalFilterLag P) h [];
  Some (Classifier (replicate (binCount P) (mm_new 0%Z (horizontalFilterLength P) None)) (mm_new 0%Z (verticalFilterLength P) None) h q a).
(** BinClassifier.h:92-107 *)
Definition reset (P : parameters) (s : classifier) : option classifier :=
  h ← freeQueue (heap s) (vfQueue s);
  '(h, q) ← fillQueue (binCount P) (horizontalFilterLag P) (horizontalFilterLag P) h [];
  Some (Classifier (map (mm_reset 0%Z) (hFilters s)) (vFilter s) h q (vf s)).

(** BinClassifier.h:116-119 *)
Fixpoint pushAll (fs : list (mm Z)) (mag : list Z) : option (list (mm Z) * list Z) :=
  match fs, mag with
  | [], _ => Some ([], [])
  | f :: fs, x :: mag => f ← mm_push id no_nan 0%Z f x; y ← mm_get f; '(fs, ys) ← pushAll fs mag; Some (f :: fs, y :: ys)
  | _ :: _, [] => None
  end.
Definition above (x thr : Q) : bool := negb (Qle_bool x thr).
(** BinClassifier.h:130-142 *)
Definition judge (P : parameters) (hf vf : Z) : classification :=
  if above (inject_Z hf / inject_Z (vf + eps P))%Q (harmonicThreshold P) then Harmonic else
  if above (inject_Z vf / inject_Z (hf + eps P))%Q (percussiveThreshold P) then Percussive else Residual.
(** BinClassifier.h:109-145 *)
Definition classify (P : parameters) (s : classifier) (mag : list Z) : option (classifier * list classification) :=
  let n := binCount P in
  '(hs, hf) ← pushAll (hFilters s) mag;
  old ← frameOf (heap s) (vf s);
  if decide (length mag < n \/ length old < n) then None else
  '(vfil, filtered) ← mm_filter id no_nan 0%Z (vFilter s) (take n mag);
  let h := <[vf s := Some (filtered ++ drop n old)]> (heap s) in
  '(q, v) ← (if decide (0 < horizontalFilterLag P) then
               match vfQueue s with
               | lagged :: q => if decide (length q < horizontalFilterLag P) then Some (q ++ [vf s], lagged) else None
               | [] => None
               end
             else Some (vfQueue s, vf s));
  frame ← frameOf h v;
  if decide (length frame < n) then None else
  Some (Classifier hs vfil h q v, zip_with (judge P) hf (take n frame)).

Inductive ccall := Classify (mag : list Z) | Forget.
Fixpoint run (P : parameters) (s : classifier) (l : list ccall) : option (classifier * list (list classification)) :=
  match l with
  | [] => Some (s, [])
  | Classify mag :: l => '(s, r) ← classify P s mag; '(s, rs) ← run P s l; Some (s, r :: rs)
  | Forget :: l => s ← reset P s; run P s l
  end.
