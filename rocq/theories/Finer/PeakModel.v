(** Model of src/finer/Peak.h.  Values are of any type with a test [gt] (GreaterThan); arrays are
    lists, and an access outside an array is [None].  [int] is unbounded. *)
From stdpp Require Import prelude list numbers.
From Coq Require Import ZArith.
Local Open Scope Z_scope.

Section peak.
  Context {T : Type} (gt : T -> T -> bool).
  (** Array element, with the index an [int]. *)
  Definition at_ {A} (l : list A) (i : Z) : option A := if i <? 0 then None else l !! Z.to_nat i.
  Definition put {A} (l : list A) (i : Z) (x : A) : option (list A) :=
    if (0 <=? i) && (i <? Z.of_nat (length l)) then Some (<[Z.to_nat i := x]> l) else None.

  (** Peak.h:78-89: the loop over the neighbours [ks] of bin [i] *)
  Fixpoint good (v : list T) (lo n i : Z) (x : T) (ks : list Z) : option bool :=
    match ks with
    | [] => Some true
    | k :: ks =>
        if (k <? lo) || (k =? i) then good v lo n i x ks else
        if n <=? k then Some true else
        y ← at_ v k;
        if (k <? i) && negb (gt x y) then Some false else
        if (i <? k) && gt y x then Some false else
        good v lo n i x ks
    end.
  (** Peak.h:75-93: the loop over bins; [locs] is m_locations up to nPeaks, which has room for
      m_n entries *)
  Fixpoint locate (mn : Z) (v : list T) (lo n p : Z) (bins : list Z) (locs : list Z) : option (list Z) :=
    match bins with
    | [] => Some locs
    | i :: bins =>
        x ← at_ v i;
        g ← good v lo n i x (seqZ (i - p) (2 * p + 1));
        if (g : bool) then if Z.of_nat (length locs) <? mn then locate mn v lo n p bins (locs ++ [i]) else None
        else locate mn v lo n p bins locs
    end.
  (** Peak.h:118-121: the inner while loop *)
  Fixpoint advance (fuel : nat) (locs : list Z) (i np : Z) (pp j : Z) : option (Z * Z) :=
    match fuel with
    | O => None
    | S fuel =>
        if j <? Z.of_nat (length locs) then
          q ← at_ locs j;
          if q <=? i then advance fuel locs i np np (j + 1) else Some (pp, j)
        else Some (pp, j)
    end.
  (** Peak.h:95-122: the second loop; [nearest] and [next] are the arrays of the caller, or null *)
  Fixpoint mark (locs : list Z) (bins : list Z) (pp j : Z) (nearest next : option (list Z)) : option (option (list Z) * option (list Z)) :=
    match bins with
    | [] => Some (nearest, next)
    | i :: bins =>
        let nPeaks := Z.of_nat (length locs) in
        np ← (if j <? nPeaks then at_ locs j else if 0 <? nPeaks then at_ locs (nPeaks - 1) else Some i);
        next ← match next with
               | Some a => a ← put a i (if (pp =? i) || (nPeaks <=? j) then i else np); Some (Some a)
               | None => Some None
               end;
        nearest ← match nearest with
                  | Some a => a ← put a i (if j =? 0 then np else if np - i <=? i - pp then np else pp); Some (Some a)
                  | None => Some None
                  end;
        '(pp, j) ← advance (S (length locs)) locs i np pp j;
        mark locs bins pp j nearest next
    end.
  (** Peak.h:65-123 *)
  Definition findNearestAndNextPeaks (mn : Z) (v : list T) (rangeStart rangeCount p : Z) (nearest next : option (list Z)) :=
    let n := rangeStart + rangeCount in
    locs ← locate mn v rangeStart n p (seqZ rangeStart rangeCount) [];
    mark locs (seqZ rangeStart rangeCount) (rangeStart - 1) 0 nearest next.
End peak.
