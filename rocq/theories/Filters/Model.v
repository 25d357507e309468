(** Executable models of [SingleThreadRingBuffer] (src/common/SingleThreadRingBuffer.h),
    [MovingMedian] (src/common/MovingMedian.h) and [HistogramFilter]
    (src/common/HistogramFilter.h).  [None] is undefined behaviour (or, where a
    loop carries fuel, failure to end within the fuel). *)
From stdpp Require Import base list numbers.
From Coq Require Import ZArith QArith Qround.
From Verif.RingBuffer Require Import Model.
Local Close Scope Q_scope.
Local Open Scope nat_scope.

(** ** SingleThreadRingBuffer.  Same data members (140-143) and index scheme as
    [RingBuffer], so the record [ring] is shared. *)
Section strb.
Context {T : Type}.

(** SingleThreadRingBuffer.h:53-57 — constructor; storage is filled with [T()]. *)
Definition st_new (zero : T) (n : nat) : ring T := Ring (replicate (n + 1) zero) 0 0 (n + 1).

(** SingleThreadRingBuffer.h:81-83 *)
Definition st_reset (b : ring T) : ring T := Ring (buf b) (reader b) (reader b) (size b).

(** SingleThreadRingBuffer.h:88-101: same formulas as RingBuffer.h:182-194. *)
Definition st_readSpace (b : ring T) : nat := readSpaceFor (size b) (writer b) (reader b).
Definition st_writeSpace (b : ring T) : nat := writeSpaceFor (size b) (writer b) (reader b).

(** SingleThreadRingBuffer.h:107-114 *)
Definition st_readOne (zero : T) (b : ring T) : option (ring T * T) :=
  if decide (writer b = reader b) then Some (b, zero) else
  value ← buf b !! reader b;
  let r' := if decide (reader b + 1 = size b) then 0 else reader b + 1 in
  Some (Ring (buf b) (writer b) r' (size b), value).

(** SingleThreadRingBuffer.h:120-125 *)
Definition st_skipOne (b : ring T) : ring T :=
  if decide (writer b = reader b) then b else
  let r' := if decide (reader b + 1 = size b) then 0 else reader b + 1 in
  Ring (buf b) (writer b) r' (size b).

(** SingleThreadRingBuffer.h:132-137 *)
Definition st_writeOne (b : ring T) (x : T) : option (ring T * nat) :=
  if decide (st_writeSpace b = 0) then Some (b, 0) else
  if decide (writer b < length (buf b)) then
    let w' := if decide (writer b + 1 = size b) then 0 else writer b + 1 in
    Some (Ring (<[writer b := x]> (buf b)) w' (reader b) (size b), 1)
  else None.
End strb.

(** ** MovingMedian<T>.

    The comparisons [<], [<=], [>] of the value type are comparisons of an
    integer key: every set of non-NaN floats embeds this way, with both zeros
    sharing a key.  [isnan] is [value != value]. *)
Section mm.
Context {T : Type} (key : T -> Z) (isnan : T -> bool) (zero : T).
Local Notation lt x y := (Z.ltb (key x) (key y)).
Local Notation le x y := (Z.leb (key x) (key y)).

(** MovingMedian.h:142-145.  [percentile = None] is the exact default 50. *)
Record mm := MM {
  mbuf : ring T; sortspace : list T; fill : nat; percentile : option Q }.

(** MovingMedian.h:51-56 *)
Definition mm_new (n : nat) (p : option Q) : mm :=
  MM (st_new zero n) (replicate n zero) 0 p.

(** MovingMedian.h:63-65 *)
Definition mm_size (f : mm) : nat := size (mbuf f) - 1.

(** [std::lower_bound(sorted, sorted + n, x) - sorted]: index of the first of
    the first [n] elements that is not less than [x], else [n].  (The library
    does a binary search, which gives the same index on a sorted range; that
    the range is sorted whenever this is called is proved in MMProofs.v.) *)
Fixpoint lower_bound_from (l : list T) (x : T) : nat :=
  match l with
  | [] => 0
  | y :: l' => if lt y x then S (lower_bound_from l' x) else 0
  end.
Definition lower_bound (s : list T) (n : nat) (x : T) : option nat :=
  if decide (n <= length s) then Some (lower_bound_from (take n s) x) else None.

(** Checked single-element store. *)
Definition set_at (s : list T) (i : nat) (x : T) : option (list T) :=
  if decide (i < length s) then Some (<[i := x]> s) else None.

(** MovingMedian.h:167-175 — shift towards the front until the next value
    exceeds [toPut]; [k] bounds the remaining iterations. *)
Fixpoint up_loop (k : nat) (s : list T) (i n : nat) (toPut : T) : option (list T) :=
  if decide (i + 1 < n) then
    y ← s !! (i + 1);
    if lt toPut y then set_at s i toPut
    else match k with
         | 0 => None
         | S k' => s' ← set_at s i y; up_loop k' s' (i + 1) n toPut
         end
  else set_at s i toPut.

(** MovingMedian.h:177-184 — here [i] is the C++ [i+1] after [--i]. *)
Fixpoint down_loop (s : list T) (i : nat) (toPut : T) : option (list T) :=
  match i with
  | 0 => set_at s 0 toPut
  | S i' =>
    y ← s !! i';
    if lt y toPut then set_at s i toPut
    else s' ← set_at s i y; down_loop s' i' toPut
  end.

(** MovingMedian.h:147-186 *)
Definition dropAndPut (s : list T) (n : nat) (toDrop toPut : T) : option (list T) :=
  first ← s !! 0;                                   (* *sorted, line 159 *)
  dropIx ← (if le toDrop first then Some 0 else lower_bound s n toDrop);
  if lt toDrop toPut then up_loop n s dropIx n toPut
  else if lt toPut toDrop then down_loop s dropIx toPut
  else Some s.

(** [v_move(dst + to, src + from, n)] within one array. *)
Definition move (s : list T) (to from n : nat) : option (list T) :=
  xs ← load s from n; store s to xs.

(** MovingMedian.h:188-201; the new fill is returned with the array. *)
Definition put (s : list T) (n : nat) (toPut : T) : option (list T * nat) :=
  putIx ← lower_bound s n toPut;
  s1 ← (if decide (putIx < n) then move s (putIx + 1) putIx (n - putIx) else Some s);
  s2 ← set_at s1 putIx toPut;
  Some (s2, n + 1).

(** MovingMedian.h:203-215 *)
Definition drop_value (s : list T) (n : nat) (toDrop : T) : option (list T * nat) :=
  dropIx ← lower_bound s n toDrop;
  s1 ← (if decide (dropIx + 1 < n) then move s dropIx (dropIx + 1) (n - dropIx - 1) else Some s);
  Some (s1, n - 1).

(** MovingMedian.h:71-83 *)
Definition mm_push (f : mm) (value : T) : option mm :=
  let value := if isnan value then zero else value in
  p ← (if decide (fill f = mm_size f) then
         '(b1, toDrop) ← st_readOne zero (mbuf f);
         s1 ← dropAndPut (sortspace f) (fill f) toDrop value;
         Some (b1, s1, fill f)
       else
         '(s1, n1) ← put (sortspace f) (fill f) value;
         Some (mbuf f, s1, n1));
  let '(b1, s1, n1) := p in
  '(b2, _) ← st_writeOne b1 value;
  Some (MM b2 s1 n1 (percentile f)).

(** MovingMedian.h:85-90 *)
Definition mm_drop (f : mm) : option mm :=
  if decide (0 < fill f) then
    '(b1, toDrop) ← st_readOne zero (mbuf f);
    '(s1, n1) ← drop_value (sortspace f) (fill f) toDrop;
    Some (MM b1 s1 n1 (percentile f))
  else Some f.

(** MovingMedian.h:95-104.  The float computation [floorf(n * p / 100)] is
    taken exactly, over the rationals. *)
Definition mm_get (f : mm) : option T :=
  let n := (Z.of_nat (fill f) - 1)%Z in
  match percentile f with
  | None => sortspace f !! Z.to_nat (Z.quot n 2)
  | Some p =>
    let index := Qfloor (inject_Z n * p / 100)%Q in
    let index := if (Z.of_nat (fill f) <=? index)%Z then (Z.of_nat (fill f) - 1)%Z else index in
    if (index <? 0)%Z then None else sortspace f !! Z.to_nat index
  end.

(** MovingMedian.h:106-110 *)
Definition mm_reset (f : mm) : mm :=
  MM (st_reset (mbuf f)) (replicate (length (sortspace f)) zero) 0 (percentile f).

(** MovingMedian.h:67-69 *)
Definition mm_setPercentile (f : mm) (p : option Q) : mm :=
  MM (mbuf f) (sortspace f) (fill f) p.

(** MovingMedian.h:121-132 — loop of [filter]; [i] runs from [-(flen/2)] so the
    array index is [j - flen/2] when that is non-negative. *)
Fixpoint mm_filter_loop (k : nat) (f : mm) (v : list T) (n flen j : nat)
  : option (mm * list T) :=
  let half := flen / 2 in
  if decide (j = n + half) then Some (f, v) else          (* i = n *)
  match k with
  | 0 => None
  | S k' =>
    f1 ← (if decide (j < n) then x ← v !! j; mm_push f x
          else if decide (flen <= j) then mm_drop f else Some f);
    v1 ← (if decide (half <= j) then x ← mm_get f1; set_at v (j - half) x else Some v);
    mm_filter_loop k' f1 v1 n flen (j + 1)
  end.

(** MovingMedian.h:116-133 (and 137-139) *)
Definition mm_filter (f : mm) (v : list T) : option (mm * list T) :=
  let f := mm_reset f in
  let flen := mm_size f in
  mm_filter_loop (length v + flen / 2) f v (length v) flen 0.

Inductive mm_op := MPush (x : T) | MDrop | MReset | MSetPercentile (p : option Q).
Definition mm_step (f : mm) (o : mm_op) : option mm :=
  match o with
  | MPush x => mm_push f x
  | MDrop => mm_drop f
  | MReset => Some (mm_reset f)
  | MSetPercentile p => Some (mm_setPercentile f p)
  end.
Fixpoint mm_run (f : mm) (os : list mm_op) : option mm :=
  match os with [] => Some f | o :: os => f1 ← mm_step f o; mm_run f1 os end.
End mm.
Arguments mm : clear implicits.
Arguments mm_op : clear implicits.

(** ** HistogramFilter (values are [int]s in [0, nValues)). *)

(** HistogramFilter.h: members (buffer, histogram, mutable m_mode = -1). *)
Record hf := HF { hbuf : ring Z; hist : list Z; hmode : Z }.

(** HistogramFilter.h:45-48 *)
Definition hf_new (nValues flen : nat) : hf := HF (st_new 0%Z flen) (replicate nValues 0%Z) (-1).

Definition hf_len (f : hf) : nat := size (hbuf f) - 1.      (* 51-53 *)
Definition hf_nvalues (f : hf) : nat := length (hist f).    (* 55-57 *)

(** Checked histogram access [m_histogram[v]]. *)
Definition hget (h : list Z) (v : Z) : option Z :=
  if (v <? 0)%Z then None else h !! Z.to_nat v.
Definition hadd (h : list Z) (v d : Z) : option (list Z) :=
  x ← hget h v; Some (<[Z.to_nat v := (x + d)%Z]> h).

(** HistogramFilter.h:59-64 *)
Definition hf_reset (f : hf) : hf :=
  HF (st_reset (hbuf f)) (replicate (length (hist f)) 0%Z) (hmode f).

(** HistogramFilter.h:66-78 *)
Definition hf_push (f : hf) (value : Z) : option hf :=
  '(b1, h1) ← (if decide (st_writeSpace (hbuf f) = 0) then
                 '(b, toDrop) ← st_readOne 0%Z (hbuf f);
                 h ← hadd (hist f) toDrop (-1);
                 Some (b, h)
               else Some (hbuf f, hist f));
  '(b2, _) ← st_writeOne b1 value;
  h2 ← hadd h1 value 1;
  height ← hget h2 value;
  if (0 <=? hmode f)%Z then
    hm ← hget h2 (hmode f);
    let m := if (hm <=? height)%Z
             then if ((hm <? height) || (value <? hmode f))%Z then value else hmode f
             else hmode f in
    Some (HF b2 h2 m)
  else Some (HF b2 h2 (hmode f)).

(** HistogramFilter.h:80-88 *)
Definition hf_drop (f : hf) : option hf :=
  if decide (0 < st_readSpace (hbuf f)) then
    '(b, toDrop) ← st_readOne 0%Z (hbuf f);
    h ← hadd (hist f) toDrop (-1);
    Some (HF b h (if (toDrop =? hmode f)%Z then -1 else hmode f)%Z)
  else Some f.

(** HistogramFilter.h:93-104 — loop from value [i] with accumulator [acc]. *)
Fixpoint median_loop (h : list Z) (i : nat) (acc half : Z) : Z :=
  match h with
  | [] => 0
  | x :: h' => let acc := (acc + x)%Z in
               if (half <=? acc)%Z then Z.of_nat i else median_loop h' (S i) acc half
  end.
Definition hf_getMedian (f : hf) : Z :=
  median_loop (hist f) 0 0 (Z.quot (Z.of_nat (st_readSpace (hbuf f)) + 1) 2).

(** HistogramFilter.h:114-123 *)
Fixpoint mode_loop (h : list Z) (i : nat) (mx : Z) (mode : nat) : nat :=
  match h with
  | [] => mode
  | x :: h' => if decide (i = 0) then mode_loop h' (S i) x i
               else if (mx <? x)%Z then mode_loop h' (S i) x i
               else mode_loop h' (S i) mx mode
  end.

(** HistogramFilter.h:110-126; [m_mode] is mutable, so the state changes. *)
Definition hf_getMode (f : hf) : hf * Z :=
  if (0 <=? hmode f)%Z then (f, hmode f)
  else let m := Z.of_nat (mode_loop (hist f) 0 0 0) in (HF (hbuf f) (hist f) m, m).

(** HistogramFilter.h:137-149 *)
Fixpoint hf_filter_loop (k : nat) (f : hf) (v : list Z) (n flen j : nat) (modal : bool)
  : option (hf * list Z) :=
  let half := flen / 2 in
  if decide (j = n + half) then Some (f, v) else
  match k with
  | 0 => None
  | S k' =>
    f1 ← (if decide (j < n) then x ← v !! j; hf_push f x
          else if decide (flen <= j) then hf_drop f else Some f);
    let '(f2, m) := if modal then hf_getMode f1 else (f1, hf_getMedian f1) in
    '(f3, v1) ← (if decide (half <= j) then v1 ← set_at v (j - half) m; Some (f2, v1)
          else Some (f1, v));
    hf_filter_loop k' f3 v1 n flen (j + 1) modal
  end.

(** HistogramFilter.h:132-150 (medianFilter 162-170, modalFilter 172ff) *)
Definition hf_filter (f : hf) (v : list Z) (modal : bool) : option (hf * list Z) :=
  let f := hf_reset f in
  let flen := hf_len f in
  hf_filter_loop (length v + flen / 2) f v (length v) flen 0 modal.

Inductive hf_op := HPush (x : Z) | HDrop | HReset | HGetMode.
Definition hf_step (f : hf) (o : hf_op) : option hf :=
  match o with
  | HPush x => hf_push f x
  | HDrop => hf_drop f
  | HReset => Some (hf_reset f)
  | HGetMode => Some (fst (hf_getMode f))
  end.
Fixpoint hf_run (f : hf) (os : list hf_op) : option hf :=
  match os with [] => Some f | o :: os => f1 ← hf_step f o; hf_run f1 os end.
