(** Executable model of [RingBuffer<T>] (src/common/RingBuffer.h).

    Simplifications, for the whole file:
    - indices and counts are [nat]: negative requests and [int] overflow are
      not represented;
    - the element type of source/destination equals that of the buffer, so
      [v_convert] is a plain copy;
    - warnings on stderr are not represented.
    An access outside an array is the outcome [None]. *)
From stdpp Require Import base list.

Section ring.
Context {T : Type}.

(** Checked block load from an array: [v_convert(dst, a + off, n)] reads
    elements [off .. off+n-1] of [a]; out of range is undefined behaviour. *)
Definition load (a : list T) (off n : nat) : option (list T) :=
  if decide (off + n <= length a) then Some (take n (drop off a)) else None.

(** Checked block store: writes [xs] to [a[off ..]]. *)
Definition store (a : list T) (off : nat) (xs : list T) : option (list T) :=
  if decide (off + length xs <= length a)
  then Some (take off a ++ xs ++ drop (off + length xs) a) else None.

(** RingBuffer.h:177-180 — the data members. *)
Record ring := Ring {
  buf : list T;      (* m_buffer *)
  writer : nat;      (* m_writer *)
  reader : nat;      (* m_reader *)
  size : nat;        (* m_size *)
}.

(** RingBuffer.h:201-212 — constructor.  [junk] is the uninitialised memory
    returned by [allocate<T>(n + 1)]. *)
Definition ring_new (n : nat) (junk : list T) : ring := Ring junk 0 0 (n + 1).

(** RingBuffer.h:226-233 *)
Definition getSize (b : ring) : nat := size b - 1.

(** RingBuffer.h:182-188 *)
Definition readSpaceFor (m_size w r : nat) : nat :=
  if decide (r < w) then w - r
  else if decide (w < r) then (w + m_size) - r
  else 0.

(** RingBuffer.h:190-194 *)
Definition writeSpaceFor (m_size w r : nat) : nat :=
  let space := r + m_size - w - 1 in
  if decide (m_size <= space) then space - m_size else space.

(** RingBuffer.h:269-279 *)
Definition getReadSpace (b : ring) : nat :=
  readSpaceFor (size b) (writer b) (reader b).
Definition getWriteSpace (b : ring) : nat :=
  writeSpaceFor (size b) (writer b) (reader b).

(** RingBuffer.h:308 etc. — [while (r >= m_size) r -= m_size].  [None] means
    the loop did not end within [fuel] iterations (e.g. [m_size] = 0). *)
Fixpoint wrap_loop (fuel r m : nat) : option nat :=
  if decide (m <= r) then
    match fuel with
    | 0 => None
    | S f => wrap_loop f (r - m) m
    end
  else Some r.
Definition wrap (r m : nat) : option nat := wrap_loop (S r) r m.

(** RingBuffer.h:297-305 — the two-part copy out of the buffer, shared by
    [read] (297-305) and [peek] (386-394): returns the [n] values. *)
Definition copy_out (b : ring) (r n : nat) : option (list T) :=
  let here := size b - r in
  if decide (n <= here) then load (buf b) r n
  else
    xs ← load (buf b) r here;
    ys ← load (buf b) 0 (n - here);
    Some (xs ++ ys).

(** RingBuffer.h:455-463 (write) and 490-498 (zero) — two-part copy in. *)
Definition copy_in (b : ring) (w : nat) (xs : list T) : option (list T) :=
  let n := length xs in
  let here := size b - w in
  if decide (n <= here) then store (buf b) w xs
  else
    b1 ← store (buf b) w (take here xs);
    store b1 0 (drop here xs).

(** RingBuffer.h:284-313 — [read(destination, n)]: new ring, new destination
    array and the returned count. *)
Definition read (b : ring) (dest : list T) (n : nat)
  : option (ring * list T * nat) :=
  let w := writer b in
  let r := reader b in
  let available := readSpaceFor (size b) w r in
  let n := if decide (available < n) then available else n in
  if decide (n = 0) then Some (b, dest, 0) else
  xs ← copy_out b r n;
  dest' ← store dest 0 xs;
  r' ← wrap (r + n) (size b);
  Some (Ring (buf b) w r' (size b), dest', n).

(** RingBuffer.h:318-347 — [readAdding], with the element addition [add]. *)
Definition readAdding (add : T -> T -> T) (b : ring) (dest : list T) (n : nat)
  : option (ring * list T * nat) :=
  let w := writer b in
  let r := reader b in
  let available := readSpaceFor (size b) w r in
  let n := if decide (available < n) then available else n in
  if decide (n = 0) then Some (b, dest, 0) else
  xs ← copy_out b r n;
  ds ← load dest 0 n;
  dest' ← store dest 0 (zip_with add ds xs);
  r' ← wrap (r + n) (size b);
  Some (Ring (buf b) w r' (size b), dest', n).

(** RingBuffer.h:351-368 — [readOne]; [zero] is [T()]. *)
Definition readOne (zero : T) (b : ring) : option (ring * T) :=
  let w := writer b in
  let r := reader b in
  if decide (w = r) then Some (b, zero) else
  value ← buf b !! r;
  let r' := if decide (r + 1 = size b) then 0 else r + 1 in
  Some (Ring (buf b) w r' (size b), value).

(** RingBuffer.h:373-397 — [peek]. *)
Definition peek (b : ring) (dest : list T) (n : nat)
  : option (list T * nat) :=
  let w := writer b in
  let r := reader b in
  let available := readSpaceFor (size b) w r in
  let n := if decide (available < n) then available else n in
  if decide (n = 0) then Some (dest, 0) else
  xs ← copy_out b r n;
  dest' ← store dest 0 xs;
  Some (dest', n).

(** RingBuffer.h:401-414 — [peekOne]. *)
Definition peekOne (zero : T) (b : ring) : option T :=
  if decide (writer b = reader b) then Some zero
  else buf b !! reader b.

(** RingBuffer.h:418-437 — [skip]. *)
Definition skip (b : ring) (n : nat) : option (ring * nat) :=
  let w := writer b in
  let r := reader b in
  let available := readSpaceFor (size b) w r in
  let n := if decide (available < n) then available else n in
  if decide (n = 0) then Some (b, 0) else
  r' ← wrap (r + n) (size b);
  Some (Ring (buf b) w r' (size b), n).

(** RingBuffer.h:442-473 — [write(source, n)], [n] at most the length of the
    array [source]. *)
Definition write (b : ring) (source : list T) (n : nat) : option (ring * nat) :=
  let w := writer b in
  let r := reader b in
  let available := writeSpaceFor (size b) w r in
  let n := if decide (available < n) then available else n in
  if decide (n = 0) then Some (b, 0) else
  xs ← load source 0 n;
  buf' ← copy_in b w xs;
  w' ← wrap (w + n) (size b);
  Some (Ring buf' w' r (size b), n).

(** RingBuffer.h:477-508 — [zero(n)]. *)
Definition zero_fill (zero : T) (b : ring) (n : nat) : option (ring * nat) :=
  let w := writer b in
  let r := reader b in
  let available := writeSpaceFor (size b) w r in
  let n := if decide (available < n) then available else n in
  if decide (n = 0) then Some (b, 0) else
  buf' ← copy_in b w (replicate n zero);
  w' ← wrap (w + n) (size b);
  Some (Ring buf' w' r (size b), n).

(** RingBuffer.h:257-265 — [reset]. *)
Definition reset (b : ring) : ring := Ring (buf b) (reader b) (reader b) (size b).

(** RingBuffer.h:246-250 — copy loop of [resized]. *)
Fixpoint resized_loop (fuel : nat) (b : ring) (r : nat) (nb : ring) : option ring :=
  if decide (r = writer b) then Some nb else
  match fuel with
  | 0 => None
  | S f =>
    value ← buf b !! r;
    p ← write nb [value] 1;
    let r' := if decide (r + 1 = size b) then 0 else r + 1 in
    resized_loop f b r' (fst p)
  end.

(** RingBuffer.h:237-253 — [resized(newSize)]; [junk] is the new allocation.
    [size b] iterations are enough (Proofs.v); more is reported as [None]. *)
Definition resized (b : ring) (newSize : nat) (junk : list T) : option ring :=
  resized_loop (size b) b (reader b) (ring_new newSize junk).

(** One client call and its visible result. *)
Inductive op :=
  | OWrite (source : list T) (n : nat)
  | OZero (n : nat)
  | ORead (dest : list T) (n : nat)
  | OReadAdding (dest : list T) (n : nat)
  | OReadOne
  | OPeek (dest : list T) (n : nat)
  | OPeekOne
  | OSkip (n : nat)
  | OReset
  | OGetReadSpace
  | OGetWriteSpace.

Inductive out :=
  | RCount (n : nat)                    (* returned count *)
  | RData (dest : list T) (n : nat)     (* destination afterwards, count *)
  | RVal (x : T)
  | RUnit.

Definition step (zero : T) (add : T -> T -> T) (b : ring) (o : op)
  : option (ring * out) :=
  match o with
  | OWrite s n => '(b', k) ← write b s n; Some (b', RCount k)
  | OZero n => '(b', k) ← zero_fill zero b n; Some (b', RCount k)
  | ORead d n => '(b', d', k) ← read b d n; Some (b', RData d' k)
  | OReadAdding d n => '(b', d', k) ← readAdding add b d n; Some (b', RData d' k)
  | OReadOne => '(b', x) ← readOne zero b; Some (b', RVal x)
  | OPeek d n => '(d', k) ← peek b d n; Some (b, RData d' k)
  | OPeekOne => x ← peekOne zero b; Some (b, RVal x)
  | OSkip n => '(b', k) ← skip b n; Some (b', RCount k)
  | OReset => Some (reset b, RUnit)
  | OGetReadSpace => Some (b, RCount (getReadSpace b))
  | OGetWriteSpace => Some (b, RCount (getWriteSpace b))
  end.

Fixpoint run (zero : T) (add : T -> T -> T) (b : ring) (os : list op)
  : option (ring * list out) :=
  match os with
  | [] => Some (b, [])
  | o :: os =>
    '(b1, r) ← step zero add b o;
    '(b2, rs) ← run zero add b1 os;
    Some (b2, r :: rs)
  end.

End ring.
Arguments ring : clear implicits.
Arguments op : clear implicits.
Arguments out : clear implicits.
