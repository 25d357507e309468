(** The buffers of one channel of the R2 engine, from construction to destruction. *)
From stdpp Require Import prelude gmap.
From Verif Require Import Memory.Model.

(** StretcherChannelData.h:95-135, the parts that are memory.
    A ring buffer, an FFT and a resampler are each one block here (what they allocate
    inside is left out); a ring buffer of size n has n+1 cells (common/RingBuffer.h:197-208).
    [halves] are mag, phase, prevPhase, prevError, unwrappedPhase, envelope in this order;
    [scratch] fltbuf, dblbuf, ms, interpolator; [accs] accumulator, windowAccumulator. *)
Record cdata := CD {
  inbuf : nat; inSize : nat; outbuf : nat; outSize : nat;
  halves : list nat; scratch : list nat; accs : list nat;
  ffts : list (nat * option nat); fft : option nat;
  resampler : option nat; rbuf : option nat; rbufSize : nat
}.

Section Model.
Context {A : Type} (zero one : A).
Notation heap := (heap A).

(** One call for each pointer of a list. *)
Fixpoint each (f : heap -> nat -> option (nat * heap)) (h : heap) (ps : list nat) : option (list nat * heap) :=
  match ps with
  | [] => Some ([], h)
  | p :: ps => '(q, h) ← f h p; '(qs, h) ← each f h ps; Some (q :: qs, h)
  end.
Fixpoint zeros (h : heap) (ps : list nat) (n : nat) : option heap :=
  match ps with [] => Some h | p :: ps => h ← v_zero zero h p 0 n; zeros h ps n end.
Fixpoint frees (h : heap) (ps : list nat) : option heap :=
  match ps with [] => Some h | p :: ps => h ← deallocate h p; frees h ps end.
Definition freeOpt (h : heap) (p : option nat) : option heap := match p with Some p => deallocate h p | None => Some h end.

(** StretcherChannelData.cpp:254-282 *)
Definition reset (cd : cdata) (h : heap) : option heap :=
  h ← zeros h (accs cd) (inSize cd);
  w ← accs cd !! 1%nat; store h w 0 (Num one).

Definition ring (h : heap) (n : nat) : nat * heap := allocate h (S n).
Fixpoint makeFfts (h : heap) (sizes : list nat) : list (nat * option nat) * heap :=
  match sizes with
  | [] => ([], h)
  | n :: sizes => let '(b, h) := allocate h n in let '(fs, h) := makeFfts h sizes in ((n, Some b) :: fs, h)
  end.
(** ffts[n], which makes a null entry if there is none *)
Definition pick (fs : list (nat * option nat)) (n : nat) : option nat * list (nat * option nat) :=
  match list_find (fun e => fst e = n) fs with Some (_, e) => (snd e, fs) | None => (None, (n, None) :: fs) end.

(** StretcherChannelData.cpp:50-110.  [sizes] in increasing order. *)
Definition construct (h : heap) (sizes : list nat) (initialWindowSize initialFftSize outbufSize : nat) : option (cdata * heap) :=
  let maxSize := (initialWindowSize * 2)%nat in
  let maxSize := if decide (maxSize < initialFftSize)%nat then initialFftSize else maxSize in
  let maxSize := match last sizes with Some n => if decide (maxSize < n)%nat then n else maxSize | None => maxSize end in
  let realSize := (maxSize / 2 + 1)%nat in
  let outbufSize := if decide (outbufSize < maxSize)%nat then maxSize else outbufSize in
  let '(ib, h) := ring h maxSize in
  let '(ob, h) := ring h outbufSize in
  '(hs, h) ← each (fun h _ => allocate_and_zero zero h realSize) h [0;0;0;0;0;0]%nat;
  '(ss, h) ← each (fun h _ => allocate_and_zero zero h maxSize) h [0;0;0;0]%nat;
  '(ac, h) ← each (fun h _ => allocate_and_zero zero h maxSize) h [0;0]%nat;
  let '(fs, h) := makeFfts h sizes in
  let '(f, fs) := pick fs initialFftSize in
  let cd := CD ib maxSize ob outbufSize hs ss ac fs f None None 0 in
  h ← reset cd h;
  w ← ac !! 1%nat; h ← store h w 0 (Num one);
  Some (cd, h).

(** 128-139, 188-197: make the transform if it is not there, and take it *)
Definition takeFft (cd : cdata) (h : heap) (n : nat) : cdata * heap :=
  let '(fs, h) := match list_find (fun e => fst e = n) (ffts cd) with
    | Some _ => (ffts cd, h)
    | None => let '(b, h) := allocate h n in ((n, Some b) :: ffts cd, h) end in
  let '(f, fs) := pick fs n in
  (CD (inbuf cd) (inSize cd) (outbuf cd) (outSize cd) (halves cd) (scratch cd) (accs cd) fs f (resampler cd) (rbuf cd) (rbufSize cd), h).

(** StretcherChannelData.cpp:113-201.  What the ring buffers hold is left out here
    (resized() is in RingBuffer/Model). *)
Definition setSizes (cd : cdata) (h : heap) (windowSize fftSize : nat) : option (cdata * heap) :=
  let maxSize := (2 * (windowSize `max` fftSize))%nat in
  let realSize := (maxSize / 2 + 1)%nat in
  let oldMax := inSize cd in
  let oldReal := (oldMax / 2 + 1)%nat in
  if decide (maxSize <= oldMax)%nat then
    let '(cd, h) := takeFft cd h fftSize in
    h ← zeros h (take 2 (scratch cd)) maxSize;
    h ← zeros h (take 5 (halves cd)) realSize;
    Some (cd, h)
  else
    let '(ib, h) := ring h maxSize in
    h ← deallocate h (inbuf cd);
    '(hs, h) ← each (fun h p => reallocate_and_zero zero h (Some p) oldReal realSize) h (halves cd);
    '(ss, h) ← each (fun h p => reallocate_and_zero zero h (Some p) oldMax maxSize) h (scratch cd);
    '(ac, h) ← each (fun h p => reallocate_and_zero_extension zero h (Some p) oldMax maxSize) h (accs cd);
    Some (takeFft (CD ib maxSize (outbuf cd) (outSize cd) hs ss ac (ffts cd) (fft cd) (resampler cd) (rbuf cd) (rbufSize cd)) h fftSize).

(** StretcherChannelData.cpp:203-217 *)
Definition setOutbufSize (cd : cdata) (h : heap) (n : nat) : option (cdata * heap) :=
  if decide (outSize cd < n)%nat then
    let '(ob, h) := ring h n in
    h ← deallocate h (outbuf cd);
    Some (CD (inbuf cd) (inSize cd) ob n (halves cd) (scratch cd) (accs cd) (ffts cd) (fft cd) (resampler cd) (rbuf cd) (rbufSize cd), h)
  else Some (cd, h).
(** StretcherChannelData.cpp:219-224 *)
Definition setResampleBufSize (cd : cdata) (h : heap) (n : nat) : option (cdata * heap) :=
  '(b, h) ← reallocate_and_zero zero h (rbuf cd) (rbufSize cd) n;
  Some (CD (inbuf cd) (inSize cd) (outbuf cd) (outSize cd) (halves cd) (scratch cd) (accs cd) (ffts cd) (fft cd) (resampler cd) (Some b) n, h).
(** R2Stretcher.cpp:650-684, 794-817: a resampler if there is none, and its buffer *)
Definition makeResampler (cd : cdata) (h : heap) (rbs : nat) : option (cdata * heap) :=
  match resampler cd with
  | Some _ => Some (cd, h)
  | None => let '(b, h) := allocate h 1 in
    setResampleBufSize (CD (inbuf cd) (inSize cd) (outbuf cd) (outSize cd) (halves cd) (scratch cd) (accs cd) (ffts cd) (fft cd) (Some b) (rbuf cd) (rbufSize cd)) h rbs
  end.
(** StretcherChannelData.cpp:226-252 *)
Definition destroy (cd : cdata) (h : heap) : option heap :=
  h ← freeOpt h (resampler cd); h ← freeOpt h (rbuf cd);
  h ← deallocate h (inbuf cd); h ← deallocate h (outbuf cd);
  h ← frees h (halves cd); h ← frees h (scratch cd); h ← frees h (accs cd);
  frees h (omap snd (ffts cd)).

Inductive op := Sizes (window fft : nat) | OutbufSize (n : nat) | ResampleBufSize (n : nat) | MakeResampler (n : nat) | Reset.
Definition step (cd : cdata) (h : heap) (o : op) : option (cdata * heap) :=
  match o with
  | Sizes w f => setSizes cd h w f
  | OutbufSize n => setOutbufSize cd h n
  | ResampleBufSize n => setResampleBufSize cd h n
  | MakeResampler n => makeResampler cd h n
  | Reset => h ← reset cd h; Some (cd, h)
  end.
Fixpoint steps (cd : cdata) (h : heap) (os : list op) : option (cdata * heap) :=
  match os with [] => Some (cd, h) | o :: os => '(cd, h) ← step cd h o; steps cd h os end.
End Model.
