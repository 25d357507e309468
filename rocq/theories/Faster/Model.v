(** Model of the streaming core of the R2 engine: R2Stretcher::process
    (src/faster/R2Stretcher.cpp) and src/faster/StretcherProcess.cpp without
    worker threads.  Ring buffers are queues with a capacity: by property C01 a
    ring buffer behaves like one.  Samples are of an arbitrary type [A].  The
    spectral work (windows, FFT, phase vocoder, formant shift) is an arbitrary
    pair of functions [analyse], [modify] with their own state [S]; the
    resampler is an arbitrary function with state [R]; the real-time increment
    calculator an arbitrary function with state [K].  [None] is an
    out-of-bounds access or a loop that does not end. *)
From stdpp Require Import prelude.
From Coq Require Import ZArith QArith Qround.
From Verif Require Import Base.Arith.
Local Open Scope Z_scope.

(** The members fixed between reconfigurations.  [window] is m_aWindowSize and
    m_sWindowSize, equal by calculateSizes; [before] is
    resampleBeforeStretching(); [after] the test of StretcherProcess.cpp:1063-1066;
    [increments] is m_outputIncrements. *)
Record params := Params {
  window : Z; increment : Z; realtime : bool; timeRatio : Q; pitchScale : Q;
  before : bool; after : bool; smoothing : bool; increments : list Z
}.

(** StretcherChannelData.h:100-138.  [mag], [phase], ... are in [spec]. *)
Record channel (A S R : Type) := Chan {
  inbuf : list A; inCap : Z; outbuf : list A; outCap : Z;
  fltbuf : list A; acc : list A; wacc : list A; fill : Z;
  spec : S; rsm : R; rbSize : Z;
  chunkCount : Z; inCount : Z; inputSize : option Z; outCount : Z;
  draining : bool; outputComplete : bool
}.
Arguments Chan {A S R}. Arguments inbuf {A S R}. Arguments inCap {A S R}. Arguments outbuf {A S R}.
Arguments outCap {A S R}. Arguments fltbuf {A S R}. Arguments acc {A S R}. Arguments wacc {A S R}.
Arguments fill {A S R}. Arguments spec {A S R}. Arguments rsm {A S R}. Arguments rbSize {A S R}.
Arguments chunkCount {A S R}. Arguments inCount {A S R}. Arguments inputSize {A S R}.
Arguments outCount {A S R}. Arguments draining {A S R}. Arguments outputComplete {A S R}.

(** What is left open.  [zero] ... [half] are the sample arithmetic.
    [analyse] is analyseChunk (724-743): the time-domain chunk is cut in place.
    [modify] is modifyChunk and synthesiseChunk up to the synthesis window (745-1018).
    [shape] is what synthesiseChunk adds to the window accumulator (1022-1030).
    [resample] is Resampler::resample: state, input, space, ratio, final.
    [calculate] is calculateIncrements (521-649), from all channels' analysis:
    phase and shift increment and phase reset. *)
Record dsp (A S R K : Type) := Dsp {
  zero : A; one : A; add : A -> A -> A; sub : A -> A -> A; quot : A -> A -> A; half : A -> A;
  analyse : S -> list A -> list A * S;
  modify : S -> list A -> Z -> bool -> Z -> list A * S;
  shape : Z -> list A;
  resample : R -> list A -> Z -> Q -> bool -> list A * R;
  calculate : K -> list S -> Z * Z * bool * K
}.
Arguments zero {A S R K}. Arguments one {A S R K}. Arguments add {A S R K}. Arguments sub {A S R K}.
Arguments quot {A S R K}. Arguments half {A S R K}. Arguments analyse {A S R K}. Arguments modify {A S R K}.
Arguments shape {A S R K}. Arguments resample {A S R K}. Arguments calculate {A S R K}.

Section Engine.
Context {A S R K : Type} (D : dsp A S R K).

Notation chan := (channel A S R).
Implicit Types (P : params) (c : chan).

Definition firstn_z {T} (n : Z) (l : list T) : list T := take (Z.to_nat n) l.
Definition skipn_z {T} (n : Z) (l : list T) : list T := drop (Z.to_nat n) l.

(** VectorOps.h v_add, v_divide on the first [n] elements. *)
Definition v_zip (f : A -> A -> A) (dst src : list A) (n : Z) : option (list A) :=
  if (0 <=? n) && (n <=? zlen dst) && (n <=? zlen src)
  then Some (zip_with f (firstn_z n dst) (firstn_z n src) ++ skipn_z n dst) else None.
(** VectorOps.h v_move(buf, buf + si, sz - si), then v_zero(buf + sz - si, si). *)
Definition v_shift (buf : list A) (sz si : Z) : option (list A) :=
  if (0 <=? si) && (si <=? sz) && (sz <=? zlen buf)
  then Some (skipn_z si (firstn_z sz buf) ++ replicate (Z.to_nat si) (zero D) ++ skipn_z sz buf) else None.

(** RingBuffer::write: what does not fit is dropped. *)
Definition pushed (buf xs : list A) (cap : Z) : list A := buf ++ firstn_z (cap - zlen buf) xs.

(** Setters. *)
Definition set_in c inb n : chan := Chan inb (inCap c) (outbuf c) (outCap c) (fltbuf c) (acc c) (wacc c) (fill c)
  (spec c) (rsm c) (rbSize c) (chunkCount c) n (inputSize c) (outCount c) (draining c) (outputComplete c).
Definition set_inrs c inb n r b : chan := Chan inb (inCap c) (outbuf c) (outCap c) (fltbuf c) (acc c) (wacc c) (fill c)
  (spec c) r b (chunkCount c) n (inputSize c) (outCount c) (draining c) (outputComplete c).
Definition set_out c o n : chan := Chan (inbuf c) (inCap c) o (outCap c) (fltbuf c) (acc c) (wacc c) (fill c)
  (spec c) (rsm c) (rbSize c) (chunkCount c) (inCount c) (inputSize c) n (draining c) (outputComplete c).
Definition set_outCap c n : chan := Chan (inbuf c) (inCap c) (outbuf c) n (fltbuf c) (acc c) (wacc c) (fill c)
  (spec c) (rsm c) (rbSize c) (chunkCount c) (inCount c) (inputSize c) (outCount c) (draining c) (outputComplete c).
Definition set_rsm c r b : chan := Chan (inbuf c) (inCap c) (outbuf c) (outCap c) (fltbuf c) (acc c) (wacc c) (fill c)
  (spec c) r b (chunkCount c) (inCount c) (inputSize c) (outCount c) (draining c) (outputComplete c).
Definition set_flt c f s : chan := Chan (inbuf c) (inCap c) (outbuf c) (outCap c) f (acc c) (wacc c) (fill c)
  s (rsm c) (rbSize c) (chunkCount c) (inCount c) (inputSize c) (outCount c) (draining c) (outputComplete c).
Definition set_acc c a w f : chan := Chan (inbuf c) (inCap c) (outbuf c) (outCap c) (fltbuf c) a w f
  (spec c) (rsm c) (rbSize c) (chunkCount c) (inCount c) (inputSize c) (outCount c) (draining c) (outputComplete c).
Definition set_chunk c n : chan := Chan (inbuf c) (inCap c) (outbuf c) (outCap c) (fltbuf c) (acc c) (wacc c) (fill c)
  (spec c) (rsm c) (rbSize c) n (inCount c) (inputSize c) (outCount c) (draining c) (outputComplete c).
Definition set_size c n : chan := Chan (inbuf c) (inCap c) (outbuf c) (outCap c) (fltbuf c) (acc c) (wacc c) (fill c)
  (spec c) (rsm c) (rbSize c) (chunkCount c) (inCount c) n (outCount c) (draining c) (outputComplete c).
Definition set_drain c d : chan := Chan (inbuf c) (inCap c) (outbuf c) (outCap c) (fltbuf c) (acc c) (wacc c) (fill c)
  (spec c) (rsm c) (rbSize c) (chunkCount c) (inCount c) (inputSize c) (outCount c) d (outputComplete c).
Definition set_complete c d : chan := Chan (inbuf c) (inCap c) (outbuf c) (outCap c) (fltbuf c) (acc c) (wacc c) (fill c)
  (spec c) (rsm c) (rbSize c) (chunkCount c) (inCount c) (inputSize c) (outCount c) (draining c) d.

(** StretcherProcess.cpp:129-147 applied to whole signals; the code does it
    block by block, sample for sample. *)
Definition prepareMS (mid : bool) (l r : list A) : list A :=
  zip_with (fun a b => if mid then half D (add D a b) else half D (sub D a b)) l r.

(** StretcherProcess.cpp:149-260; [input] is what is left of the (prepared)
    block for this channel, [useMidSide] limits a resampled block to the size of
    the mid/side buffer (185-192), which is the size of the input buffer.
    Returns the count consumed. *)
Definition consumeChannel P c (input : list A) (useMidSide final : bool) : Z * chan :=
  let writable := inCap c - zlen (inbuf c) in
  let samples := zlen input in
  if before P then
    let short := writable <? cceil (inject_Z samples / pitchScale P) in         (* 177-183 *)
    let samples := if short then Qfloor (inject_Z writable * pitchScale P) else samples in
    if short && (samples =? 0) then (0, c) else
    let samples := if useMidSide && (inCap c <? samples) then inCap c else samples in
    let rb := Z.max (rbSize c) (cceil (inject_Z samples / pitchScale P)) in      (* 194-198 *)
    let '(out, r) := resample D (rsm c) (firstn_z samples input) rb (/ pitchScale P) (final && negb short) in
    if writable <? zlen out then (0, set_rsm c r rb)                            (* 227-231 *)
    else (samples, set_inrs c (pushed (inbuf c) out (inCap c)) (inCount c + samples) r rb)
  else
    let n := Z.min writable samples in                                          (* 227-233 *)
    (n, set_in c (inbuf c ++ firstn_z n input) (inCount c + n)).

(** StretcherProcess.cpp:375-419 *)
Definition testInbufReadSpace P c : bool * chan :=
  let rs := zlen (inbuf c) in
  if (rs <? window P) && negb (draining c) then
    match inputSize c with
    | None => (false, c)
    | Some _ => if rs =? 0 then (false, c)
                else if rs <? window P / 2 then (true, set_drain c true) else (true, c)
    end
  else (true, c).

(** StretcherProcess.cpp:290-293 and 351-354.  RingBuffer::peek with
    min(ready, window) overwrites only that many samples of fltbuf. *)
Definition peekChunk P c : option chan :=
  let n := Z.min (zlen (inbuf c)) (window P) in
  if n <=? zlen (fltbuf c) then
    Some (set_flt (set_in c (skipn_z (increment P) (inbuf c)) (inCount c))
                  (firstn_z n (inbuf c) ++ skipn_z n (fltbuf c)) (spec c))
  else None.

(** StretcherProcess.cpp:651-722: phase increment, shift increment, phase reset, gotData. *)
Definition getIncrements P c : option (Z * Z * bool * bool * chan) :=
  let n := zlen (increments P) in
  if (n <=? chunkCount c) && (n =? 0) then Some (increment P, increment P, false, false, c)
  else
    let got := chunkCount c <? n in
    let k := if got then chunkCount c else n - 1 in
    p ← getZ (increments P) k;
    let s := default p (if k + 1 <? n then getZ (increments P) (k + 1) else None) in
    Some (Z.abs p, Z.abs s, (p <? 0) || (k =? 0), got, set_chunk c k).

(** StretcherProcess.cpp:1127-1189 *)
Definition startSkip P : Z :=
  if realtime P then 0 else rint (inject_Z (window P / 2) / pitchScale P).
Definition writeOutput P c (from : list A) (theoreticalOut : Z) : chan :=
  let skip := startSkip P in
  let qty := zlen from in
  if skip <? outCount c then
    let pos := outCount c - skip in
    let qty := if (0 <? theoreticalOut) && (pos <=? theoreticalOut) && (theoreticalOut <? pos + qty)
               then theoreticalOut - pos else qty in
    let o := pushed (outbuf c) (firstn_z qty from) (outCap c) in
    set_out c o (outCount c + (zlen o - zlen (outbuf c)))
  else if outCount c + qty <=? skip then set_out c (outbuf c) (outCount c + qty)
  else set_out c (pushed (outbuf c) (skipn_z (skip - outCount c) from) (outCap c)) (outCount c + qty).

(** StretcherProcess.cpp:1033-1125 *)
Definition writeChunk P c (si : Z) (last : bool) : option chan :=
  a ← v_zip (quot D) (acc c) (wacc c) si;
  let theoreticalOut := match inputSize c with Some n => rint (inject_Z n * timeRatio P) | None => 0 end in
  let c1 :=
    if after P then
      let rb := Z.max (rbSize c) (cceil (inject_Z si / pitchScale P)) in
      let '(out, r) := resample D (rsm c) (firstn_z si a) rb (/ pitchScale P) last in
      writeOutput P (set_rsm c r rb) out theoreticalOut
    else writeOutput P c (firstn_z si a) theoreticalOut in
  a' ← v_shift a (fill c) si;
  w' ← v_shift (wacc c) (fill c) si;
  Some (if si <? fill c then set_acc c1 a' w' (fill c - si)
        else let c2 := set_acc c1 a' w' 0 in if draining c then set_complete c2 true else c2).

(** StretcherProcess.cpp:456-457 and the accumulation of 1018-1030 *)
Definition synthesise P c (phaseIncr si : Z) (reset : bool) : option chan :=
  let '(f, s) := modify D (spec c) (fltbuf c) phaseIncr reset si in
  a ← v_zip (add D) (acc c) f (window P);
  w ← v_zip (add D) (wacc c) (shape D si) (window P);
  Some (set_acc (set_flt c (if smoothing P then firstn_z (window P) (shape D si) ++ skipn_z (window P) f else f) s) a w (Z.max (fill c) (window P))).

(** StretcherProcess.cpp:470-486: the shift to use and whether this is the last
    chunk; [None] when there is nothing left to write. *)
Definition drainShift P c (si : Z) : option (Z * bool) :=
  if draining c then
    if fill c =? 0 then None
    else let si := if si =? 0 then increment P else si in
         if fill c <=? si then Some (fill c, true) else Some (si, false)
  else Some (si, false).

(** StretcherProcess.cpp:421-519 *)
Definition processChunkForChannel P c (phaseIncr si : Z) (reset : bool) : option (bool * chan) :=
  c1 ← (if draining c then Some c else synthesise P c phaseIncr si reset);
  match drainShift P c1 si with
  | None => Some (true, c1)
  | Some (si, last) =>
    let required := if Qeq_bool (pitchScale P) 1 then si else Qfloor (inject_Z si / pitchScale P) + 1 in
    let c2 := if outCap c1 - zlen (outbuf c1) <? required then set_outCap c1 (outCap c1 * 2) else c1 in
    c3 ← writeChunk P c2 si last;
    Some (last, c3)
  end.

(** StretcherProcess.cpp:310-319: the pieces of an overlong increment. *)
Fixpoint pieces (fuel : nat) P c (flt : list A) (phaseIncr si i bit : Z) (reset last : bool) : option (bool * chan) :=
  match fuel with
  | O => None
  | Datatypes.S f =>
    if i <? si then
      let this := if si <? i + bit then si - i else bit in
      x ← processChunkForChannel P (set_flt c flt (spec c)) (phaseIncr + i) this reset;
      let '(last, c) := x in pieces f P c flt phaseIncr si (i + bit) bit false last
    else Some (last, c)
  end.

(** StretcherProcess.cpp:280-325: one round of the loop; returns [last]. *)
Definition processChunk P c : option (bool * chan) :=
  c ← (if draining c then Some c else peekChunk P c);
  x ← getIncrements P c;
  let '(p, si, reset, _, c) := x in
  let '(flt, s) := analyse D (spec c) (fltbuf c) in
  let c := set_flt c flt s in
  y ← (if si <=? window P then processChunkForChannel P c p si reset
       else pieces (Datatypes.S (Z.to_nat si)) P c flt p si 0 (window P / 4) reset false);
  let '(last, c) := y in Some (last, set_chunk c (chunkCount c + 1)).

(** StretcherProcess.cpp:262-328 *)
Fixpoint processChunks (fuel : nat) P c : option chan :=
  match fuel with
  | O => None
  | Datatypes.S f =>
    let '(ok, c) := testInbufReadSpace P c in
    if ok then x ← processChunk P c; let '(last, c) := (x : bool * chan) in if last then Some c else processChunks f P c
    else Some c
  end.
(** Each round takes at least one sample from the input or the accumulator. *)
Definition enough P c : nat := Z.to_nat (zlen (inbuf c) + Z.max (fill c) (window P) + 3).

(** R2Stretcher.cpp:1293-1354 for one channel in offline mode: channels do not
    affect each other there. *)
Fixpoint feed (fuel : nat) P c (input : list A) (useMidSide final : bool) : option chan :=
  match fuel with
  | O => None
  | Datatypes.S f =>
    let '(n, c) := consumeChannel P c input useMidSide final in
    let rest := skipn_z n input in
    let c := if (zlen rest =? 0) && final then set_size c (Some (inCount c)) else c in
    c ← processChunks (enough P c) P c;
    if zlen rest =? 0 then Some c else feed f P c rest useMidSide final
  end.
(** R2Stretcher.cpp:1240-1359, offline, one channel, after the life-cycle tests. *)
Definition process P c (input : list A) (useMidSide final : bool) : option chan :=
  feed (Datatypes.S (Z.to_nat (zlen input))) P c input useMidSide final.

(** StretcherProcess.cpp:343-357: true when every channel had enough input.
    When one has not, the channels before it have already moved on. *)
Fixpoint takeChunks P (cs : list chan) : option (bool * list chan) :=
  match cs with
  | [] => Some (true, [])
  | c :: cs =>
    let '(ok, c) := testInbufReadSpace P c in
    if ok then
      c ← (if draining c then Some c
           else c ← peekChunk P c;
                let '(flt, s) := analyse D (spec c) (fltbuf c) in Some (set_flt c flt s));
      x ← takeChunks P cs; let '(b, cs) := x in Some (b, c :: cs)
    else Some (false, c :: cs)
  end.
(** StretcherProcess.cpp:365-369 *)
Fixpoint runChunks P (cs : list chan) (p si : Z) (reset last : bool) : option (bool * list chan) :=
  match cs with
  | [] => Some (last, [])
  | c :: cs =>
    x ← processChunkForChannel P c p si reset;
    let '(last, c) := x in
    y ← runChunks P cs p si reset last;
    let '(last, cs) := y in Some (last, set_chunk c (chunkCount c + 1) :: cs)
  end.
(** StretcherProcess.cpp:330-373.  In real time m_outputIncrements is empty, so
    getIncrements always fails and calculateIncrements decides. *)
Definition processOneChunk P (k : K) (cs : list chan) : option (bool * K * list chan) :=
  x ← takeChunks P cs;
  let '(ok, cs) := (x : bool * list chan) in
  if ok then
    let '(p, si, reset, k) := calculate D k (spec <$> cs) in
    y ← runChunks P cs p si reset false;
    let '(last, cs) := y in Some (last, k, cs)
  else Some (false, k, cs).

(** R2Stretcher.cpp:1303-1330: one pass over the channels in real time. *)
Fixpoint consumeAll P (useMidSide : nat -> bool) (i : nat) (cs : list chan) (inputs : list (list A)) (final : bool)
  : list chan * list (list A) :=
  match cs, inputs with
  | c :: cs, input :: inputs =>
    let '(n, c) := consumeChannel P c input (useMidSide i) final in
    let rest := skipn_z n input in
    let c := if (zlen rest =? 0) && final then set_size c (Some (inCount c)) else c in
    let '(cs, rests) := consumeAll P useMidSide (Datatypes.S i) cs inputs final in (c :: cs, rest :: rests)
  | cs, _ => (cs, [])
  end.
(** R2Stretcher.cpp:1293-1354 in real time. *)
Fixpoint feedRT (fuel : nat) P (useMidSide : nat -> bool) (k : K) (cs : list chan) (inputs : list (list A)) (final : bool)
  : option (K * list chan) :=
  match fuel with
  | O => None
  | Datatypes.S f =>
    let '(cs, rests) := consumeAll P useMidSide 0 cs inputs final in
    x ← processOneChunk P k cs;
    let '(_, k, cs) := x in
    if forallb (fun r => zlen r =? 0) rests then Some (k, cs) else feedRT f P useMidSide k cs rests final
  end.

(** StretcherProcess.cpp:1213-1220, the loop in available(); [None] when the
    rounds run out. *)
Fixpoint drainRT (fuel : nat) P (k : K) (cs : list chan) : option (K * list chan) :=
  match fuel with
  | O => None
  | Datatypes.S f =>
    match cs with
    | [] => None
    | c :: _ =>
      if (0 <? zlen (inbuf c)) || draining c then
        x ← processOneChunk P k cs;
        let '(last, k, cs) := (x : bool * K * list chan) in if last then Some (k, cs) else drainRT f P k cs
      else Some (k, cs)
    end
  end.
(** StretcherProcess.cpp:1235-1250: the answer once processing has caught up.
    Lines 1252-1264 return the same minimum, as every channel has its resampler
    whenever the pitch scale is not 1 (R2Stretcher.cpp:649-684, 795-819). *)
Definition report (cs : list chan) : Z :=
  let m := match cs with [] => 0 | c :: cs => foldr (fun c m => Z.min (zlen (outbuf c)) m) (zlen (outbuf c)) cs end in
  if (m =? 0) && forallb outputComplete cs then -1 else m.
(** StretcherProcess.cpp:1191-1265 in real time. *)
Definition availableRT (fuel : nat) P (k : K) (cs : list chan) : option (Z * K * list chan) :=
  match cs with
  | [] => Some (0, k, cs)
  | c :: _ =>
    x ← match inputSize c with Some _ => drainRT fuel P k cs | None => Some (k, cs) end;
    let '(k, cs) := x in Some (report cs, k, cs)
  end.

(** StretcherProcess.cpp:1276-1284: each channel reads at most what the one before gave. *)
Fixpoint takeOut (cs : list chan) (got : Z) : list (list A) * Z * list chan :=
  match cs with
  | [] => ([], got, [])
  | c :: cs =>
    let x := firstn_z got (outbuf c) in
    let '(xs, got', cs) := takeOut cs (zlen x) in
    (x :: xs, got', set_out c (skipn_z got (outbuf c)) (outCount c) :: cs)
  end.

(** R2Stretcher.cpp:1187-1238 *)
Fixpoint required P (cs : list chan) (reqd : Z) : Z :=
  match cs with
  | [] => reqd
  | c :: cs =>
    let rs := zlen (inbuf c) in
    let reqd := if (zlen (outbuf c) =? 0) && (reqd =? 0) then increment P else reqd in
    let here := if (rs <? window P) && negb (draining c) then
                  match inputSize c with
                  | None => window P - rs
                  | Some _ => if rs =? 0 then window P else 0
                  end
                else 0 in
    required P cs (if reqd <? here then here else reqd)
  end.
Definition getSamplesRequired P (cs : list chan) : Z :=
  let reqd := required P cs 0 in
  if before P && ltQ 1 (pitchScale P) then cceil (inject_Z reqd * pitchScale P) else reqd.

(** StretcherChannelData.cpp:254-282 for the buffers and counters, with the
    spectral state [s] and the resampler state [r] it leaves. *)
Definition resetChannel c (s : S) (r : R) : chan :=
  Chan [] (inCap c) [] (outCap c) (fltbuf c)
    (replicate (length (acc c)) (zero D)) (one D :: replicate (pred (length (wacc c))) (zero D)) 0
    s r (rbSize c) 0 0 None 0 false false.
(** R2Stretcher.cpp:715-720 and 1262-1265: offline prefill. *)
Definition prefill P c : chan := set_in c (replicate (Z.to_nat (window P / 2)) (zero D)) 0.
End Engine.
