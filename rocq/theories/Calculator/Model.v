(** StretchCalculator: how much output each chunk of input becomes.
    [double] and [float] quantities are exact rationals, integers are unbounded,
    logging is left out.  [None] is undefined behaviour in the C++ code: an index
    out of range, or a negative [double] converted to [size_t]. *)
From stdpp Require Import prelude.
From Coq Require Import ZArith QArith Qround Lia.
From Verif.Base Require Import Arith.
Local Open Scope Z_scope.

(** StretchCalculator.h:85-88 *)
Record peak := Peak { chunk : Z; hard : bool }.

(** StretchCalculator.h:99-117; [m_peaks] is passed between the functions below
    rather than stored, [std::map] is an association list sorted by key. *)
Record calc := Calc {
  sampleRate : Z;
  increment : Z;
  prevDf : Q;
  prevRatio : Q;
  prevTimeRatio : Q;
  justReset : bool;
  transientAmnesty : Z;
  useHardPeaks : bool;
  inFrameCounter : Z;
  frameCheckpoint : Z * Z;
  outFrameCounter : Q;
  keyFrameMap : list (Z * Z)
}.

(** StretchCalculator.cpp:39-58 *)
Definition create (rate incr : Z) (hp : bool) : calc :=
  Calc rate incr 0 1 1 true 0 hp 0 (0, 0) 0 [].

(** StretchCalculator.cpp:64-77; keys are unsigned, so 0 goes to the front. *)
Definition with_zero (m : list (Z * Z)) : list (Z * Z) :=
  match m with
  | [] => []
  | (k, _) :: _ => if k =? 0 then m else (0, 0) :: m
  end.
Definition setKeyFrameMap (c : calc) (m : list (Z * Z)) : calc :=
  Calc (sampleRate c) (increment c) (prevDf c) (prevRatio c) (prevTimeRatio c) (justReset c)
    (transientAmnesty c) (useHardPeaks c) (inFrameCounter c) (frameCheckpoint c) (outFrameCounter c)
    (with_zero m).

(** StretchCalculator.h:81 *)
Definition setUseHardPeaks (c : calc) (hp : bool) : calc :=
  Calc (sampleRate c) (increment c) (prevDf c) (prevRatio c) (prevTimeRatio c) (justReset c)
    (transientAmnesty c) hp (inFrameCounter c) (frameCheckpoint c) (outFrameCounter c) (keyFrameMap c).

(** StretchCalculator.cpp:516-529 *)
Definition reset (c : calc) : calc :=
  Calc (sampleRate c) (increment c) 0 1 1 true 0 (useHardPeaks c) 0 (0, 0) 0 [].

(** StretchCalculator.cpp:772-788 *)
Definition smooth_at (df : list Q) (i : Z) : option Q :=
  '(t1, c1) ← (if 0 <? i then x ← getZ df (i - 1); Some (x, 1) else Some (0%Q, 0));
  x ← getZ df i;
  '(t3, c3) ← (if i + 1 <? zlen df then y ← getZ df (i + 1); Some ((t1 + x + y)%Q, c1 + 2)
               else Some ((t1 + x)%Q, c1 + 1));
  Some (t3 / inject_Z c3)%Q.
Definition smoothDF (df : list Q) : option (list Q) :=
  mapM (fun i => smooth_at df i) (seqZ 0 (zlen df)).

(** Number of chunks in about 0.05 s, at least: lines 554-555, 631-632, 462-463. *)
Definition spacing (rate incr : Z) : Z := rint (inject_Z (cceil (inject_Z rate / (20 * inject_Z incr)))).

(** [std::set<size_t>::insert] *)
Fixpoint set_insert (x : Z) (s : list Z) : list Z :=
  match s with
  | [] => [x]
  | y :: s' => if x <? y then x :: s else if x =? y then s else y :: set_insert x s'
  end.

(** Lines 571-605: is chunk [i] a hard peak? *)
Definition is_hard (df : list Q) (i : Z) (d d1 : Q) : option bool :=
  if ltQ (4 # 10) d then Some true
  else if ltQ (d1 * (14 # 10)) d then Some true
  else
    h2 ← (if 1 <? i
          then d2 ← getZ df (i - 2); Some (ltQ (d1 * (12 # 10)) d && ltQ (d2 * (12 # 10)) d1)
          else Some false);
    if h2 : bool then Some true
    else if 2 <? i then
      d2 ← getZ df (i - 2); d3 ← getZ df (i - 3);
      Some (ltQ (3 # 10) d && ltQ (d2 * (11 # 10)) d1 && ltQ (d3 * (11 # 10)) d2)
    else Some false.

(** Lines 560-619; [n] iterations starting from chunk [i], candidates [cand], most
    recent one [prev]. *)
Fixpoint hard_loop (raw df : list Q) (amnesty : Z) (n : nat) (i : Z) (cand : list Z) (prev : Z) : option (list Z) :=
  match n with
  | O => Some cand
  | S n' =>
    d ← getZ df i;
    d1 ← getZ df (i - 1);
    if ltQ d (1 # 10) || Qle_bool d (d1 * (11 # 10)) || ltQ d (22 # 100) ||
       (negb (bool_decide (cand = [])) && (i <? prev + amnesty))
    then hard_loop raw df amnesty n' (i + 1) cand prev
    else
      h ← is_hard df i d d1;
      if h : bool then
        loc ← (if i + 1 <? zlen raw
               then a ← getZ raw i; b ← getZ raw (i + 1); Some (if ltQ (a * (14 # 10)) b then i + 1 else i)
               else Some i);
        hard_loop raw df amnesty n' (i + 1) (set_insert loc cand) loc
      else hard_loop raw df amnesty n' (i + 1) cand prev
  end.

(** [std::sort], line 676 *)
Fixpoint insertQ (x : Q) (l : list Q) : list Q :=
  match l with
  | [] => [x]
  | y :: l' => if Qle_bool x y then x :: l else y :: insertQ x l'
  end.
Definition sortQ (l : list Q) : list Q := foldr insertQ [] l.

(** Lines 692-699: the highest value from [j] on, until one falls below the middle. *)
Fixpoint max_loop (win : list Q) (mid : Q) (n : nat) (j maxindex : Z) (maxval : Q) : option Z :=
  match n with
  | O => Some maxindex
  | S n' =>
    x ← getZ win j;
    if ltQ maxval x then max_loop win mid n' (j + 1) j x
    else if ltQ x mid then Some maxindex
    else max_loop win mid n' (j + 1) maxindex maxval
  end.

(** Lines 678-682 *)
Definition threshold (sorted : list Q) : option Q :=
  let n := zlen sorted in
  let index := (n * 90) / 100 in
  let index := if n <=? index then n - 1 else index in
  let index := if (index =? n - 1) && (0 <? index) then index - 1 else index in
  getZ sorted index.

(** Lines 684-687, with the short-circuit order of evaluation. *)
Definition soft_test (win : list Q) (middle : Z) (thresh : Q) (amnesty : Z) : option bool :=
  m ← getZ win middle;
  if ltQ thresh m then
    a ← getZ win (middle - 1);
    if ltQ a m then
      b ← getZ win (middle + 1);
      Some (ltQ b m && (amnesty =? 0))
    else Some false
  else Some false.

(** Lines 647-726: one iteration.  State: window, candidates, last candidate,
    amnesty. *)
Definition soft_step (df : list Q) (maxsize minspacing i : Z) (st : list Q * list Z * Z * Z)
    : option (list Q * list Z * Z * Z) :=
  let '(win, cand, lastp, amn) := st in
  let mediansize := Z.min maxsize (zlen win) in
  let middle := if mediansize <=? maxsize / 2 then mediansize - 1 else maxsize / 2 in
  let nextDf := i + mediansize - middle in
  next ← (if nextDf <? zlen df then getZ df nextDf else Some 0%Q);
  if mediansize <? 2 then
    Some ((if maxsize <? mediansize then drop 1 win else win) ++ [next], cand, lastp, amn)
  else
    if bool_decide (zlen (take (Z.to_nat mediansize) win) < mediansize) then None else
    thresh ← threshold (sortQ (take (Z.to_nat mediansize) win));
    t ← soft_test win middle thresh amn;
    '(cand, lastp, amn) ←
      (if t : bool then
         m ← getZ win middle;
         maxindex ← max_loop win m (Z.to_nat (mediansize - (middle + 1))) (middle + 1) middle m;
         let p := i + maxindex - middle in
         let add := (bool_decide (cand = []) || negb (lastp =? p)) && (p <? zlen df) in
         Some (if add then set_insert p cand else cand, if add then p else lastp,
               minspacing + maxindex - middle)
       else Some (cand, lastp, if 0 <? amn then amn - 1 else amn));
    Some ((if maxsize <=? mediansize then drop 1 win else win) ++ [next], cand, lastp, amn).

Fixpoint soft_loop (df : list Q) (maxsize minspacing : Z) (n : nat) (i : Z) (st : list Q * list Z * Z * Z)
    : option (list Q * list Z * Z * Z) :=
  match n with
  | O => Some st
  | S n' => st' ← soft_step df maxsize minspacing i st; soft_loop df maxsize minspacing n' (i + 1) st'
  end.

(** Lines 728-767; [out] is reversed. *)
Fixpoint merge_loop (n : nat) (hs ss : list Z) (out : list peak) : option (list peak) :=
  match hs, ss with
  | [], [] => Some (rev out)
  | _, _ =>
    match n with
    | O => None
    | S n' =>
      let have_soft := negb (bool_decide (ss = [])) in
      let hp := default 0 (head hs) in
      let sp := default 0 (head ss) in
      if negb (bool_decide (hs = [])) && (negb have_soft || (hp <=? sp)) then
        merge_loop n' (tail hs) (if have_soft && (hp =? sp) then tail ss else ss) (Peak hp true :: out)
      else
        let ignore := match out with q :: _ => hard q && (sp <=? chunk q + 3) | [] => false end in
        merge_loop n' hs (tail ss) (if ignore then out else Peak sp false :: out)
    end
  end.

(** Lines 622-629 *)
Definition median_max (rate incr : Z) : Z := Z.max 7 (rint (inject_Z (cceil (inject_Z rate / inject_Z incr)))).

(** StretchCalculator.cpp:531-770 *)
Definition findPeaks (c : calc) (raw : list Q) : option (list peak) :=
  df ← smoothDF raw;
  hs ← (if useHardPeaks c
        then hard_loop raw df (spacing (sampleRate c) (increment c)) (Z.to_nat (zlen df - 2)) 1 [] 0
        else Some []);
  let mm := median_max (sampleRate c) (increment c) in
  let win := replicate (Z.to_nat (mm / 2)) 0%Q ++ take (Z.to_nat (mm / 2)) df in
  '(_, ss, _, _) ← soft_loop df mm (spacing (sampleRate c) (increment c)) (length df) 0 (win, [], 0, 0);
  merge_loop (length hs + length ss) hs ss [].

(** Lines 270-313: the detected peaks between two key frames.  Peaks and targets
    pushed so far, reversed and paired; the peaks not yet dealt with come back. *)
Fixpoint between (incr srcStart srcEnd tgtStart tgtEnd : Z) (ps : list peak) (out : list (peak * Z))
    : option (list peak * list (peak * Z)) :=
  match ps with
  | [] => Some ([], out)
  | p :: ps' =>
    if chunk p <? srcStart then between incr srcStart srcEnd tgtStart tgtEnd ps' out
    else if chunk p =? srcStart then
      match out with
      | [] => None
      | (q, t) :: out' => between incr srcStart srcEnd tgtStart tgtEnd ps' ((Peak (chunk q) true, t) :: out')
      end
    else if srcEnd <=? chunk p then Some (ps, out)
    else
      let proportion := (inject_Z (chunk p - srcStart) / inject_Z (srcEnd - srcStart))%Q in
      let target := tgtStart + rint (proportion * inject_Z (tgtEnd - tgtStart)) in
      match out with
      | [] => None
      | (_, t) :: _ =>
        if target <=? t + incr then between incr srcStart srcEnd tgtStart tgtEnd ps' out
        else between incr srcStart srcEnd tgtStart tgtEnd ps' ((p, target) :: out)
      end
  end.

(** Lines 230-314 *)
Fixpoint map_loop (incr outputDuration totalCount : Z) (m : list (Z * Z)) (ps : list peak) (out : list (peak * Z))
    : option (list (peak * Z)) :=
  match m with
  | [] => Some (rev out)
  | (s, t) :: m' =>
    let srcStart := s / incr in
    let srcEnd := match m' with (s', _) :: _ => s' / incr | [] => totalCount end in
    let tgtEnd := match m' with (_, t') :: _ => t' | [] => outputDuration end in
    if (totalCount <=? srcStart) || (srcEnd <=? srcStart) || (outputDuration <=? t) || (tgtEnd <=? t)
    then map_loop incr outputDuration totalCount m' ps out
    else
      '(ps', out') ← between incr srcStart srcEnd t tgtEnd ps ((Peak srcStart false, t) :: out);
      map_loop incr outputDuration totalCount m' ps' out'
  end.

(** StretchCalculator.cpp:197-315 *)
Definition mapPeaks (incr : Z) (m : list (Z * Z)) (ps : list peak) (outputDuration totalCount : Z)
    : option (list (peak * Z)) :=
  match m with
  | [] => Some ((fun p => (p, rint (inject_Z (chunk p) * inject_Z outputDuration / inject_Z totalCount))) <$> ps)
  | _ => map_loop incr outputDuration totalCount m ps []
  end.

(** Lines 172-178: the increments of all chunks of a region but the last. *)
Fixpoint spread (n : nat) (per acc : Q) (total : Z) : option (list Z * Z) :=
  match n with
  | O => Some ([], total)
  | S n' =>
    let acc := (acc + per)%Q in
    let incr := cround (acc - inject_Z total) in
    if incr <? 0 then None else
    '(l, total') ← spread n' per acc (total + incr);
    Some (incr :: l, total')
  end.

(** Lines 136-187: a region of [n] chunks that is to become [d] frames.  The
    division by [nchunks - 1 = 0] on line 164 gives a value that is never used. *)
Definition region (m_increment d n : Z) (phaseReset : bool) : option (list Z) :=
  if n =? 0 then Some [] else
  let first := if phaseReset then (if 1 <? n then Z.min m_increment d else d) else 0 in
  let nremaining := if phaseReset then n - 1 else n in
  let per := (inject_Z (d - first) / inject_Z nremaining)%Q in
  let pre := if phaseReset then [- first] else [] in
  if 0 <? nremaining then
    '(l, total) ← spread (Z.to_nat (nremaining - 1)) per (inject_Z first) first;
    Some (pre ++ l ++ (if total <? d then [d - total] else []))
  else Some pre.

(** Lines 106-188; [startChunk], [start], [reset] describe the previous peak. *)
Fixpoint regions (m_increment outputDuration totalCount : Z) (startChunk start : Z) (phaseReset : bool)
    (ps : list (peak * Z)) : option (list Z) :=
  let '(endChunk, end_) :=
    match ps with [] => (totalCount, outputDuration) | (p, t) :: _ => (chunk p, t) end in
  let sc := Z.min startChunk totalCount in
  let s := Z.min start outputDuration in
  let ec := Z.max (Z.min endChunk totalCount) sc in
  let e := Z.max (Z.min end_ outputDuration) s in
  l ← region m_increment (e - s) (ec - sc) phaseReset;
  match ps with
  | [] => Some l
  | (p, t) :: ps' =>
    k ← regions m_increment outputDuration totalCount (chunk p) t (hard p) ps';
    Some (l ++ k)
  end.

(** StretchCalculator.cpp:79-195; [inputDuration] is only logged there. *)
Definition output_duration (c : calc) (ratio : Q) (df : list Q) : Z :=
  rint (inject_Z (zlen df * increment c) * ratio).
Definition calculate (c : calc) (ratio : Q) (df : list Q) : option (list Z) :=
  ps ← findPeaks c df;
  pts ← mapPeaks (increment c) (keyFrameMap c) ps (output_duration c ratio df) (zlen df);
  regions (increment c) (output_duration c ratio df) (zlen df) 0 0 false pts.

(** StretchCalculator.cpp:317-323 *)
Definition expectedOutFrame (cp : Z * Z) (inFrame : Z) (timeRatio : Q) : Z :=
  cround (inject_Z (snd cp) + inject_Z (inFrame - fst cp) * timeRatio).

Definition far (n divergence : Z) : bool := (n <? divergence) || (divergence <? - n).

(** StretchCalculator.cpp:325-514.  Arguments must make the divisions proper:
    effective pitch ratio not 0, increment not 0. *)
Definition calculateSingle (c : calc) (timeRatio effectivePitchRatio : Q) (df : Q)
    (inIncrement analysisWindowSize synthesisWindowSize : Z) (alignFrameStarts : bool) : Z * calc :=
  let ratio := (timeRatio / effectivePitchRatio)%Q in
  let incr := if inIncrement =? 0 then increment c else inIncrement in
  let nominal := rint (inject_Z incr * ratio) in
  let ratioChanged := negb (justReset c) && negb (Qeq_bool ratio (prevRatio c)) in
  let cp := if ratioChanged
            then (inFrameCounter c, expectedOutFrame (frameCheckpoint c) (inFrameCounter c) (prevTimeRatio c))
            else frameCheckpoint c in
  let intended := expectedOutFrame cp
    (if alignFrameStarts then inFrameCounter c else inFrameCounter c + analysisWindowSize / 4) timeRatio in
  let projected := cround
    (if alignFrameStarts then outFrameCounter c
     else outFrameCounter c + inject_Z (synthesisWindowSize / 4) * effectivePitchRatio)%Q in
  let divergence := projected - intended in
  let loud := useHardPeaks c && ltQ (prevDf c * (11 # 10)) df && ltQ (35 # 100) df in
  let isTransient := loud && negb (far 1000 divergence) && negb (0 <? transientAmnesty c) in
  let amnesty := if 0 <? transientAmnesty c then transientAmnesty c - 1 else transientAmnesty c in
  let '(out, amnesty) :=
    if isTransient then (incr, spacing (sampleRate c) incr)
    else
      let recovery :=
        (if far 1000 divergence
         then inject_Z divergence / ((inject_Z (sampleRate c) / 10) / inject_Z incr)
         else if far 100 divergence
         then inject_Z divergence / ((inject_Z (sampleRate c) / 20) / inject_Z incr)
         else inject_Z divergence / 4)%Q in
      let i := rint (inject_Z nominal - recovery) in
      let lo := rint (inject_Z incr * ratio * (3 # 10)) in
      let hi := rint (inject_Z incr * ratio * 2) in
      let i := if i <? lo then lo else if hi <? i then hi else i in
      (if i <? 0 then 0 else i, amnesty) in
  (if isTransient then - out else out,
   Calc (sampleRate c) (increment c) df ratio timeRatio false amnesty (useHardPeaks c)
     (inFrameCounter c + inIncrement) cp
     (outFrameCounter c + inject_Z out * effectivePitchRatio) (keyFrameMap c)).

(** The arguments of one call of [calculateSingle], and a history of calls. *)
Record call := Call {
  timeRatio : Q; pitchRatio : Q; dfValue : Q; inIncr : Z; aWindow : Z; sWindow : Z; aligned : bool
}.
Definition single (c : calc) (k : call) : Z * calc :=
  calculateSingle c (timeRatio k) (pitchRatio k) (dfValue k) (inIncr k) (aWindow k) (sWindow k) (aligned k).
Fixpoint singles (c : calc) (ks : list call) : list Z * calc :=
  match ks with
  | [] => ([], c)
  | k :: ks' => let '(x, c') := single c k in let '(xs, c'') := singles c' ks' in (x :: xs, c'')
  end.
