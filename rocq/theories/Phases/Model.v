(** The phases of one channel of the R2 engine: what modifyChunk does to them, and which are
    played. *)
From stdpp Require Import prelude.
From Coq Require Import ZArith QArith Qround Qabs.
From Verif Require Import Base.Arith.
From stdpp Require Import list.
Local Open Scope Z_scope.

(** Phases in turns (the code has radians), as rationals: rounding of floats is not modelled. *)

(** What modifyChunk reads from the stretcher: m_increment, m_fftSize, m_sampleRate, the
    options PhaseIndependent (not [laminar]) and TransientsMixed, and m_freq0 to 2. *)
Record config := Config {
  inc : Z; fft : Z; rate : Q; laminar : bool; mixed : bool; freq0 : Q; freq1 : Q; freq2 : Q
}.
(** One entry of prevPhase, prevError, unwrappedPhase (StretcherChannelData.h:105-109).  After
    modifyChunk, phase[i] and unwrappedPhase[i] are the same (StretcherProcess.cpp:887-888). *)
Record bin := Bin { prevPhase : Q; prevError : Q; unwrapped : Q }.
Record chan := Chan { bins : list bin; unchanged : bool; unityLow : Q }.

(** common/mathmisc.h:38-44, in turns *)
Definition princ (t : Q) : Q := (t + 1 + inject_Z (Qfloor (- (t + (1 # 2)))))%Q.

(** What is the same for all bins of a chunk: phaseReset, bandlimited, bandlow, bandhigh,
    limit0 to 2 after StretcherProcess.cpp:758-806. *)
Record bands := Bands { doReset : bool; limited : bool; low : Z; high : Z; lim0 : Z; lim1 : Z; lim2 : Z }.
Definition bin_of (c : config) (f : Q) : Z := rint (f * inject_Z (fft c) / rate c).
Definition unity (r : Q) : bool := ltQ (Qabs (r - 1)) (1 # 1000000).
Definition bandsOf (c : config) (r : Q) (phaseReset : bool) (unityLow : Q) : bands :=
  let '(dr, lm, lo, hi) :=
    if unity r && negb phaseReset then (true, true, bin_of c unityLow, fft c / 2)
    else (phaseReset, mixed c, bin_of c 150, bin_of c 1000) in
  let '(f0, f1, f2) :=
    if laminar c && ltQ 1 r then
      let rf0 := (600 + 600 * ((r - 1) * (r - 1) * (r - 1) * 2))%Q in
      let f0 := if ltQ (freq0 c) rf0 then rf0 else freq0 c in
      (f0, f0 * (freq1 c / freq0 c), f0 * (freq2 c / freq0 c))%Q
    else (freq0 c, freq1 c, freq2 c) in
  let l0 := bin_of c f0 in let l1 := l0 `max` bin_of c f1 in let l2 := l1 `max` bin_of c f2 in
  Bands dr lm lo hi l0 l1 l2.

(** What one bin leaves to the next lower one: distance, prevInstability, prevDirection,
    fullReset, and unwrappedPhase[i] - prevPhase[i]. *)
Record carry := Carry { distance : Q; prevInst : Q; prevDir : bool; full : bool; above : Q }.
(** StretcherProcess.cpp:820-889 *)
Definition oneBin (c : config) (b : bands) (out : Z) (i : Z) (a : carry) (x : bin) (p : Q) : carry * bin :=
  let inside := limited b && doReset b && (low b <? i) && (i <? high b) in
  let resetThis := doReset b && negb inside in
  let full := full a && negb inside in
  let mi := if i <=? lim0 b then 0%Q else if i <=? lim1 b then 1%Q else if i <=? lim2 b then 3%Q else 8%Q in
  if resetThis then (Carry 0 (prevInst a) (prevDir a) full 0, Bin p 0 p) else
  let omega := (inject_Z (inc c) * inject_Z i / inject_Z (fft c))%Q in
  let perr := princ (p - (prevPhase x + omega)) in
  let inst := Qabs (perr - prevError x) in
  let dir := ltQ (prevError x) perr in
  let inherit := laminar c && negb (Qle_bool mi (distance a) || (i =? fft c / 2))
    && negb (limited b && ((i =? high b) || (i =? low b)))
    && (ltQ (prevInst a) inst && Bool.eqb dir (prevDir a)) in
  let advance := (inject_Z out * ((omega + perr) / inject_Z (inc c)))%Q in
  if inherit then
    let advance := ((advance * distance a + above a * (8 - distance a)) / 8)%Q in
    (Carry (distance a + 1) inst dir full advance, Bin p perr (p + advance)%Q)
  else
    let o := (unwrapped x + advance)%Q in
    (Carry 0 inst dir full (o - p)%Q, Bin p perr o).
(** The loop goes down from the last bin; here bin [i] is the head of the lists. *)
Fixpoint loop (c : config) (b : bands) (out : Z) (phaseReset : bool) (i : Z) (xs : list bin) (ps : list Q) : carry * list bin :=
  match xs, ps with
  | x :: xs, p :: ps =>
    let '(a, ys) := loop c b out phaseReset (i + 1) xs ps in
    let '(a, y) := oneBin c b out i a x p in (a, y :: ys)
  | _, _ => (Carry 0 0 false phaseReset 0, [])
  end.
(** StretcherProcess.cpp:745-901; [r] is getEffectiveRatio() *)
Definition modifyChunk (c : config) (r : Q) (out : Z) (phaseReset : bool) (ch : chan) (ps : list Q) : chan :=
  let u := unchanged ch && (out =? inc c) in
  let b := bandsOf c r phaseReset (unityLow ch) in
  let '(a, xs) := loop c b out phaseReset 0 (bins ch) ps in
  Chan xs (if full a then true else u) (if unity r then unityLow ch * (9 # 10) else 16000)%Q.

(** StretcherProcess.cpp:968-971, 959, 985-1006: the phases that are played.  An unchanged frame
    is played as it came, unless [formants] are shifted (OptionFormantPreserved, and the pitch
    is). *)
Definition synthesise (formants : bool) (ch : chan) (ps : list Q) : chan * list Q :=
  let ch := Chan (bins ch) (unchanged ch && negb formants) (unityLow ch) in
  (ch, if unchanged ch then ps else unwrapped <$> bins ch).

Record chunk := Chunk { cfg : config; ratio : Q; outInc : Z; phaseReset : bool; formants : bool; phases : list Q }.
Definition play (ch : chan) (k : chunk) : chan * list Q :=
  synthesise (formants k) (modifyChunk (cfg k) (ratio k) (outInc k) (phaseReset k) ch (phases k)) (phases k).
Definition blank (n : nat) : list bin := replicate n (Bin 0 0 0).
(** Processing a chunk; new sizes (StretcherChannelData.cpp:141-148, 165-172, the same for the
    phases); reset (StretcherChannelData.cpp:254-282). *)
Inductive op := Play (k : chunk) | Sizes (n : nat) | Reset.
Definition step (ch : chan) (o : op) : chan :=
  match o with
  | Play k => fst (play ch k)
  | Sizes n => Chan (blank n) (unchanged ch) (unityLow ch)
  | Reset => Chan (bins ch) true (unityLow ch)
  end.
Definition run (ch : chan) (os : list op) : chan := fold_left step os ch.
(** StretcherChannelData.cpp:74-79, 90, 107 *)
Definition construct (n : nat) : chan := Chan (blank n) true 16000.
