(** Model of a whole R2 stretcher in offline mode, without worker threads: the
    life cycle of src/faster/R2Stretcher.cpp around the streaming core of
    Faster.Model, the sizes of Faster.Sizes and the stretch calculator of
    Calculator.Model.  Logging and profiling are left out.  [None] is undefined
    behaviour or a loop that does not end. *)
From stdpp Require Import prelude.
From Coq Require Import ZArith QArith Qround.
From Verif Require Import Base.Arith Faster.Sizes Faster.Model.
From Verif Require Calculator.Model.
Local Open Scope Z_scope.

(** R2Stretcher.h:152-159 *)
Inductive mode := JustCreated | Studying | Processing | Finished.

(** What is left open besides Faster.Model.dsp.  [mix] is the mean of one sample of each
    channel (R2Stretcher.cpp:977-990).  [onsetNew rate fftSize] are the two detection curves
    as constructed (690-697); [onsetReset] as reset (218-219); [onset] is 1022-1065: cutting or
    folding the accumulator in place, the FFT and the curves; it gives back
    the accumulator, the value of the detection curve and whether the chunk is silent.
    [specNew fftSize] and [specReset] are the spectral state of a channel when
    constructed and after ChannelData::reset; [rsmNew], [rsmReset] the same for the resampler. *)
Record outside (A S R KS : Type) := Outside {
  mix : list A -> A;
  onsetNew : Z -> Z -> KS; onsetReset : KS -> KS;
  onset : KS -> list A -> list A * Q * bool * KS;
  specNew : Z -> S; specReset : S -> S;
  rsmNew : R; rsmReset : R -> R
}.
Arguments mix {A S R KS}. Arguments onsetNew {A S R KS}. Arguments onsetReset {A S R KS}. Arguments onset {A S R KS}.
Arguments specNew {A S R KS}. Arguments specReset {A S R KS}. Arguments rsmNew {A S R KS}. Arguments rsmReset {A S R KS}.

(** The options that matter in offline mode: OptionWindowShort, OptionWindowLong,
    OptionSmoothingOn, OptionTransientsSmooth, OptionPitchHighQuality,
    OptionPitchHighConsistency, OptionChannelsTogether. *)
Record options := Options {
  short : bool; long : bool; smoothOn : bool; smoothTransients : bool;
  highQ : bool; highC : bool; together : bool
}.

(** R2Stretcher.h:152-250, the members used in offline mode. *)
Record engine (A S R KS : Type) := Engine {
  opts : options; rate : Z; nch : nat; baseFft : Z;
  time : Q; pitch : Q; expectedIn : Z; maxProc : Z;
  sz : sizes;
  emode : mode;
  dfs : list Q;            (* m_phaseResetDf *)
  silence : list bool;     (* m_silence *)
  incs : list Z;           (* m_outputIncrements *)
  inDuration : Z;          (* m_inputDuration *)
  calc : Calculator.Model.calc;
  curves : KS;
  chans : list (channel A S R)
}.
Arguments Engine {A S R KS}. Arguments opts {A S R KS}. Arguments rate {A S R KS}. Arguments nch {A S R KS}.
Arguments baseFft {A S R KS}. Arguments time {A S R KS}. Arguments pitch {A S R KS}. Arguments expectedIn {A S R KS}.
Arguments maxProc {A S R KS}. Arguments sz {A S R KS}. Arguments emode {A S R KS}. Arguments dfs {A S R KS}.
Arguments silence {A S R KS}. Arguments incs {A S R KS}. Arguments inDuration {A S R KS}. Arguments calc {A S R KS}.
Arguments curves {A S R KS}. Arguments chans {A S R KS}.

Section Offline.
Context {A S R K KS : Type} (D : dsp A S R K) (X : outside A S R KS).
Notation chan := (channel A S R).
Notation engine := (engine A S R KS).
Implicit Types (e : engine) (c : chan).

(** Setters. *)
Definition with_ratios e t p : engine := Engine (opts e) (rate e) (nch e) (baseFft e) t p (expectedIn e) (maxProc e) (sz e)
  (emode e) (dfs e) (silence e) (incs e) (inDuration e) (calc e) (curves e) (chans e).
Definition with_expected e n : engine := Engine (opts e) (rate e) (nch e) (baseFft e) (time e) (pitch e) n (maxProc e) (sz e)
  (emode e) (dfs e) (silence e) (incs e) (inDuration e) (calc e) (curves e) (chans e).
Definition with_max e n : engine := Engine (opts e) (rate e) (nch e) (baseFft e) (time e) (pitch e) (expectedIn e) n (sz e)
  (emode e) (dfs e) (silence e) (incs e) (inDuration e) (calc e) (curves e) (chans e).
Definition with_mode e m : engine := Engine (opts e) (rate e) (nch e) (baseFft e) (time e) (pitch e) (expectedIn e) (maxProc e) (sz e)
  m (dfs e) (silence e) (incs e) (inDuration e) (calc e) (curves e) (chans e).
Definition with_study e df sil n k cs : engine := Engine (opts e) (rate e) (nch e) (baseFft e) (time e) (pitch e) (expectedIn e) (maxProc e) (sz e)
  (emode e) df sil (incs e) n (calc e) k cs.
Definition with_incs e l : engine := Engine (opts e) (rate e) (nch e) (baseFft e) (time e) (pitch e) (expectedIn e) (maxProc e) (sz e)
  (emode e) (dfs e) (silence e) l (inDuration e) (calc e) (curves e) (chans e).
Definition with_calc e k : engine := Engine (opts e) (rate e) (nch e) (baseFft e) (time e) (pitch e) (expectedIn e) (maxProc e) (sz e)
  (emode e) (dfs e) (silence e) (incs e) (inDuration e) k (curves e) (chans e).
Definition with_chans e cs : engine := Engine (opts e) (rate e) (nch e) (baseFft e) (time e) (pitch e) (expectedIn e) (maxProc e) (sz e)
  (emode e) (dfs e) (silence e) (incs e) (inDuration e) (calc e) (curves e) cs.

(** R2Stretcher.cpp:363-378 *)
Definition effectiveRatio e : Q := (time e * pitch e)%Q.
(** What calculateSizes reads (380-558); [threaded] is false here. *)
Definition configOf e : config :=
  Config false false (highQ (opts e)) (highC (opts e)) (smoothOn (opts e)) (baseFft e) (rate e # 48000)
    (time e) (pitch e) (expectedIn e) (maxProc e).
(** StretcherProcess.cpp:1063-1066; the resampler exists whenever the rest holds (649-684). *)
Definition resamples e : bool := negb (Qeq_bool (pitch e) 1) || highC (opts e).
(** The members the streaming core reads. *)
Definition paramsOf e : params :=
  Params (Sizes.window (sz e)) (Sizes.increment (sz e)) false (time e) (pitch e) false (resamples e) (smoothOn (opts e)) (incs e).

(** StretcherChannelData.cpp:50-110.  The sizes in the set are the window and FFT sizes. *)
Definition newChannel (s : sizes) : chan :=
  let maxSize := Z.max (Sizes.window s * 2) (fftSize s) in
  Chan [] maxSize [] (Z.max (outbufSize s) maxSize)
    (replicate (Z.to_nat maxSize) (zero D)) (replicate (Z.to_nat maxSize) (zero D))
    (one D :: replicate (pred (Z.to_nat maxSize)) (zero D)) 0
    (specNew X (fftSize s)) (rsmNew X) 0 0 0 None 0 false false.
(** R2Stretcher.cpp:649-684: a resampler for a channel that has none ([rbSize] 0). *)
Definition addResampler e c : chan :=
  if resamples e && (rbSize c =? 0) then
    let rbs := rint (inject_Z (cceil (inject_Z (Sizes.increment (sz e)) * time e * 2 / pitch e))) in
    let rbs := if rbs <? Sizes.increment (sz e) * 16 then Sizes.increment (sz e) * 16 else rbs in
    let rbs := if rbs <? Sizes.window (sz e) * 2 then Sizes.window (sz e) * 2 else rbs in
    set_rsm c (rsmNew X) rbs
  else c.
(** StretcherChannelData.cpp:254-282; without a resampler there is none to reset. *)
Definition resetChan c : chan := resetChannel D c (specReset X (spec c)) (if rbSize c =? 0 then rsm c else rsmReset X (rsm c)).
(** R2Stretcher.cpp:715-720, 1262-1265 *)
Definition restart e c : chan := prefill D (paramsOf e) (resetChan c).

Definition same_sizes (s s' : sizes) : bool :=
  (Sizes.window s =? Sizes.window s') && (outbufSize s =? outbufSize s').

(** R2Stretcher.cpp:560-724.  [prev] are the sizes before, [None] on construction. *)
Definition configure (prev : option sizes) e : option engine :=
  s ← calculateSizes (configOf e);
  let keep := match prev with Some p => same_sizes p s | None => false end in
  let cs := if keep then chans e else replicate (nch e) (newChannel s) in
  let e := Engine (opts e) (rate e) (nch e) (baseFft e) (timeRatio' s) (pitchScale' s) (expectedIn e) (maxProcess' s) s
             (emode e) (dfs e) (silence e) (incs e) 0
             (Calculator.Model.create (rate e) (Sizes.increment s) (negb (smoothTransients (opts e))))
             (onsetNew X (rate e) (fftSize s)) cs in
  Some (with_chans e (restart e <$> (addResampler e <$> chans e))).

(** R2Stretcher.cpp:1155-1163: phase resets in silence. *)
Fixpoint hush (limit : Z) (sil : list bool) (l : list Z) (history : Z) : list Z :=
  match l, sil with
  | x :: l, s :: sil =>
    let history := if s : bool then history + 1 else 0 in
    (if (limit <=? history) && (0 <=? x) then - x else x) :: hush limit sil l history
  | l, _ => l
  end.
(** R2Stretcher.cpp:1138-1176; the durations are only logged by the calculator. *)
Definition calculateStretch e : option engine :=
  l ← Calculator.Model.calculate (calc e) (effectiveRatio e) (dfs e);
  Some (with_incs e (incs e ++ hush (Sizes.window (sz e) / Sizes.increment (sz e)) (silence e) l 0)).

(** R2Stretcher.cpp:726-832.  The second calculateSizes finds what configure has just
    set up (its result is a fixed point), so the rest of the function does nothing;
    were it otherwise the model would say [None]. *)
Definition reconfigure e : option engine :=
  e ← (match emode e with
       | Studying => e ← calculateStretch e; Some (with_study e [] [] 0 (curves e) (chans e))
       | _ => Some e
       end);
  e ← configure (Some (sz e)) e;
  s ← calculateSizes (configOf e);
  if same_sizes s (sz e) && (fftSize s =? fftSize (sz e)) && (Sizes.increment s =? Sizes.increment (sz e)) then Some e else None.

(** R2Stretcher.cpp:58-160 *)
Definition create (o : options) (rate : Z) (n : nat) (t p : Q) : option engine :=
  b ← baseSize rate (short o) (long o);
  let mp := if short o || long o then b else 2048 in
  configure None (Engine o rate n b t p 0 mp (Sizes 0 0 0 0 0 t p) JustCreated [] [] [] 0
                         (Calculator.Model.create rate 256 true) (onsetNew X rate 2048) []).

(** R2Stretcher.cpp:196-236 *)
Definition reset e : option engine :=
  reconfigure (Engine (opts e) (rate e) (nch e) (baseFft e) (time e) (pitch e) 0 0 (sz e) JustCreated
                      (dfs e) (silence e) (incs e) 0 (Calculator.Model.reset (calc e)) (onsetReset X (curves e))
                      (resetChan <$> chans e)).

Definition begun e : bool := match emode e with Studying | Processing => true | _ => false end.
(** R2Stretcher.cpp:238-252 *)
Definition setTimeRatio e (q : Q) : option engine :=
  if begun e || Qeq_bool q (time e) then Some e else reconfigure (with_ratios e q (pitch e)).
(** R2Stretcher.cpp:254-284 *)
Definition setPitchScale e (q : Q) : option engine :=
  if begun e || Qeq_bool q (pitch e) then Some e else
  let was1 := Qeq_bool (pitch e) 1 in
  e ← reconfigure (with_ratios e (time e) q);
  Some (if negb (highC (opts e)) && was1 && negb (Qeq_bool (pitch e) 1)
        then with_chans e ((fun c => if rbSize c =? 0 then c else set_rsm c (rsmReset X (rsm c)) (rbSize c)) <$> chans e) else e).
(** R2Stretcher.cpp:298-305 *)
Definition setExpectedInputDuration e (n : Z) : option engine :=
  if n =? expectedIn e then Some e else reconfigure (with_expected e n).
(** R2Stretcher.cpp:307-317 *)
Definition setMaxProcessSize e (n : Z) : option engine :=
  if n <=? maxProc e then Some e else reconfigure (with_max e n).
(** R2Stretcher.cpp:325-340 *)
Definition setKeyFrameMap e (m : list (Z * Z)) : engine :=
  match emode e with
  | Processing => e
  | _ => with_calc e (Calculator.Model.setKeyFrameMap (calc e) m)
  end.

(** R2Stretcher.cpp:971-993: one signal out of the channels' blocks. *)
Fixpoint columns (n : nat) (bs : list (list A)) : list (list A) :=
  match n with O => [] | Datatypes.S n => (omap head bs) :: columns n (tail <$> bs) end.
Definition mixdown e (bs : list (list A)) (final : bool) : list A :=
  let b := default [] (head bs) in
  if (1 <? Z.of_nat (nch e)) || final then mix X <$> columns (length b) bs else b.

(** R2Stretcher.cpp:1009-1085: the chunks that can be analysed. *)
Fixpoint studyChunks (fuel : nat) e c (final : bool) (df : list Q) (sil : list bool) (dur : Z) (k : KS)
    : option (chan * list Q * list bool * Z * KS) :=
  match fuel with
  | O => None
  | Datatypes.S f =>
    let rs := zlen (inbuf c) in
    let w := Sizes.window (sz e) in
    if (w <=? rs) || (final && (w / 2 <=? rs)) then
      let n := Z.min rs w in
      if n <=? zlen (acc c) then
        let a := firstn_z n (inbuf c) ++ skipn_z n (acc c) in
        let '(a, x, s, k) := onset X k a in
        let c := set_acc (set_in c (skipn_z (Sizes.increment (sz e)) (inbuf c)) (inCount c)) a (wacc c) (fill c) in
        studyChunks f e c final (df ++ [x]) (sil ++ [s]) (dur + Sizes.increment (sz e)) k
      else None
    else Some (c, df, sil, dur, k)
  end.
(** R2Stretcher.cpp:997-1086; [rest] is the signal not yet written to the input buffer. *)
Fixpoint studyLoop (fuel : nat) e c (rest : list A) (final : bool) (df : list Q) (sil : list bool) (dur : Z) (k : KS)
    : option (chan * list Q * list bool * Z * KS) :=
  match fuel with
  | O => None
  | Datatypes.S f =>
    if zlen rest =? 0 then Some (c, df, sil, dur, k) else
    let n := Z.min (inCap c - zlen (inbuf c)) (zlen rest) in
    let c := set_in c (inbuf c ++ firstn_z n rest) (inCount c) in
    x ← studyChunks (Datatypes.S (Z.to_nat (zlen (inbuf c)))) e c final df sil dur k;
    let '(c, df, sil, dur, k) := x in
    studyLoop f e c (skipn_z n rest) final df sil dur k
  end.
(** R2Stretcher.cpp:949-1094 *)
Definition study e (bs : list (list A)) (final : bool) : option engine :=
  match emode e with
  | Processing | Finished => Some e
  | _ =>
    let e := with_mode e Studying in
    match chans e with
    | [] => Some e
    | c :: cs =>
      let m := mixdown e bs final in
      x ← studyLoop (Datatypes.S (Z.to_nat (zlen m))) e c m final (dfs e) (silence e) (inDuration e) (curves e);
      let '(c, df, sil, dur, k) := x in
      let dur := if final then
                   let dur := dur + zlen (inbuf c) in
                   if Sizes.window (sz e) / 2 <? dur then dur - Sizes.window (sz e) / 2 else dur
                 else dur in
      Some (with_study e df sil dur k (c :: cs))
    end
  end.

(** StretcherProcess.cpp:129-147, 161-164 and R2Stretcher.cpp:1296-1330: the blocks as the
    channels take them. *)
Definition usesMidSide e : bool := together (opts e) && (2 <=? Z.of_nat (nch e)).
Definition prepared e (bs : list (list A)) : list (list A) :=
  match bs with
  | l :: r :: bs' => if usesMidSide e then prepareMS D true l r :: prepareMS D false l r :: bs' else bs
  | _ => bs
  end.
Fixpoint processAll (P : params) (ms : bool) (cs : list chan) (bs : list (list A)) (final : bool) : option (list chan) :=
  match cs, bs with
  | c :: cs, b :: bs =>
    c ← process D P c b ms final;
    cs ← processAll P ms cs bs final;
    Some (c :: cs)
  | cs, _ => Some cs
  end.
(** R2Stretcher.cpp:1240-1359.  The channels hold equally much and get equally long blocks
    (property C29), so the shared loop of 1296-1354 runs equally often for each of them. *)
Definition processBlock e (bs : list (list A)) (final : bool) : option engine :=
  match emode e with
  | Finished => Some e
  | m =>
    e ← (match m with
         | Studying => e ← calculateStretch e; Some (with_chans e (restart e <$> chans e))
         | _ => Some e
         end);
    let e := with_mode e Processing in
    cs ← processAll (paramsOf e) (usesMidSide e) (chans e) (prepared e bs) final;
    Some (with_mode (with_chans e cs) (if final then Finished else Processing))
  end.

(** StretcherProcess.cpp:1208-1229 *)
Fixpoint catchUp (P : params) (cs : list chan) : option (list chan) :=
  match cs with
  | [] => Some []
  | c :: cs =>
    c ← (if 0 <? zlen (inbuf c) then processChunks D (enough P c) P c else Some c);
    cs ← catchUp P cs;
    Some (c :: cs)
  end.
(** StretcherProcess.cpp:1191-1265 offline. *)
Definition available e : option (Z * engine) :=
  match chans e with
  | [] => Some (0, e)
  | c :: _ =>
    cs ← match inputSize c with Some _ => catchUp (paramsOf e) (chans e) | None => Some (chans e) end;
    Some (report cs, with_chans e cs)
  end.

(** StretcherProcess.cpp:1286-1296 *)
Definition decoded e (xs : list (list A)) : list (list A) :=
  match xs with
  | m :: s :: xs' =>
    if usesMidSide e then zip_with (add D) m s :: zip_with (sub D) m s :: xs' else xs
  | _ => xs
  end.
(** StretcherProcess.cpp:1267-1301.  The client looks at the first [got] samples of each channel. *)
Definition retrieve e (n : Z) : list (list A) * engine :=
  let '(xs, got, cs) := takeOut (chans e) n in
  (decoded e (firstn_z got <$> xs), with_chans e cs).

(** The calls a client can make. *)
Inductive call :=
| SetTime (q : Q) | SetPitch (q : Q) | SetMap (m : list (Z * Z)) | SetExpected (n : Z) | SetMax (n : Z)
| Study (bs : list (list A)) (final : bool) | Process (bs : list (list A)) (final : bool)
| Available | Retrieve (n : Z) | Reset | GetTime | GetPitch | GetIncrements.
Inductive answer := Done | Int (n : Z) | Audio (xs : list (list A)) | Ratio (q : Q) | Ints (l : list Z).

Definition quietly (x : option engine) : option (answer * engine) := e ← x; Some (Done, e).
Definition step e (a : call) : option (answer * engine) :=
  match a with
  | SetTime q => quietly (setTimeRatio e q)
  | SetPitch q => quietly (setPitchScale e q)
  | SetMap m => Some (Done, setKeyFrameMap e m)
  | SetExpected n => quietly (setExpectedInputDuration e n)
  | SetMax n => quietly (setMaxProcessSize e n)
  | Study bs final => quietly (study e bs final)
  | Process bs final => quietly (processBlock e bs final)
  | Available => x ← available e; let '(n, e) := x in Some (Int n, e)
  | Retrieve n => let '(xs, e) := retrieve e n in Some (Audio xs, e)
  | Reset => quietly (reset e)
  | GetTime => Some (Ratio (time e), e)
  | GetPitch => Some (Ratio (pitch e), e)
  | GetIncrements => Some (Ints (incs e), e)
  end.
Fixpoint steps e (l : list call) : option (list answer * engine) :=
  match l with
  | [] => Some ([], e)
  | a :: l => x ← step e a; let '(r, e) := (x : answer * engine) in
              y ← steps e l; let '(rs, e) := (y : list answer * engine) in Some (r :: rs, e)
  end.
(** What a client sees of a stretcher it creates. *)
Definition session (o : options) (rt : Z) (n : nat) (t p : Q) (l : list call) : option (list answer) :=
  e ← create o rt n t p; fst <$> steps e l.
End Offline.
Arguments SetTime {A}. Arguments SetPitch {A}. Arguments SetMap {A}. Arguments SetExpected {A}. Arguments SetMax {A}.
Arguments Study {A}. Arguments Process {A}. Arguments Available {A}. Arguments Retrieve {A}. Arguments Reset {A}.
Arguments GetTime {A}. Arguments GetPitch {A}. Arguments GetIncrements {A}.
Arguments Done {A}. Arguments Int {A}. Arguments Audio {A}. Arguments Ratio {A}. Arguments Ints {A}.
