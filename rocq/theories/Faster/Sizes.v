(** Model of R2Stretcher::calculateSizes and of the constructor's base size
    (src/faster/R2Stretcher.cpp).  [double] and [float] values are exact
    rationals, so the NaN/Inf test of lines 399-404 never fires and is left
    out.  [None] stands for a division by zero, an out-of-range power of two, or
    a loop that does not end. *)
From stdpp Require Import prelude.
From Coq Require Import ZArith QArith Qround.
From Verif Require Import Base.Arith MathMisc.Model.
Local Open Scope Z_scope.

(** R2Stretcher.h, the members read by calculateSizes.  [highQuality] and
    [highConsistency] are the bits OptionPitchHighQuality and
    OptionPitchHighConsistency of m_options. *)
Record config := Config {
  realtime : bool; threaded : bool; highQuality : bool; highConsistency : bool; smoothing : bool;
  base : Z;                    (* m_baseFftSize *)
  rateMultiple : Q;            (* m_rateMultiple *)
  timeRatio : Q; pitchScale : Q;
  expected : Z;                (* m_expectedInputDuration *)
  maxProcess : Z               (* m_maxProcessSize *)
}.
(** The members written by calculateSizes. *)
Record sizes := Sizes {
  fftSize : Z; window : Z;     (* m_aWindowSize = m_sWindowSize in every case *)
  increment : Z; outbufSize : Z; maxProcess' : Z; timeRatio' : Q; pitchScale' : Q
}.

(** R2Stretcher.cpp:112-127; [short], [long] are the window options. *)
Definition baseSize (rate : Z) (short long : bool) : option Z :=
  b ← roundUp (Qfloor (inject_Z 2048 * (rate # 48000)));
  Some (if short && long then b else if short then b / 2 else if long then b * 2 else b).

(** StretcherProcess.cpp:112-127 *)
Definition resampleBefore (rt hq hc : bool) (pitch : Q) : bool :=
  rt && if hq then ltQ pitch 1 else if hc then false else ltQ 1 pitch.

(** R2Stretcher.cpp:424-429; [out] doubles from at least 1 to 64, so 7 rounds do. *)
Fixpoint grow_loop (fuel : nat) (b : Z) (r wir : Q) (out inc win : Z) : option (Z * Z * Z) :=
  match fuel with
  | O => None
  | S f =>
    if (out <? 64) && (win <? b * 4) then
      let out := out * 2 in
      let inc := cceil (inject_Z out / r) in
      w ← roundUp (cceil (inject_Z inc * wir));
      grow_loop f b r wir out inc w
    else Some (out, inc, win)
  end.

(** R2Stretcher.cpp:442-446 with [limit = 1024 * m_rateMultiple], and 483-486 with [limit = 1024]. *)
Fixpoint halve_loop (fuel : nat) (limit r : Q) (out inc : Z) : option (Z * Z) :=
  match fuel with
  | O => None
  | S f =>
    if ltQ limit (inject_Z out) && (1 <? inc) then
      let out := out / 2 in halve_loop f limit r out (Qfloor (inject_Z out / r))
    else Some (out, inc)
  end.

(** R2Stretcher.cpp:447-450 and 487-490 *)
Fixpoint double_loop (fuel : nat) (r : Q) (out inc : Z) : option (Z * Z) :=
  match fuel with
  | O => None
  | S f =>
    if inc <? 1 then let out := out * 2 in double_loop f r out (Qfloor (inject_Z out / r))
    else Some (out, inc)
  end.

(** R2Stretcher.cpp:473, 492, 497-500 *)
Fixpoint while_loop (fuel : nat) (cond : Z -> bool) (body : Z -> Z) (x : Z) : option Z :=
  match fuel with
  | O => None
  | S f => if cond x then while_loop f cond body (body x) else Some x
  end.

(** Enough rounds for halving [x] to nothing. *)
Definition halvings (x : Z) : nat := S (S (Z.to_nat (Z.log2 x))).
(** Enough rounds for doubling one until it reaches [r]. *)
Definition doublings (r : Q) : nat := S (S (Z.to_nat (Z.log2_up (cceil r)))).

(** R2Stretcher.cpp:410-430: real time, r < 1.  (r == 1.0 on line 414 is dead here.) *)
Definition sizes_rt_below (c : config) (r : Q) : option (Z * Z) :=
  let rsb := ltQ (pitchScale c) 1
             && negb (resampleBefore true (highQuality c) (highConsistency c) (pitchScale c)) in
  let wir := if rsb then (9 # 2)%Q else 6%Q in
  let inc := Qfloor (inject_Z (base c) / wir) in
  let out := Qfloor (inject_Z inc * r) in
  if out <? 64 then
    x ← grow_loop 8 (base c) r wir (if out <? 1 then 1 else out) inc (base c);
    let '(_, inc, win) := x in Some (inc, win)
  else Some (inc, base c).

(** R2Stretcher.cpp:432-467: real time, r >= 1. *)
Definition sizes_rt_above (c : config) (r : Q) : option (Z * Z) :=
  let rsb := ltQ 1 (pitchScale c)
             && resampleBefore true (highQuality c) (highConsistency c) (pitchScale c) in
  let wir := if Qeq_bool r 1 then 4%Q else if rsb then (9 # 2)%Q else 8%Q in
  let out := Qfloor (inject_Z (base c) / wir) in
  let inc := Qfloor (inject_Z out / r) in
  x ← halve_loop (halvings out) (1024 * rateMultiple c) r out inc;
  let '(out, inc) := x in
  y ← double_loop (doublings r) r out inc;
  let '(out, inc) := y in
  minwin ← roundUp (rint (inject_Z out * wir));
  let win := if base c <? minwin then minwin else base c in
  if rsb then
    n ← roundUp (rint (inject_Z win / pitchScale c));
    let n := if n <? 512 then 512 else n in
    let div := win / n in
    if (div <? inc) && (div <? out) then
      if div =? 0 then None else Some (inc / div, win / div)
    else Some (inc, win)
  else Some (inc, win).

(** R2Stretcher.cpp:471-479: offline, r < 1. *)
Definition sizes_off_below (c : config) (r : Q) : option (Z * Z) :=
  let inc := base c / 4 in
  inc ← while_loop (halvings inc) (fun i => 512 <=? i) (fun i => i / 2) inc;
  let out := Qfloor (inject_Z inc * r) in
  if out <? 1 then
    inc ← roundUp (cceil (1 / r));
    Some (inc, inc * 4)
  else Some (inc, base c).

(** R2Stretcher.cpp:480-493: offline, r >= 1. *)
Definition sizes_off_above (c : config) (r : Q) : option (Z * Z) :=
  let out := base c / 6 in
  let inc := Qfloor (inject_Z out / r) in
  x ← halve_loop (halvings out) 1024 r out inc;
  let '(out, inc) := x in
  y ← double_loop (doublings r) r out inc;
  let '(out, inc) := y in
  w ← roundUp (out * 6);
  let win := Z.max (base c) w in
  win ← (if ltQ 5 r then while_loop 15 (fun w => w <? 8192) (fun w => w * 2) win else Some win);
  Some (inc, win).

(** R2Stretcher.cpp:380-558 *)
Definition calculateSizes (c : config) : option sizes :=
  let pitch := if ltQ 0 (pitchScale c) then pitchScale c else 1%Q in        (* 387-393 *)
  let time := if ltQ 0 (timeRatio c) then timeRatio c else 1%Q in           (* 394-398 *)
  let c := Config (realtime c) (threaded c) (highQuality c) (highConsistency c) (smoothing c)
                  (base c) (rateMultiple c) time pitch (expected c) (maxProcess c) in
  let r := (time * pitch)%Q in                                             (* 406, 363-378 *)
  x ← (if realtime c then if ltQ r 1 then sizes_rt_below c r else sizes_rt_above c r
       else if ltQ r 1 then sizes_off_below c r else sizes_off_above c r);
  let '(inc, win) := x in
  inc ← (if 0 <? expected c
         then while_loop (halvings inc) (fun i => (expected c <? i * 4) && (1 <? i)) (fun i => i / 2) inc
         else Some inc);                                                   (* 496-501 *)
  let w := if smoothing c then win * 2 else win in                         (* 506-514 *)
  let mp := Z.max w (maxProcess c) in                                      (* 531-533 *)
  let out := cceil (let a := (inject_Z mp / pitch)%Q in
                    let b := (inject_Z (mp * 2) * (if ltQ 1 time then time else 1))%Q in
                    if ltQ a b then b else a) in                           (* 535-539 *)
  Some (Sizes win w inc (if realtime c || threaded c then out * 16 else out) mp time pitch).
