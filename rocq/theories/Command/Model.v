(** The command-line program, main/main.cpp: what it feeds to the stretcher, what it writes, how it
    starts again with less gain when the output clips. Samples, gains and ratios are rationals.
    The stretcher is any device whose outputs are a function of the calls made so far; counters are
    unbounded; a read error (negative count) and files that cannot be reopened are left out. *)
From stdpp Require Import prelude list numbers.
From Coq Require Import ZArith QArith Qround Qabs.
From stdpp Require Import list numbers.
Local Open Scope Z_scope.

(** One sample per channel *)
Notation frame := (list Q).

(** Calls on the RubberBandStretcher object, main.cpp:727-730, 757, 782, 811, 836, 869 *)
Inductive call :=
  | Study (b : list frame) (final : bool)
  | Keys
  | Pitch (s : Q)
  | Process (b : list frame) (final : bool).

(** The object: frames that become available by the last call made; frames that become available
    after the last process call has returned (worker threads); getStartDelay; getPreferredStartPad. *)
Record device := Device {
  output : list call -> list frame;
  late : list call -> list frame;
  startDelay : list call -> Z;
  startPad : list call -> Z }.

(** The options and the input file that matter here. [count] is sfinfo.frames, what the header says;
    [content] is what sf_readf_float delivers. *)
Record job := Job {
  realtime : bool; channels : nat; ratio : Q; frequencyshift : Q;
  timeMap : bool; freqMap : list (Z * Q);
  count : Z; content : list frame }.

(** main.cpp:712 *)
Definition bs : Z := 1024.

(** std::min on ints as the code writes it out *)
Definition cap (n limit : Z) : Z := if limit <? n then limit else n.

(** sf_readf_float(sndfile, ibuf, n): the frames, the file position moved on *)
Definition read (l : list frame) (n : Z) : list frame * list frame := (take (Z.to_nat n) l, drop (Z.to_nat n) l).

(** main.cpp:742-771: the study loop. [fuel] bounds the iterations, running out is None. *)
Fixpoint studyLoop (fuel : nat) (F : Z) (data : list frame) (at_ : Z) (log : list call) : option (list call) :=
  match fuel with
  | O => None
  | S fuel =>
    let '(b, data) := read data bs in
    let final := (F <=? at_ + bs) || (Z.of_nat (length b) =? 0) in
    let log := log ++ [Study b final] in
    if final then Some log else studyLoop fuel F data (at_ + bs) log
  end.

(** main.cpp:823-842: pitch changes due, and the block cut short before the next *)
Fixpoint pitches (shift : Q) (m : list (Z * Q)) (countIn block : Z) (log : list call) : list (Z * Q) * Z * list call :=
  match m with
  | [] => ([], block, log)
  | (f, x) :: rest =>
    if f <=? countIn then pitches shift rest countIn block (log ++ [Pitch (shift * x)%Q])
    else (m, if f <? countIn + block then f - countIn else block, log)
  end.

Record st := St {
  log : list call; queue : list frame; toDrop : Z; countIn : Z; countOut : Z;
  gain : Q; clipping : bool; file : list frame }.

Definition gtq (a b : Q) : bool := negb (Qle_bool a b).
(** main.cpp:924-926 *)
Definition clamp (v : Q) : Q :=
  let v := if gtq v 1 then 1%Q else v in if gtq (- (1)) v then (- (1))%Q else v.

(** main.cpp:923-934: one sample. *)
Definition sample (ignore : bool) (x : Q) (s : Q * bool) : Q * (Q * bool) :=
  let '(g, c) := s in
  let value := (g * x)%Q in
  if ignore then (clamp value, (g, c))
  else if Qle_bool 1 value || gtq (- (1)) value then (value, ((999 # 1000) / Qabs x, true)%Q)
  else (value, (g, c)).

(** main.cpp:922-935: one channel of a block, then all of them *)
Fixpoint column (ignore : bool) (xs : list Q) (s : Q * bool) : list Q * (Q * bool) :=
  match xs with
  | [] => ([], s)
  | x :: xs => let '(v, s) := sample ignore x s in let '(vs, s) := column ignore xs s in (v :: vs, s)
  end.
Fixpoint columns (ignore : bool) (cs : list (list Q)) (s : Q * bool) : list (list Q) * (Q * bool) :=
  match cs with
  | [] => ([], s)
  | c :: cs => let '(v, s) := column ignore c s in let '(vs, s) := columns ignore cs s in (v :: vs, s)
  end.

(** The retrieved block by channel (cbuf) and the written one by frame (ibuf) *)
Definition planar (ch : nat) (b : list frame) : list (list Q) := (fun c => (fun f => nth c f 0%Q) <$> b) <$> seq 0 ch.
Definition interleaved (n : nat) (cs : list (list Q)) : list frame := (fun i => (fun c => nth i c 0%Q) <$> cs) <$> seq 0 n.

(** main.cpp:872-937: while ((avail = ts.available()) > 0). A negative block size, which the
    subtraction in line 910 gives when more than the ideal has been written, writes nothing. *)
Fixpoint drain (fuel : nat) (j : job) (ignore final : bool) (s : st) : option st :=
  match queue s with
  | [] => Some s
  | _ =>
    match fuel with
    | O => None
    | S fuel =>
      let block := cap (Z.of_nat (length (queue s))) bs in
      if 0 <? toDrop s then
        let here := cap (toDrop s) block in
        drain fuel j ignore final
          (St (log s) (drop (Z.to_nat here) (queue s)) (toDrop s - here) (countIn s) (countOut s) (gain s) (clipping s) (file s))
      else
        let got := take (Z.to_nat block) (queue s) in
        let ideal := Qfloor (inject_Z (countIn s) * ratio j) in
        let block' := if realtime j && final && (ideal <? countOut s + block) then ideal - countOut s else block in
        let got := take (Z.to_nat block') got in
        let '(cs, (g, c)) := columns ignore (planar (channels j) got) (gain s, clipping s) in
        drain fuel j ignore final
          (St (log s) (drop (Z.to_nat block) (queue s)) (toDrop s) (countIn s) (countOut s + block') g c
              (file s ++ interleaved (length got) cs))
    end
  end.

(** main.cpp:819-973: the processing loop; [true] if it was left because of clipping. *)
Fixpoint feed (fuel : nat) (D : device) (j : job) (ignore : bool) (m : list (Z * Q)) (data : list frame) (at_ : Z) (s : st) : option st :=
  match fuel with
  | O => None
  | S fuel =>
    let '(m, block, lg) := pitches (frequencyshift j) m (countIn s) bs (log s) in
    let '(b, data) := read data block in
    let n := Z.of_nat (length b) in
    let final := (count j <=? at_ + block) || (n =? 0) in
    let lg := lg ++ [Process b final] in
    let q := queue s ++ output D lg in
    s ← drain (length q) j ignore final
          (St lg q (toDrop s) (countIn s + n) (countOut s) (gain s) (clipping s) (file s));
    if clipping s then Some s
    else if final then Some s else feed fuel D j ignore m data (at_ + n) s
  end.

(** main.cpp:800-814: padding in real-time mode; the output of these calls waits. *)
Definition silence (ch : nat) (n : Z) : list frame := replicate (Z.to_nat n) (replicate ch 0%Q).
Fixpoint padLoop (fuel : nat) (D : device) (j : job) (toPad : Z) (lg : list call) (q : list frame) : option (list call * list frame) :=
  if toPad <=? 0 then Some (lg, q) else
  match fuel with
  | O => None
  | S fuel => let p := cap toPad bs in
              let lg := lg ++ [Process (silence (channels j) p) false] in
              padLoop fuel D j (toPad - p) lg (q ++ output D lg)
  end.

(** main.cpp:1009-1042: what comes late is written with the gain and cut off at full scale. *)
Definition finish (D : device) (s : st) : st :=
  St (log s) (queue s) (toDrop s) (countIn s) (countOut s + Z.of_nat (length (late D (log s)))) (gain s) (clipping s)
     (file s ++ map (map (fun x => clamp (gain s * x)%Q)) (late D (log s))).

(** main.cpp:725-973, 1005-1043: one pass from a new stretcher *)
Definition pass (D : device) (j : job) (g : Q) (ignore : bool) : option st :=
  let n := length (content j) in
  lg ← (if realtime j then Some [] else studyLoop (S n) (count j) (content j) 0 []);
  let lg := if timeMap j then lg ++ [Keys] else lg in
  let d := startDelay D lg in
  '(lg, q) ← (if realtime j then padLoop (Z.to_nat (startPad D lg)) D j (startPad D lg) lg [] else Some (lg, []));
  s ← feed (S n) D j ignore (freqMap j) (content j) 0 (St lg q d 0 0 g false []);
  Some (if clipping s then s else finish D s).

(** The file on disk: a later pass begins at its start again (main.cpp:987) and overwrites. *)
Definition overwrite (old new : list frame) : list frame := new ++ drop (length new) old.

(** main.cpp:708-709, 722-1044, 939-957: passes until one succeeds; returns the number of passes, the
    last gain and whether clipping was ignored in the end. *)
Fixpoint passes (fuel : nat) (D : device) (j : job) (g : Q) (ignore : bool) (disk : list frame) (k : nat)
  : option (list frame * nat * Q * bool * st) :=
  match fuel with
  | O => None
  | S fuel =>
    s ← pass D j g ignore;
    let disk := overwrite disk (file s) in
    if clipping s then
      if gtq (3 # 4) (gain s) then passes fuel D j (3 # 4) true disk (S k)
      else passes fuel D j (gain s) ignore disk (S k)
    else Some (disk, S k, gain s, ignore, s)
  end.
Definition program (D : device) (j : job) (ignore : bool) := passes 289 D j 1 ignore [] 0.

(** main.cpp:192-196, 378-381, 579-586, 692-694: the ratio. [ratios] are the -t and -T values in order,
    [duration] the -D value (0 if none), the input's length in seconds is frames/rate. *)
Definition settle (ratios : list Q) (duration : Q) (frames rate : Z) : option Q :=
  let r := fold_left Qmult ratios 1%Q in
  if Qle_bool r 0 then None else
  if Qeq_bool duration 0 then Some r else
  if frames =? 0 then None else
  let induration := (inject_Z frames / inject_Z rate)%Q in
  Some (if Qeq_bool induration 0 then r else duration / induration)%Q.
