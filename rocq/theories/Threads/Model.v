(** One worker thread of the R2 engine in threaded (offline) mode, and the client feeding its
    channel: every interleaving of their reads and writes of shared data. *)
From stdpp Require Import prelude.

(** Memory is taken as sequentially consistent.  Every worker has a channel of its own, so one
    worker and the client are enough.  The samples do not matter here, only how many are
    where; how the ring buffer works is in RingBuffer/. *)

(** Where the worker is.  [fin]: in the last call of processChunks, after the loop
    (StretcherProcess.cpp:87-88).  Shared data are read and written in one transition each. *)
Inductive pc :=
| Loop1 | Loop2                                   (* :61-62, the two operands of || *)
| Test1 (fin : bool) | Test2 (fin : bool) (rs : nat)   (* testInbufReadSpace, :381 and :383-417 *)
| Take (fin : bool) | Skip (fin : bool) | Chunk (fin : bool)   (* :280-320 *)
| Wait1 | Wait2 (rs : nat) | Waiting              (* :75-79 *)
| Check                                           (* :81 *)
| Done | Abandoned.

Record st := St {
  unread : nat;     (* inbuf->getReadSpace() *)
  written : nat;    (* everything ever put into inbuf, the prefill included *)
  closed : bool;    (* inputSize != -1 *)
  abandon : bool;   (* m_abandoning *)
  draining : bool; fill : nat; complete : bool;   (* accumulatorFill, outputComplete *)
  chunks : nat;     (* chunkCount *)
  windows : list (nat * nat);   (* first sample and length of every window taken *)
  at_ : pc
}.

(** The sizes: analysis window, synthesis window, input increment, size of inbuf; and the shift
    increment for each chunk, whatever getIncrements finds. *)
Record sizes := Sz { aw : nat; sw : nat; inc : nat; cap : nat; shifts : nat -> nat }.

Section Model.
Context (z : sizes).

Definition goto (p : pc) (s : st) : st :=
  St (unread s) (written s) (closed s) (abandon s) (draining s) (fill s) (complete s) (chunks s) (windows s) p.

(** StretcherProcess.cpp:432-519 and writeChunk 1084-1138, how far the accumulator is filled.
    The result of processChunkForChannel comes first. *)
Definition piece (drain : bool) (f : nat) (c : bool) (si : nat) : bool * nat * bool :=
  let f := if drain then f else f `max` sw z in
  if drain && (f =? 0)%nat then (true, f, c) else
  let si := if drain && (si =? 0)%nat then inc z else si in
  let last := drain && (f <=? si)%nat in
  let si := if last then f else si in
  if (si <? f)%nat then (last, (f - si)%nat, c) else (last, 0%nat, c || drain).

(** StretcherProcess.cpp:292-320: an overlong increment in bits of a quarter of the window *)
Definition bits (shift : nat) : list nat :=
  if (shift <=? aw z)%nat then [shift] else
  let bit := (aw z / 4)%nat in
  (fun k => bit `min` (shift - k * bit))%nat <$> seq 0 ((shift + bit - 1) / bit).
Fixpoint pieces (drain : bool) (f : nat) (c : bool) (l : bool) (sis : list nat) : bool * nat * bool :=
  match sis with [] => (l, f, c) | si :: sis => let '(l, f, c) := piece drain f c si in pieces drain f c l sis end.

(** StretcherProcess.cpp:375-420, from the point where the read space is known: is there
    something to do, and is the channel draining from now on. *)
Definition test (s : st) (rs : nat) : bool * bool :=
  if (rs <? aw z)%nat && negb (draining s) then
    if negb (closed s) then (false, draining s)
    else if (rs =? 0)%nat then (false, draining s)
    else if (rs <? aw z / 2)%nat then (true, true)
    else (true, draining s)
  else (true, draining s).
Definition drainTo (d : bool) (s : st) : st :=
  St (unread s) (written s) (closed s) (abandon s) d (fill s) (complete s) (chunks s) (windows s) (at_ s).

(** ProcessThread::run and processChunks (StretcherProcess.cpp:54-94, 258-326), one access at a
    time.  Signals to the client change nothing here; waiting is a step that ends at some
    time, signalled or not, as the wait has a time-out (:77). *)
Definition worker (s : st) : st :=
  match at_ s with
  | Loop1 => goto (if closed s then Loop2 else Test1 false) s
  | Loop2 => goto (Test1 (unread s =? 0)%nat) s
  | Test1 fin => goto (Test2 fin (unread s)) s
  | Test2 fin rs =>
    let '(ok, d) := test s rs in
    goto (if ok then Take fin else if fin then Done else Wait1) (drainTo d s)
  | Take fin =>
    if draining s then goto (Chunk fin) s
    else St (unread s) (written s) (closed s) (abandon s) (draining s) (fill s) (complete s) (chunks s)
            (windows s ++ [(written s - unread s, unread s `min` aw z)])%nat (Skip fin)
  | Skip fin =>
    St (unread s - inc z)%nat (written s) (closed s) (abandon s) (draining s) (fill s) (complete s) (chunks s) (windows s) (Chunk fin)
  | Chunk fin =>
    let '(last, f, c) := pieces (draining s) (fill s) (complete s) false (bits (shifts z (chunks s))) in
    St (unread s) (written s) (closed s) (abandon s) (draining s) f c (S (chunks s)) (windows s)
       (if last then (if fin then Done else Test1 true) else Test1 fin)
  | Wait1 => goto (Wait2 (unread s)) s
  | Wait2 rs =>
    let '(ok, d) := test s rs in
    goto (if negb ok && negb (abandon s) then Waiting else Check) (drainTo d s)
  | Waiting => goto Check s
  | Check => goto (if abandon s then Abandoned else Loop1) s
  | Done => s
  | Abandoned => s
  end.

(** What the client does: put up to [k] samples into inbuf (R2Stretcher.cpp:1294-1307 and
    consumeChannel), set the input size after the last (:1310-1317), and abandon the worker
    (:164-173, 199-210).  It does nothing more to the channel after that. *)
Inductive act := Worker | Write (k : nat) | Close | Abandon.
Definition step (s : st) (a : act) : st :=
  match a with
  | Worker => worker s
  | Write k =>
    if closed s || abandon s then s else
    let n := (k `min` (cap z - unread s))%nat in
    St (unread s + n) (written s + n) (closed s) (abandon s) (draining s) (fill s) (complete s) (chunks s) (windows s) (at_ s)
  | Close =>
    if abandon s then s else
    St (unread s) (written s) true (abandon s) (draining s) (fill s) (complete s) (chunks s) (windows s) (at_ s)
  | Abandon =>
    St (unread s) (written s) (closed s) true (draining s) (fill s) (complete s) (chunks s) (windows s) (at_ s)
  end.
Definition run (s : st) (acts : list act) : st := fold_left step acts s.

(** R2Stretcher.cpp:1247-1281: half a window of silence ahead of the input, and the thread
    started *)
Definition start : st := St (aw z / 2) (aw z / 2) false false false 0 false 0 [] Loop1.
End Model.
