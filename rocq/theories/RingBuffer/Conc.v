(** Two-thread model of [RingBuffer<T>]: one writer thread calling [write],
    one reader thread calling [read] or [skip] (src/common/RingBuffer.h).

    Every access to shared memory (an index load, one slot copy, an index
    store) is one step; a schedule is an arbitrary list of thread choices.
    [m_writer] and [m_reader] are [std::atomic<int>] with default
    (sequentially consistent) ordering.  Slots are plain memory: the model
    interleaves slot accesses sequentially consistently, which is justified by
    the absence of data races proved in [ConcProofs.v].  Block copies go in
    ascending order; the race statement covers whole blocks, hence any order. *)
From stdpp Require Import base list.
From Verif.RingBuffer Require Import Model.

Section conc.
Context {T : Type}.

(** Program counter of the writer inside [write] (RingBuffer.h:442-473). *)
Inductive wpc :=
  | WIdle
  | WHaveW (xs : list T) (w : nat)                  (* after 444: int w = m_writer *)
  | WCopy (xs : list T) (w n i : nat).              (* 455-463: [i] of [n] slots stored *)

(** What the reader is asked to do. *)
Inductive rreq := QRead (n : nat) | QSkip (n : nat).
Definition req_n (q : rreq) := match q with QRead n | QSkip n => n end.

(** Program counter of the reader inside [read] (284-313) / [skip] (418-437). *)
Inductive rpc :=
  | RIdle
  | RHaveW (q : rreq) (w : nat)                     (* after 286: int w = m_writer *)
  | RCopy (q : rreq) (r n i : nat) (got : list T).  (* 297-305 *)

Record cst := CSt {
  cbuf : list T; cw : nat; cr : nat; csize : nat;   (* shared memory *)
  wtodo : list (list T); wp : wpc;                  (* writer thread *)
  rtodo : list rreq; rp : rpc;                      (* reader thread *)
  wlog : list (list T * nat);       (* finished writes: block, returned count *)
  rlog : list (rreq * list T * nat) (* finished reads: request, data, count *)
}.

Definition cinit (n : nat) (junk : list T) (blocks : list (list T)) (reqs : list rreq) : cst :=
  CSt junk 0 0 (n + 1) blocks WIdle reqs RIdle [] [].

(** One step of the writer thread; [None] is undefined behaviour. *)
Definition wstep (s : cst) : option cst :=
  match wp s with
  | WIdle =>
    match wtodo s with
    | [] => Some s
    | xs :: todo =>
      Some (CSt (cbuf s) (cw s) (cr s) (csize s) todo (WHaveW xs (cw s))
                (rtodo s) (rp s) (wlog s) (rlog s))
    end
  | WHaveW xs w =>
    (* 445-453: load m_reader, clamp the count *)
    let available := writeSpaceFor (csize s) w (cr s) in
    let n := if decide (available < length xs) then available else length xs in
    if decide (n = 0) then
      Some (CSt (cbuf s) (cw s) (cr s) (csize s) (wtodo s) WIdle
                (rtodo s) (rp s) (wlog s ++ [(xs, 0)]) (rlog s))
    else
      Some (CSt (cbuf s) (cw s) (cr s) (csize s) (wtodo s) (WCopy xs w n 0)
                (rtodo s) (rp s) (wlog s) (rlog s))
  | WCopy xs w n i =>
    if decide (i < n) then
      (* 458-463: slot w+i, or its wrapped position *)
      let j := if decide (w + i < csize s) then w + i else w + i - csize s in
      x ← xs !! i;
      if decide (j < length (cbuf s)) then
        Some (CSt (<[j := x]> (cbuf s)) (cw s) (cr s) (csize s) (wtodo s) (WCopy xs w n (S i))
                  (rtodo s) (rp s) (wlog s) (rlog s))
      else None
    else
      (* 465-472: publish the write index *)
      w' ← wrap (w + n) (csize s);
      Some (CSt (cbuf s) w' (cr s) (csize s) (wtodo s) WIdle
                (rtodo s) (rp s) (wlog s ++ [(xs, n)]) (rlog s))
  end.

(** One step of the reader thread. *)
Definition rstep (s : cst) : option cst :=
  match rp s with
  | RIdle =>
    match rtodo s with
    | [] => Some s
    | q :: todo =>
      Some (CSt (cbuf s) (cw s) (cr s) (csize s) (wtodo s) (wp s)
                todo (RHaveW q (cw s)) (wlog s) (rlog s))
    end
  | RHaveW q w =>
    (* 287-295: load own m_reader, clamp the count *)
    let r := cr s in
    let available := readSpaceFor (csize s) w r in
    let n := if decide (available < req_n q) then available else req_n q in
    if decide (n = 0) then
      Some (CSt (cbuf s) (cw s) (cr s) (csize s) (wtodo s) (wp s)
                (rtodo s) RIdle (wlog s) (rlog s ++ [(q, [], 0)]))
    else
      Some (CSt (cbuf s) (cw s) (cr s) (csize s) (wtodo s) (wp s)
                (rtodo s) (RCopy q r n (match q with QRead _ => 0 | QSkip _ => n end) [])
                (wlog s) (rlog s))
  | RCopy q r n i got =>
    if decide (i < n) then
      let j := if decide (r + i < csize s) then r + i else r + i - csize s in
      x ← cbuf s !! j;
      Some (CSt (cbuf s) (cw s) (cr s) (csize s) (wtodo s) (wp s)
                (rtodo s) (RCopy q r n (S i) (got ++ [x])) (wlog s) (rlog s))
    else
      (* 307-312: publish the read index *)
      r' ← wrap (r + n) (csize s);
      Some (CSt (cbuf s) (cw s) r' (csize s) (wtodo s) (wp s)
                (rtodo s) RIdle (wlog s) (rlog s ++ [(q, got, n)]))
  end.

(** A schedule: [true] runs the writer, [false] the reader. *)
Fixpoint crun (s : cst) (sched : list bool) : option cst :=
  match sched with
  | [] => Some s
  | t :: ts => s' ← (if t : bool then wstep s else rstep s); crun s' ts
  end.

End conc.
Arguments cst : clear implicits.
Arguments wpc : clear implicits.
Arguments rpc : clear implicits.
