(** The output buffer of a channel in threaded mode: the worker may replace it by a larger one
    while the client retrieves. *)
From stdpp Require Import prelude.

(** Samples are numbered as they are produced; a buffer holds the numbers from [fst] up to
    [snd].  Buffers that were replaced stay alive (Scavenger), so a stale pointer to one can
    be used.  When the worker decides to enlarge the buffer does not matter (StretcherProcess.cpp:491-492
    ask whether there is room): it may at any time here. *)
Record out := Out {
  bufs : list (nat * nat);
  cur : nat;                    (* cd.outbuf *)
  copied : option (nat * nat);  (* the larger buffer, filled but not yet put in place *)
  held : option nat;            (* the buffer the client has taken the address of *)
  produced : nat;
  delivered : list nat
}.
Definition begin : out := Out [(0, 0)]%nat 0 None None 0 [].

Inductive ev :=
| Produce (n : nat)   (* writeOutput (StretcherProcess.cpp:1141-1190) into *cd.outbuf *)
| Copy                (* RingBuffer::resized (common/RingBuffer.h:236-253), StretcherProcess.cpp:505 *)
| Install             (* cd.outbuf = ..., StretcherProcess.cpp:505; then claim(oldbuf) *)
| Load                (* the client reads m_channelData[c]->outbuf, StretcherProcess.cpp:1277 *)
| Read (n : nat).     (* and reads from it *)
Definition step (s : out) (e : ev) : out :=
  match e with
  | Produce n =>
    match copied s, bufs s !! cur s with
    | None, Some (lo, hi) => Out (<[cur s := (lo, hi + n)%nat]> (bufs s)) (cur s) None (held s) (produced s + n) (delivered s)
    | _, _ => s end
  | Copy =>
    match copied s, bufs s !! cur s with
    | None, Some b => Out (bufs s) (cur s) (Some b) (held s) (produced s) (delivered s)
    | _, _ => s end
  | Install =>
    match copied s with
    | Some b => Out (bufs s ++ [b]) (length (bufs s)) None (held s) (produced s) (delivered s)
    | None => s end
  | Load => match held s with None => Out (bufs s) (cur s) (copied s) (Some (cur s)) (produced s) (delivered s) | Some _ => s end
  | Read n =>
    match held s with
    | Some b => match bufs s !! b with
      | Some (lo, hi) => let k := (n `min` (hi - lo))%nat in
        Out (<[b := (lo + k, hi)%nat]> (bufs s)) (cur s) (copied s) None (produced s) (delivered s ++ seq lo k)
      | None => s end
    | None => s end
  end.
Definition run (s : out) (es : list ev) : out := fold_left step es s.
