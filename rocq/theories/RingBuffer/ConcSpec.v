(** Specification of the concurrent ring buffer, over visible results only. *)
From stdpp Require Import base list.
From Verif.RingBuffer Require Import Model Conc.

Section spec.
Context {T : Type}.

(** Everything accepted: of each finished [write], as many leading samples as
    the call said it took. *)
Definition accepted_stream (l : list (list T * nat)) : list T :=
  concat (map (fun '(xs, k) => take k xs) l).

(** Everything consumed: [Some x] for a sample handed over by [read], [None]
    for one discarded by [skip]. *)
Definition consumed_by (e : rreq * list T * nat) : list (option T) :=
  match e with
  | (QRead _, got, k) => map Some got
  | (QSkip _, _, k) => replicate k None
  end.
Definition consumed_stream (l : list (rreq * list T * nat)) : list (option T) :=
  concat (map consumed_by l).

Definition agrees (o : option T) (x : T) : Prop := o = None \/ o = Some x.

(** Returned counts are truthful: the data has the stated length and no call
    transfers more than requested. *)
Definition count_ok (e : rreq * list T * nat) : Prop :=
  match e with
  | (QRead n, got, k) => length got = k /\ k <= n
  | (QSkip n, got, k) => got = [] /\ k <= n
  end.

(** Cells a thread is in the middle of writing / reading. *)
Definition in_span (m start n j : nat) : Prop :=
  exists i, i < n /\ j = if decide (start + i < m) then start + i else start + i - m.
Definition writing (s : cst T) (j : nat) : Prop :=
  match wp s with WCopy _ w n _ => in_span (csize s) w n j | _ => False end.
Definition reading (s : cst T) (j : nat) : Prop :=
  match rp s with RCopy _ r n _ _ => in_span (csize s) r n j | _ => False end.
End spec.
