(** Independent specification: a bounded FIFO queue is just a list (oldest
    first) and a capacity. It shares only the vocabulary of calls and results
    ([op], [out]) with the model, none of its functions. *)
From stdpp Require Import base list.
From Verif.RingBuffer Require Import Model.

Section spec.
Context {T : Type} (zero : T) (add : T -> T -> T).

(** The caller's arrays must be as long as the count passed along. *)
Definition op_ok (o : op T) : Prop :=
  match o with
  | OWrite s n => n <= length s
  | ORead d n | OPeek d n | OReadAdding d n => n <= length d
  | _ => True
  end.

(** What the queue [q] (capacity [cap]) becomes and what the caller sees. *)
Definition spec_step (cap : nat) (q : list T) (o : op T) : list T * out T :=
  match o with
  | OWrite s n => let k := n `min` (cap - length q) in (q ++ take k s, RCount k)
  | OZero n => let k := n `min` (cap - length q) in (q ++ replicate k zero, RCount k)
  | ORead d n => let k := n `min` length q in
                 (drop k q, RData (take k q ++ drop k d) k)
  | OReadAdding d n => let k := n `min` length q in
                 (drop k q, RData (zip_with add (take k d) (take k q) ++ drop k d) k)
  | OReadOne => match q with [] => ([], RVal zero) | x :: q' => (q', RVal x) end
  | OPeek d n => let k := n `min` length q in (q, RData (take k q ++ drop k d) k)
  | OPeekOne => (q, RVal (default zero (head q)))
  | OSkip n => let k := n `min` length q in (drop k q, RCount k)
  | OReset => ([], RUnit)
  | OGetReadSpace => (q, RCount (length q))
  | OGetWriteSpace => (q, RCount (cap - length q))
  end.

Fixpoint spec_run (cap : nat) (q : list T) (os : list (op T)) : list T * list (out T) :=
  match os with
  | [] => (q, [])
  | o :: os => let '(q1, r) := spec_step cap q o in
               let '(q2, rs) := spec_run cap q1 os in (q2, r :: rs)
  end.

(** Trace-level reading of "in order, once": [accepted] is everything a history
    put in, [removed] everything it took out (discarded by [skip]/[reset]
    included), both computed from the visible results alone. *)
Definition accepted_by (o : op T) (r : out T) : list T :=
  match o, r with
  | OWrite s _, RCount k => take k s
  | OZero _, RCount k => replicate k zero
  | _, _ => []
  end.
Fixpoint accepted (os : list (op T)) (rs : list (out T)) : list T :=
  match os, rs with
  | o :: os, r :: rs => accepted_by o r ++ accepted os rs
  | _, _ => []
  end.
End spec.

(** The samples a reader obtained, in order, from the visible results of the
    consuming calls ([read], [readOne]); [readOne] on an empty buffer returns a
    placeholder zero, which is recognised by [getReadSpace() = 0] beforehand and
    is therefore not part of the vocabulary below. *)
Section delivered.
Context {T : Type}.
Definition delivered_by (o : op T) (r : out T) : list T :=
  match o, r with
  | ORead _ _, RData d k => take k d
  | _, _ => []
  end.
Fixpoint delivered (os : list (op T)) (rs : list (out T)) : list T :=
  match os, rs with
  | o :: os, r :: rs => delivered_by o r ++ delivered os rs
  | _, _ => []
  end.
(** A history that moves data only with [write], [zero] and [read]. *)
Definition transfer_op (o : op T) : Prop :=
  match o with
  | OWrite _ _ | OZero _ | ORead _ _ | OPeek _ _ | OPeekOne
  | OGetReadSpace | OGetWriteSpace => True
  | _ => False
  end.
End delivered.
