(** Model of src/common/Scavenger.h.

    Simplifications: objects are abstract names, [None] is the null pointer and
    only non-null objects are claimed; the [int] clock values are unbounded
    integers supplied by the caller of each operation (any clock behaviour);
    [delete] is recorded as an event.  The [unsigned int] counters wrap at 2^32. *)
From stdpp Require Import base list numbers.
From Coq Require Import ZArith.
Local Open Scope Z_scope.

Definition u32_incr (x : Z) : Z := (x + 1) mod 2 ^ 32.

Section scav.
Context {T : Type}.

(** Scavenger.h:78-92 *)
Record scav := Scav {
  objs : list (option T * Z);      (* m_objects *)
  msec : Z;                        (* m_sec *)
  excess : list T;                 (* m_excess *)
  lastExcess : Z;                  (* m_lastExcess *)
  claimed : Z;                     (* m_claimed *)
  scavenged : Z;                   (* m_scavenged *)
  asExcess : Z                     (* m_asExcess *)
}.

(** Scavenger.h:130-138 *)
Definition scav_new (sec : Z) (n : nat) : scav :=
  Scav (replicate n (None, 0)) sec [] 0 0 0 0.

(** Scavenger.h:168-176: first free slot. *)
Fixpoint put_first (l : list (option T * Z)) (t : T) (sec : Z) : option (list (option T * Z)) :=
  match l with
  | [] => None
  | (None, _) :: l' => Some ((Some t, sec) :: l')
  | p :: l' => l'' ← put_first l' t sec; Some (p :: l'')
  end.

(** Scavenger.h:217-227 *)
Definition pushExcess (s : scav) (t : T) (sec : Z) : scav :=
  Scav (objs s) (msec s) (excess s ++ [t]) sec (claimed s) (scavenged s) (asExcess s).

(** Scavenger.h:229-246; returns the deleted objects. *)
Definition clearExcess (s : scav) (sec : Z) : scav * list T :=
  (Scav (objs s) (msec s) [] sec (claimed s) (scavenged s)
     (Nat.iter (length (excess s)) u32_incr (asExcess s)), excess s).

(** Scavenger.h:158-183; [sec] and [sec2] are the two clock readings (166, 225). *)
Definition claim (s : scav) (t : T) (sec sec2 : Z) : scav :=
  match put_first (objs s) t sec with
  | Some l => Scav l (msec s) (excess s) (lastExcess s) (u32_incr (claimed s)) (scavenged s) (asExcess s)
  | None => pushExcess s t sec2
  end.

(** Scavenger.h:200-210: new slots, deleted objects in order, new counter. *)
Fixpoint sweep (l : list (option T * Z)) (clearNow : bool) (msec sec : Z) (cnt : Z)
  : list (option T * Z) * list T * Z :=
  match l with
  | [] => ([], [], cnt)
  | (None, x) :: l' => let '(r, d, c) := sweep l' clearNow msec sec cnt in ((None, x) :: r, d, c)
  | (Some t, x) :: l' =>
    if clearNow || (x + msec <? sec) then
      let '(r, d, c) := sweep l' clearNow msec sec (u32_incr cnt) in ((None, x) :: r, t :: d, c)
    else
      let '(r, d, c) := sweep l' clearNow msec sec cnt in ((Some t, x) :: r, d, c)
  end.

(** Scavenger.h:185-215 *)
Definition scavenge (s : scav) (clearNow : bool) (sec : Z) : scav * list T :=
  if claimed s <=? scavenged s then (s, []) else
  let '(l, d, c) := sweep (objs s) clearNow (msec s) sec (scavenged s) in
  let s1 := Scav l (msec s) (excess s) (lastExcess s) (claimed s) c (asExcess s) in
  let anything := negb (Nat.eqb (length d) 0) in
  if clearNow || anything || (lastExcess s1 + msec s1 <? sec) then
    let '(s2, d2) := clearExcess s1 sec in (s2, d ++ d2)
  else (s1, d).

(** Scavenger.h:140-156 *)
Definition destroy (s : scav) : scav * list T :=
  let '(s1, d) :=
    if scavenged s <? claimed s then
      let '(l, d, c) := sweep (objs s) true (msec s) 0 (scavenged s) in
      (Scav l (msec s) (excess s) (lastExcess s) (claimed s) c (asExcess s), d)
    else (s, []) in
  let '(s2, d2) := clearExcess s1 0 in (s2, d ++ d2).

Inductive sop := Claim (t : T) (sec sec2 : Z) | Scavenge (clearNow : bool) (sec : Z).

Definition sstep (s : scav) (o : sop) : scav * list T :=
  match o with
  | Claim t sec sec2 => (claim s t sec sec2, [])
  | Scavenge c sec => scavenge s c sec
  end.

(** History: final state and, per call, the objects it deleted. *)
Fixpoint srun (s : scav) (os : list sop) : scav * list (list T) :=
  match os with
  | [] => (s, [])
  | o :: os => let '(s1, d) := sstep s o in let '(s2, ds) := srun s1 os in (s2, d :: ds)
  end.
End scav.
Arguments scav : clear implicits.
Arguments sop : clear implicits.
