(** The same code as an interleaving of one scavenging thread and any number of
    claiming threads, one shared memory access per step, sequentially consistent
    memory.  The mutex-protected parts (pushExcess, clearExcess) are single
    steps.  Lines are those of src/common/Scavenger.h. *)
From stdpp Require Import base list numbers.
From Coq Require Import ZArith.
From Verif.Scavenger Require Import Model.
Local Open Scope Z_scope.

Section conc.
Context {T : Type}.

(** Program counter of a thread in claim(), 158-183. *)
Inductive cpc :=
  | CIdle
  | CScan (i : nat) (t : T) (sec : Z)     (* 168-170: about to read slot i *)
  | CTime (i : nat) (t : T) (sec : Z)     (* 171 *)
  | CPtr (i : nat) (t : T)                (* 172 *)
  | CCount                                (* 173, load *)
  | CCount2 (v : Z)                       (* 173, store *)
  | CExcess (t : T).                      (* 182 *)

(** Program counter of the thread in scavenge(), 185-215. *)
Inductive spc :=
  | SIdle
  | SEntry (cn : bool) (sec : Z)                                (* 193 *)
  | SScan (i : nat) (cn : bool) (sec : Z) (any : bool)          (* 200-202 *)
  | STest (i : nat) (cn : bool) (sec : Z) (any : bool)          (* 203 *)
  | SLoad (i : nat) (cn : bool) (sec : Z)                       (* 204 *)
  | STake (i : nat) (ot : T) (cn : bool) (sec : Z)              (* 205 *)
  | SDel (i : nat) (ot : T) (cn : bool) (sec : Z)               (* 206 *)
  | SInc (i : nat) (cn : bool) (sec : Z)                        (* 207-208 *)
  | SEnd (cn : bool) (sec : Z) (any : bool)                     (* 212 *)
  | SClear (sec : Z).                                           (* 213 *)

Record cst := Cst {
  c_objs : list (option T * Z);
  c_excess : list T;
  c_last : Z;
  c_claimed : Z;
  c_scavenged : Z;
  c_deleted : list T;          (* events: deletions so far *)
  c_issued : list (T * Z);     (* events: claim calls so far, with their time *)
  c_threads : list cpc;
  c_scav : spc
}.

Definition c_new (n claimers : nat) : cst :=
  Cst (replicate n (None, 0)) [] 0 0 0 [] [] (replicate claimers CIdle) SIdle.

Definition set_thread (s : cst) (k : nat) (p : cpc) : cst :=
  Cst (c_objs s) (c_excess s) (c_last s) (c_claimed s) (c_scavenged s) (c_deleted s)
      (c_issued s) (<[k := p]> (c_threads s)) (c_scav s).
Definition set_scav (s : cst) (p : spc) : cst :=
  Cst (c_objs s) (c_excess s) (c_last s) (c_claimed s) (c_scavenged s) (c_deleted s)
      (c_issued s) (c_threads s) p.
Definition set_objs (s : cst) (l : list (option T * Z)) : cst :=
  Cst l (c_excess s) (c_last s) (c_claimed s) (c_scavenged s) (c_deleted s)
      (c_issued s) (c_threads s) (c_scav s).

Inductive label :=
  | LClaim (k : nat) (t : T) (sec : Z)    (* thread k calls claim(t) *)
  | LC (k : nat) (now : Z)                (* thread k takes a step *)
  | LScav (cn : bool) (sec : Z)           (* scavenge() is called *)
  | LS.                                   (* the scavenging thread takes a step *)

(** One step of claiming thread [k]; [now] is the clock if pushExcess reads it. *)
Definition cstep (s : cst) (k : nat) (now : Z) : option cst :=
  p ← c_threads s !! k;
  match p with
  | CIdle => None
  | CScan i t sec =>
    match c_objs s !! i with
    | None => Some (set_thread s k (CExcess t))                  (* loop over *)
    | Some (None, _) => Some (set_thread s k (CTime i t sec))
    | Some (Some _, _) => Some (set_thread s k (CScan (S i) t sec))
    end
  | CTime i t sec =>
    '(f, _) ← c_objs s !! i;
    Some (set_thread (set_objs s (<[i := (f, sec)]> (c_objs s))) k (CPtr i t))
  | CPtr i t =>
    '(_, x) ← c_objs s !! i;
    Some (set_thread (set_objs s (<[i := (Some t, x)]> (c_objs s))) k CCount)
  | CCount => Some (set_thread s k (CCount2 (c_claimed s)))
  | CCount2 v =>
    Some (Cst (c_objs s) (c_excess s) (c_last s) (u32_incr v) (c_scavenged s) (c_deleted s)
              (c_issued s) (<[k := CIdle]> (c_threads s)) (c_scav s))
  | CExcess t =>
    Some (Cst (c_objs s) (c_excess s ++ [t]) now (c_claimed s) (c_scavenged s) (c_deleted s)
              (c_issued s) (<[k := CIdle]> (c_threads s)) (c_scav s))
  end.

(** One step of the scavenging thread; [msec] is m_sec. *)
Definition sstep1 (msec : Z) (s : cst) : option cst :=
  match c_scav s with
  | SIdle => None
  | SEntry cn sec =>
    Some (set_scav s (if c_claimed s <=? c_scavenged s then SIdle else SScan 0 cn sec false))
  | SScan i cn sec any =>
    match c_objs s !! i with
    | None => Some (set_scav s (SEnd cn sec any))
    | Some (None, _) => Some (set_scav s (SScan (S i) cn sec any))
    | Some (Some _, _) => Some (set_scav s (STest i cn sec any))
    end
  | STest i cn sec any =>
    '(_, x) ← c_objs s !! i;
    Some (set_scav s (if cn || (x + msec <? sec) then SLoad i cn sec else SScan (S i) cn sec any))
  | SLoad i cn sec =>
    '(f, _) ← c_objs s !! i; ot ← f;       (* a null here would be deleted as null: unreachable *)
    Some (set_scav s (STake i ot cn sec))
  | STake i ot cn sec =>
    '(_, x) ← c_objs s !! i;
    Some (set_scav (set_objs s (<[i := (None, x)]> (c_objs s))) (SDel i ot cn sec))
  | SDel i ot cn sec =>
    Some (Cst (c_objs s) (c_excess s) (c_last s) (c_claimed s) (c_scavenged s)
              (c_deleted s ++ [ot]) (c_issued s) (c_threads s) (SInc i cn sec))
  | SInc i cn sec =>
    Some (Cst (c_objs s) (c_excess s) (c_last s) (c_claimed s) (u32_incr (c_scavenged s))
              (c_deleted s) (c_issued s) (c_threads s) (SScan (S i) cn sec true))
  | SEnd cn sec any =>
    Some (set_scav s (if cn || any || (c_last s + msec <? sec) then SClear sec else SIdle))
  | SClear sec =>
    Some (Cst (c_objs s) [] sec (c_claimed s) (c_scavenged s) (c_deleted s ++ c_excess s)
              (c_issued s) (c_threads s) SIdle)
  end.

Definition lstep (msec : Z) (s : cst) (l : label) : option cst :=
  match l with
  | LClaim k t sec =>
    p ← c_threads s !! k;
    match p with
    | CIdle => Some (Cst (c_objs s) (c_excess s) (c_last s) (c_claimed s) (c_scavenged s)
                 (c_deleted s) (c_issued s ++ [(t, sec)])
                 (<[k := CScan 0 t sec]> (c_threads s)) (c_scav s))
    | _ => None
    end
  | LC k now => cstep s k now
  | LScav cn sec => match c_scav s with SIdle => Some (set_scav s (SEntry cn sec)) | _ => None end
  | LS => sstep1 msec s
  end.

Fixpoint lrun (msec : Z) (s : cst) (ls : list label) : option cst :=
  match ls with [] => Some s | l :: ls => s1 ← lstep msec s l; lrun msec s1 ls end.

(** The destructor runs when every thread is idle. *)
Definition quiescent (s : cst) : Prop := Forall (fun p => p = CIdle) (c_threads s) /\ c_scav s = SIdle.
Definition to_scav (msec : Z) (s : cst) : scav T :=
  Scav (c_objs s) msec (c_excess s) (c_last s) (c_claimed s) (c_scavenged s) 0.
End conc.
Arguments cst : clear implicits.
Arguments label : clear implicits.
Arguments cpc : clear implicits.
Arguments spc : clear implicits.
