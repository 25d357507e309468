(** What a client of an offline stretcher does, and what it gets. *)
From stdpp Require Import prelude.
From Coq Require Import ZArith QArith.
From Verif Require Import Base.Arith Offline.Model.
Local Open Scope Z_scope.

(** A block of [len] sample frames for [n] channels. *)
Definition block {A} (n : nat) (len : Z) (bs : list (list A)) : Prop := length bs = n /\ Forall (fun b => zlen b = len) bs.

(** The settings a client makes before it starts. *)
Inductive setting {A} : call (A := A) -> Prop :=
| set_time q : (1 <= inject_Z (2 ^ 40) * q)%Q -> (q <= inject_Z (2 ^ 40))%Q -> setting (SetTime q)
| set_expected n : setting (SetExpected n)
| set_max n : setting (SetMax n).
(** The settings that count in the end. *)
Fixpoint lastTime {A} (t : Q) (l : list (call (A := A))) : Q :=
  match l with [] => t | SetTime q :: l => lastTime q l | _ :: l => lastTime t l end.
Fixpoint lastExpected {A} (n : Z) (l : list (call (A := A))) : Z :=
  match l with [] => n | SetExpected k :: l => lastExpected k l | _ :: l => lastExpected n l end.

(** The ratios covered: lengthening up to twenty times; shortening to 51% at any rate, to 27%
    from 16 kHz on, to a sixteenth with smooth transients. *)
Definition covered (rate : Z) (smooth : bool) (t : Q) : Prop :=
  (t <= 20)%Q /\ ((51 # 100 <= t)%Q \/ ((27 # 100 <= t)%Q /\ 16000 <= rate) \/ (smooth = true /\ (1 # 16 <= t)%Q)).

(** Calls of study without the end, [len] frames in all. *)
Inductive studies {A} (n : nat) : Z -> list (call (A := A)) -> Prop :=
| studies_nil : studies n 0 []
| studies_cons b bs len l : block n b bs -> studies n len l -> studies n (b + len) (Study bs false :: l).

(** Looking and fetching. *)
Inductive fetch {A} : call (A := A) -> Prop :=
| fetch_retrieve k : 0 <= k -> fetch (Retrieve k)
| fetch_available : fetch Available.
(** Calls of process without the end, [len] frames in all, available and retrieve in between. *)
Inductive streams {A} (n : nat) : Z -> list (call (A := A)) -> Prop :=
| streams_nil : streams n 0 []
| streams_process b bs len l : block n b bs -> streams n len l -> streams n (b + len) (Process bs false :: l)
| streams_fetch a len l : fetch a -> streams n len l -> streams n len (a :: l).
(** The frames asked for. *)
Definition askedOf {A} (a : call (A := A)) : Z := match a with Retrieve k => k | _ => 0 end.
Definition asked {A} (l : list (call (A := A))) : Z := sumZ (askedOf <$> l).

(** The frames in the answers. *)
Definition framesOf {A} (a : answer (A := A)) : Z := match a with Audio (x :: _) => zlen x | _ => 0 end.
Definition allFrames {A} (l : list (answer (A := A))) : Z := sumZ (framesOf <$> l).
(** Every channel has equally many. *)
Definition levelAnswer {A} (n : nat) (a : answer (A := A)) : Prop :=
  match a with Audio xs => exists len, block n len xs | _ => True end.
