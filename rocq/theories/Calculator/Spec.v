(** What the statements about the stretch calculator are made of. *)
From stdpp Require Import prelude.
From Coq Require Import ZArith QArith Lia.
From Verif.Base Require Import Arith.
From Verif.Calculator Require Import Model.
Local Open Scope Z_scope.

(** Frames of output that a list of increments makes: the sign only marks a
    phase reset. *)
Definition frames (l : list Z) : Z := sumZ (Z.abs <$> l).
(** Output frame at which chunk [k] starts. *)
Definition start_of (l : list Z) (k : Z) : Z := frames (take (Z.to_nat k) l).

(** Two onsets, the first one before the second. *)
Definition before (rate incr : Z) (p q : peak) : Prop :=
  chunk p < chunk q /\
  (hard p = true -> hard q = true -> rate <= 20 * incr * (chunk q - chunk p)) /\
  (hard p = true -> hard q = false -> chunk p + 3 < chunk q).

(** A key-frame map as the header describes it: both columns increase. *)
Fixpoint increasing (m : list (Z * Z)) : Prop :=
  match m with
  | [] => True
  | (s, t) :: m' => match m' with [] => True | (s', t') :: _ => s < s' /\ t < t' end /\ increasing m'
  end.

(** A key-frame map that agrees with the start of the audio being mapped to the
    start of the output, and whose other key frames are not in the first chunk. *)
Definition admissible (incr : Z) (m : list (Z * Z)) : Prop :=
  increasing m /\ Forall (fun st => st = (0, 0) \/ (incr <= fst st /\ 0 < snd st)) m.

(** Real-time use: what the calls ask for and what came back, in frames after the
    resampling that follows. *)
Fixpoint wanted (ks : list call) : Q :=
  match ks with [] => 0 | k :: ks' => inject_Z (inIncr k) * timeRatio k + wanted ks' end.
Fixpoint produced (ks : list call) (xs : list Z) : Q :=
  match ks, xs with
  | k :: ks', x :: xs' => inject_Z (Z.abs x) * pitchRatio k + produced ks' xs'
  | _, _ => 0
  end.
Definition overall (k : call) : Q := timeRatio k / pitchRatio k.
(** Number of times the overall ratio changes between calls. *)
Fixpoint changes (ks : list call) : Z :=
  match ks with
  | k :: ((k' :: _) as ks') => (if Qeq_bool (overall k') (overall k) then 0 else 1) + changes ks'
  | _ => 0
  end.
(** No time ratio change without a change of the overall ratio. *)
Fixpoint visible (ks : list call) : Prop :=
  match ks with
  | k :: ((k' :: _) as ks') => (overall k' == overall k -> timeRatio k' == timeRatio k)%Q /\ visible ks'
  | _ => True
  end.
