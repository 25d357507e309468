(** What is said about phases. *)
From stdpp Require Import prelude.
From Coq Require Import ZArith QArith.
From Verif Require Import Base.Arith Phases.Model.
Local Open Scope Z_scope.

(** The same phase: equal up to whole turns. *)
Definition same (a b : Q) : Prop := exists z, (a == b + inject_Z z)%Q.
(** A tone of [f] turns a sample in bin [i], going from phase [p'] to [p] within an increment:
    of all such [f] the one next to the frequency of the bin. *)
Definition tone (c : config) (i : nat) (f p' p : Q) : Prop :=
  same (p' + f * inject_Z (inc c)) p /\
  (- (1 # 2) < inject_Z (inc c) * (f - inject_Z (Z.of_nat i) / inject_Z (fft c)) <= 1 # 2)%Q.
Definition sensible (c : config) : Prop := 0 < inc c /\ 0 < fft c /\ (0 < rate c)%Q /\ (0 < freq0 c)%Q.
(** A bin whose phase goes by itself: all when the phases are independent, those up to m_freq0
    (600 Hz) when not. *)
Definition alone (c : config) (i : nat) : Prop := laminar c = false \/ Z.of_nat i <= bin_of c (freq0 c).
(** A bin that starts anew at a phase reset (the ratio not being 1): all but those between
    150 and 1000 Hz with mixed transients. *)
Definition resets (k : chunk) (i : nat) : Prop :=
  phaseReset k = true /\ ~ (mixed (cfg k) = true /\ bin_of (cfg k) 150 < Z.of_nat i < bin_of (cfg k) 1000).
(** Some history of a channel without a reset(). *)
Definition plain (i : nat) (os : list op) : Prop :=
  Forall (fun o => match o with Play k => sensible (cfg k) /\ alone (cfg k) i | Sizes _ => True | Reset => False end) os.
(** What is played in a row of chunks. *)
Fixpoint played (ch : chan) (ks : list chunk) : list (list Q) :=
  match ks with [] => [] | k :: ks => snd (play ch k) :: played (fst (play ch k)) ks end.
Definition covered (ks : list chunk) : Z := foldr Z.add 0 (outInc <$> ks).
