(** What is asked of the live shifter. *)
From stdpp Require Import prelude list numbers.
From Coq Require Import ZArith QArith Qround.
From Verif Require Import Base.Arith Finer.EngineModel Finer.LiveModel.
Local Open Scope Z_scope.

(** Pitch scales are above zero; or within three octaves either way. *)
Definition above_zero (o : lop) : Prop := match o with SetPitch p => (0 < p)%Q | _ => True end.
Definition within (o : lop) : Prop := match o with SetPitch p => ((1 # 8) <= p /\ p <= 8)%Q | _ => True end.
Definition is_shift (o : lop) : bool := match o with Shift => true | _ => false end.
Definition shifts (l : list lop) : Z := zlen (filter (fun o => is_shift o = true) l).
(** One block: silence, sound and made-up samples. *)
Definition one_block (b : Z * Z * Z) : Prop := let '(z, k, m) := b in 0 <= z /\ 0 <= k /\ 0 <= m /\ z + k + m = 512.
(** At the first block of the session the pitch scale leaves space for that block. *)
Fixpoint starts_low (L : lshape) (p : Q) (first : bool) (l : list lop) : Prop :=
  match l with
  | [] => True
  | SetPitch q :: l => starts_low L q first l
  | Shift :: l => (first = true -> (inject_Z (source L) * p + 512 <= inject_Z (4 * source L))%Q) /\ starts_low L p false l
  | ResetLive :: l => starts_low L p true l
  end.
(** A resampler that loses nothing and holds nothing back: it has taken in [store] samples that it
    has not yet given out, and gives all it can, at the ratio of the moment. *)
Definition ideal {R} (RS : resampler R) : Prop := exists store : R -> Q,
  store (rnew RS) == 0 /\ (forall r, store (rreset RS r) == 0) /\
  forall r cap n q f, (0 < q)%Q -> (0 <= store r)%Q -> 0 <= cap -> 0 <= n ->
    let k := (rres RS r cap n q f).1 in
    k = Z.min cap (Qfloor (q * (store r + inject_Z n))) /\ store (rres RS r cap n q f).2 == store r + inject_Z n - inject_Z k / q.
(** Where each frame begins in the input buffer and in the output, from the first frame on. *)
Fixpoint places (x y : Z) (l : list (Z * Z)) : list (Z * Z) :=
  match l with [] => [] | (i, o) :: l => (x, y) :: places (x + i) (y + o) l end.
