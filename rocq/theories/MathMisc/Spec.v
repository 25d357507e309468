(** Specification for mathmisc. *)
From Coq Require Import ZArith QArith Qabs Znumtheory Reals.
Local Open Scope Z_scope.

(** [r] is the least power of two not below [v]. *)
Definition least_pow2 (v r : Z) : Prop :=
  exists k, 0 <= k /\ r = 2 ^ k /\ v <= r /\ forall j, 0 <= j -> v <= 2 ^ j -> r <= 2 ^ j.

(** Distance of the fraction [x/y] from [q]. *)
Definition dist (q : Q) (x y : Z) : Q := Qabs (q - (inject_Z x / inject_Z y)).

(** [x/y] is a best approximation of [q] among fractions with denominator at
    most [m]. *)
Definition best_approx (q : Q) (m x y : Z) : Prop :=
  1 <= y <= m /\ forall u v, 1 <= v <= m -> (dist q x y <= dist q u v)%Q.

(** At least as close as every fraction of one side. *)
Definition one_sided_best (q : Q) (m x y : Z) : Prop :=
  (forall u v, 1 <= v <= m -> (inject_Z u / inject_Z v <= q)%Q -> (dist q x y <= dist q u v)%Q) \/
  (forall u v, 1 <= v <= m -> (q <= inject_Z u / inject_Z v)%Q -> (dist q x y <= dist q u v)%Q).

(** [r] is the principal value of the angle [a], half a turn being [P]. *)
Definition principal (P a r : R) : Prop :=
  (- P < r <= P)%R /\ exists k : Z, (r = a + IZR k * (2 * P))%R.
