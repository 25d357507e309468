(** Properties C13-C15. *)
From Coq Require Import ZArith QArith Qabs Reals Lia Lra.
From Verif.MathMisc Require Import Model Spec Proofs.
Local Open Scope Z_scope.

(** C13. *)
Theorem C13_round_up : forall v, 1 <= v <= 2 ^ 63 -> exists r, roundUp v = Some r /\ least_pow2 v r.
Proof. exact roundUp_spec. Qed.
Print Assumptions C13_round_up.

Theorem C13_round_up_div : forall (x : Q) (d : Z),
  1 <= d -> (0 < x)%Q -> (x <= inject_Z d * inject_Z (2 ^ 63))%Q ->
  exists r, roundUpDiv x d = Some r /\ (exists k, 0 <= k /\ r = 2 ^ k) /\
    (x / inject_Z d <= inject_Z r)%Q /\
    forall j, 0 <= j -> (x / inject_Z d <= inject_Z (2 ^ j))%Q -> r <= 2 ^ j.
Proof. exact roundUpDiv_spec. Qed.
Print Assumptions C13_round_up_div.

Example C13_example : roundUp 0 = Some 0 /\ roundUp 1025 = Some 2048 /\ roundUp (2 ^ 63 + 1) = None /\
  roundUp (2 ^ 63 - 1) = Some (2 ^ 63) /\
  roundUpDiv 44100 128 = Some 512 /\ roundUpDiv 48000 32 = Some 2048.
Proof. vm_compute. repeat split; reflexivity. Qed.

(** C14 is false: 99/100 with denominators up to 10 gives 9/10, although 1/1 is
    closer.  The exit compares the last lower bound with the last-but-one upper
    bound. *)
Theorem C14_best_approximation_refuted : exists (ratio : Q) (max_denom : Z) fuel x y,
  (0 < ratio)%Q /\ 1 <= max_denom /\ pickNearestRational fuel ratio max_denom = Some (x, y) /\
  ~ best_approx ratio max_denom x y.
Proof.
  exists (99 # 100), 10, 100%nat, 9, 10. split; [reflexivity|]. split; [lia|].
  split; [vm_compute; reflexivity|].
  intros [_ H]. specialize (H 1 1 ltac:(lia)). vm_compute in H. apply H. reflexivity.
Qed.
Print Assumptions C14_best_approximation_refuted.

(** With the limit the resampler uses (BQResampler.cpp:378-393), a ratio 1e-8
    below 1 becomes 191999/192000: 500 times further away than 1/1. *)
Theorem C14_production_limit_refuted : exists fuel x y,
  pickNearestRational fuel (99999999 # 100000000) 192000 = Some (x, y) /\
  ~ best_approx (99999999 # 100000000) 192000 x y.
Proof.
  destruct production_limit as [fuel Hf]. exists fuel, 191999, 192000. split; [exact Hf|].
  intros [_ H]. specialize (H 1 1 ltac:(lia)). vm_compute in H. apply H. reflexivity.
Qed.
Print Assumptions C14_production_limit_refuted.

(** What holds: it terminates with a reduced fraction whose denominator is in
    range; it is within 1e-9 of the ratio or no worse than every fraction on one
    side of it; the error is below 1/max_denom + 1e-9; and it is below 1e-9 when
    some fraction in range equals the ratio. *)
Theorem C14_nearest_rational_partial : forall (ratio : Q) (max_denom : Z),
  (0 < ratio)%Q -> 1 <= max_denom ->
  exists fuel0, forall fuel, (fuel0 <= fuel)%nat ->
  exists r, pickNearestRational fuel ratio max_denom = Some r /\
    0 <= fst r /\ 1 <= snd r <= max_denom /\ Z.gcd (fst r) (snd r) = 1 /\
    (dist ratio (fst r) (snd r) < (1 # 1000000000) \/
       one_sided_best ratio max_denom (fst r) (snd r))%Q /\
    (dist ratio (fst r) (snd r) < (1 # 1000000000) + (1 # Z.to_pos max_denom))%Q /\
    ((exists u v, 1 <= v <= max_denom /\ (ratio == inject_Z u / inject_Z v)%Q) ->
       (dist ratio (fst r) (snd r) < (1 # 1000000000))%Q).
Proof. exact (fun ratio m Hr Hm => farey_ok ratio farey_eps m Hr eq_refl Hm). Qed.
Print Assumptions C14_nearest_rational_partial.

Example C14_example :
  pickNearestRational 1000 (44100 # 48000) 192000 = Some (147, 160) /\
  pickNearestRational 1000 (7 # 2) 10 = Some (7, 2) /\
  pickNearestRational 1000 (314159265 # 100000000) 1000 = Some (2818, 897).
Proof. vm_compute. repeat split; reflexivity. Qed.

(** C15, for any positive value [P] standing for pi. *)
Theorem C15_princarg : forall P a : R, (0 < P)%R -> principal P a (princarg P a).
Proof. exact princarg_spec. Qed.
Print Assumptions C15_princarg.

Theorem C15_princarg_pi : forall a : R, principal PI a (princarg PI a).
Proof. exact (fun a => princarg_spec PI a PI_RGT_0). Qed.
Print Assumptions C15_princarg_pi.

(** The closed end: half a turn stays, minus half a turn becomes half a turn. *)
Example C15_example : princarg 3 3 = 3%R /\ princarg 3 (-3) = 3%R /\ princarg 3 4 = (-2)%R.
Proof.
  assert (F : forall (x : R) (z : Z), (IZR z <= x < IZR z + 1)%R -> Int_part x = z).
  { intros x z [H1 H2]. destruct (base_Int_part x) as [H3 H4].
    assert (Int_part x < z + 1) by (apply lt_IZR; rewrite plus_IZR; lra).
    assert (z < Int_part x + 1) by (apply lt_IZR; rewrite plus_IZR; lra). lia. }
  unfold princarg, rmod. repeat split.
  - rewrite (F _ (-1)); lra.
  - rewrite (F _ 0); lra.
  - rewrite (F _ (-2)); lra.
Qed.
