(** The Hann window (common/Window.h) and its sums over evenly spaced offsets. *)
From Coq Require Import ZArith Reals Lra Lia List.
Local Open Scope R_scope.

(** Window.h:131-132 and 254-266 with a0 = a1 = 0.5, a2 = a3 = 0, over the reals in place of
    single precision. *)
Definition hann (w : Z) (i : Z) : R := 1/2 - 1/2 * cos (2 * PI * IZR i / IZR w).

Fixpoint rsum (n : nat) (f : nat -> R) : R := match n with O => 0 | S n => rsum n f + f n end.

(** Window.h:247-251 *)
Definition area (w : Z) : R := rsum (Z.to_nat w) (fun i => hann w (Z.of_nat i)) / IZR w.

Lemma rsum_ext n f g : (forall i, (i < n)%nat -> f i = g i) -> rsum n f = rsum n g.
Proof. induction n as [|n IH]; intros H; [reflexivity|]. cbn. rewrite IH by (intros; apply H; lia). rewrite H by lia. reflexivity. Qed.
Lemma rsum_zero n f : (forall i, (i < n)%nat -> f i = 0) -> rsum n f = 0.
Proof. intros H. induction n as [|n IH]; [reflexivity|]. cbn. rewrite IH by (intros; apply H; lia). rewrite H by lia. lra. Qed.
Lemma rsum_add n m f : rsum (n + m) f = rsum n f + rsum m (fun i => f (n + i)%nat).
Proof. induction m as [|m IH]; [rewrite Nat.add_0_r; cbn; lra|]. rewrite Nat.add_succ_r. cbn. rewrite IH. lra. Qed.
Lemma rsum_scale n a f : rsum n (fun i => a * f i) = a * rsum n f.
Proof. induction n as [|n IH]; cbn; [|rewrite IH]; lra. Qed.
Lemma rsum_plus n f g : rsum n (fun i => f i + g i) = rsum n f + rsum n g.
Proof. induction n as [|n IH]; cbn; [|rewrite IH]; lra. Qed.
Lemma rsum_const n a : rsum n (fun _ => a) = INR n * a.
Proof. induction n as [|n IH]; [cbn; lra|]. rewrite S_INR. cbn [rsum]. rewrite IH. lra. Qed.

(** Cosines at equal angles around the circle cancel. *)
Lemma cos_progression a d n : 2 * sin (d / 2) * rsum n (fun k => cos (a + INR k * d)) = sin (a + (INR n - 1/2) * d) - sin (a - d / 2).
Proof.
  induction n as [|n IH].
  - cbn [rsum INR]. replace (a + (0 - 1/2) * d) with (a - d / 2) by lra. lra.
  - cbn [rsum]. rewrite Rmult_plus_distr_l, IH.
    replace (a + (INR (S n) - 1/2) * d) with ((a + INR n * d) + d / 2) by (rewrite S_INR; lra).
    replace (a + (INR n - 1/2) * d) with ((a + INR n * d) - d / 2) by lra.
    rewrite sin_plus, !sin_minus. lra.
Qed.
Lemma cos_circle a (m : nat) (j : Z) : (0 < m)%nat -> (forall q, j <> q * Z.of_nat m)%Z ->
  rsum m (fun k => cos (a + INR k * (2 * PI * IZR j / INR m))) = 0.
Proof.
  intros Hm Hj. set (d := 2 * PI * IZR j / INR m).
  pose proof (cos_progression a d m) as H.
  assert (Hm0 : INR m <> 0) by (apply not_0_INR; lia).
  assert (E : sin (a + (INR m - 1/2) * d) = sin (a - d / 2)).
  { replace (a + (INR m - 1/2) * d) with ((a - d / 2) + 2 * IZR j * PI) by (unfold d; field; exact Hm0).
    replace (2 * IZR j * PI) with (IZR (2 * j) * PI) by (rewrite mult_IZR; lra).
    rewrite sin_plus. 
    assert (Hs : sin (IZR (2 * j) * PI) = 0) by (apply sin_eq_0_1; exists (2 * j)%Z; reflexivity).
    assert (Hc : cos (IZR (2 * j) * PI) = 1).
    { replace (IZR (2 * j) * PI) with (2 * (IZR j * PI)) by (rewrite mult_IZR; lra). rewrite cos_2a_sin.
      replace (sin (IZR j * PI)) with 0 by (symmetry; apply sin_eq_0_1; exists j; reflexivity). lra. }
    rewrite Hs, Hc. lra. }
  rewrite E in H. replace (sin (a - d / 2) - sin (a - d / 2)) with 0 in H by lra.
  assert (Hd : sin (d / 2) <> 0).
  { intros Hz. apply sin_eq_0_0 in Hz as [k Hk]. apply (Hj k). pose proof PI_RGT_0.
    assert (Hq : IZR j = IZR k * INR m).
    { unfold d in Hk. assert (PI * (IZR j - IZR k * INR m) = 0).
      { replace (PI * (IZR j - IZR k * INR m)) with ((2 * PI * IZR j / INR m / 2 - IZR k * PI) * INR m) by (field; exact Hm0). rewrite Hk. lra. }
      apply Rmult_integral in H1 as [H1|H1]; lra. }
    rewrite INR_IZR_INZ, <- mult_IZR in Hq. apply eq_IZR in Hq. exact Hq. }
  apply Rmult_integral in H as [H|H]; [|exact H]. exfalso. apply Hd. lra.
Qed.

(** Over [m] offsets, evenly spaced around the window and in decreasing order from the last. *)
Section Sums.
Variables (h m : Z).
Hypotheses (Hh : (1 <= h)%Z).
Let offset (r : Z) (a : nat) : Z := (r + (m - 1 - Z.of_nat a) * h)%Z.

Lemma hann_angle r a j : (1 <= m)%Z ->
  2 * PI * IZR (offset r a) / IZR (m * h) * IZR j =
  2 * PI * IZR j * (IZR r + IZR (m - 1) * IZR h) / IZR (m * h) + INR a * (2 * PI * IZR (- j) / INR (Z.to_nat m)).
Proof.
  intros Hm. unfold offset. assert (Em : INR (Z.to_nat m) = IZR m) by (rewrite INR_IZR_INZ, Z2Nat.id by lia; reflexivity). rewrite Em, INR_IZR_INZ, opp_IZR, plus_IZR, !mult_IZR, !minus_IZR.
  assert (IZR h <> 0) by (apply not_0_IZR; lia). assert (IZR m <> 0) by (apply not_0_IZR; lia). field. tauto.
Qed.
Lemma cos_offsets r j : (1 <= m)%Z -> (forall q, - j <> q * m)%Z ->
  rsum (Z.to_nat m) (fun a => cos (2 * PI * IZR (offset r a) / IZR (m * h) * IZR j)) = 0.
Proof.
  intros Hm Hj. etransitivity; [apply rsum_ext; intros a _; rewrite (hann_angle r a j Hm); reflexivity|].
  apply (cos_circle _ (Z.to_nat m) (- j)); [lia|]. rewrite Z2Nat.id by lia. exact Hj.
Qed.
Lemma hann_sum r : (2 <= m)%Z -> rsum (Z.to_nat m) (fun a => hann (m * h) (offset r a)) = IZR m / 2.
Proof.
  intros Hm. unfold hann.
  transitivity (rsum (Z.to_nat m) (fun _ => 1/2) + rsum (Z.to_nat m) (fun a => (-1/2) * cos (2 * PI * IZR (offset r a) / IZR (m * h) * IZR 1))).
  { rewrite <- rsum_plus. apply rsum_ext. intros. rewrite Rmult_1_r. lra. }
  rewrite rsum_scale, cos_offsets by (try lia; intros q Hq; assert (Hc : (m * (- q) = 1)%Z) by lia; apply Z.mul_eq_1 in Hc; lia).
  rewrite rsum_const. rewrite INR_IZR_INZ, Z2Nat.id by lia. lra.
Qed.
Lemma hann_squares r : (3 <= m)%Z -> rsum (Z.to_nat m) (fun a => hann (m * h) (offset r a) * hann (m * h) (offset r a)) = 3 * IZR m / 8.
Proof.
  intros Hm. unfold hann.
  transitivity (rsum (Z.to_nat m) (fun _ => 3/8) + (rsum (Z.to_nat m) (fun a => (-1/2) * cos (2 * PI * IZR (offset r a) / IZR (m * h) * IZR 1)) +
     rsum (Z.to_nat m) (fun a => (1/8) * cos (2 * PI * IZR (offset r a) / IZR (m * h) * IZR 2)))).
  { rewrite <- !rsum_plus. apply rsum_ext. intros. rewrite Rmult_1_r. set (t := 2 * PI * _ / _).
    replace (t * 2) with (2 * t) by lra. rewrite cos_2a_cos. lra. }
  rewrite !rsum_scale. rewrite (cos_offsets r 1), (cos_offsets r 2).
  - rewrite rsum_const. rewrite INR_IZR_INZ, Z2Nat.id by lia. lra.
  - lia.
  - intros q Hq. assert (Hc : (m * (- q) = 2)%Z) by lia. assert (- q = 1 \/ - q <= 0 \/ 2 <= - q)%Z as [E|[E|E]] by lia; nia.
  - lia.
  - intros q Hq. assert (Hc : (m * (- q) = 1)%Z) by lia. apply Z.mul_eq_1 in Hc; lia.
Qed.
End Sums.

Lemma area_half w : (2 <= w)%Z -> area w = 1 / 2.
Proof.
  intros H. unfold area. pose proof (hann_sum 1 w ltac:(lia) 0 H) as Hs. rewrite Z.mul_1_r in Hs.
  assert (E : rsum (Z.to_nat w) (fun i => hann w (Z.of_nat i)) = rsum (Z.to_nat w) (fun a => hann w (0 + (w - 1 - Z.of_nat a) * 1))).
  { assert (Hrev : forall n f, rsum n f = rsum n (fun i => f (n - 1 - i)%nat)).
    { induction n as [|n IH]; intros f; [reflexivity|].
      transitivity (rsum (1 + n) (fun i => f (S n - 1 - i)%nat)); [|reflexivity]. rewrite rsum_add. cbn [rsum].
      rewrite (IH f). replace (S n - 1 - 0)%nat with n by lia. 
      rewrite (rsum_ext n (fun i => f (S n - 1 - (1 + i))%nat) (fun i => f (n - 1 - i)%nat)); [lra|]. intros i Hi. f_equal. lia. }
    rewrite Hrev. apply rsum_ext. intros i Hi. f_equal. lia. }
  rewrite E, Hs. field. apply not_0_IZR. lia.
Qed.
