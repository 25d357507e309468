(** Property C86: the Fourier transforms that come with the library. *)
From Coq Require Import ZArith Reals Lia Lra.
From stdpp Require Import list list_numbers.
From Verif Require Import Fourier.Model Fourier.Spec Fourier.Arrays Fourier.Complex Fourier.Real Fourier.Sizes.
Local Open Scope R_scope.

(** A signal of [n] samples and a half spectrum as lists. *)
Definition samples (n : nat) (x : nat -> R) (l : list R) : Prop := length l = n /\ forall j, (j < n)%nat -> l !! j = Some (x j).
Definition bins (n : nat) (y : nat -> C) (l : list C) : Prop := length l = (n / 2 + 1)%nat /\ forall k, (k <= n / 2)%nat -> l !! k = Some (y k).
(** The memory of a transform object of this size, with anything in it. *)
Definition memoryOk (n : nat) (m : memory) : Prop :=
  length (m_ab m) = (n / 2 + 1)%nat /\ length (m_v m) = (n / 2)%nat /\ length (m_cd m) = (n / 2 + 1)%nat /\ length (m_tmp m) = n.

Lemma samples_arr n x l : samples n x l <-> l = arr n x.
Proof.
  split.
  - intros [L H]. apply list_eq. intros j. destruct (decide (j < n)%nat).
    + rewrite H, arr_lookup by done. done.
    + rewrite !lookup_ge_None_2; rewrite ?arr_length; done || lia.
  - intros ->. split; [apply arr_length|]. intros. by apply arr_lookup.
Qed.
Lemma bins_arr n y l : bins n y l <-> l = arr (n / 2 + 1) y.
Proof.
  split.
  - intros [L H]. apply list_eq. intros j. destruct (decide (j < n / 2 + 1)%nat).
    + rewrite H by lia. rewrite arr_lookup by done. done.
    + rewrite !lookup_ge_None_2; rewrite ?arr_length; done || lia.
  - intros ->. split; [apply arr_length|]. intros. apply arr_lookup. lia.
Qed.

(** Bin k of the transform of any n real samples is their sum turned by -j*k/n, whatever was in
    the memory of the object and of the output; no access is out of bounds. *)
Theorem C86_forward : forall n m o ri x, (0 < n)%nat -> (Z.of_nat n < 2 ^ 32)%Z -> memoryOk n m -> length o = (n / 2 + 1)%nat -> samples n x ri ->
  exists out, fftForward n m o ri = Some out /\ bins n (spectrum n x) out.
Proof.
  intros n m o ri x Hn H32 (A & B & D & E) Lo ->%samples_arr. exists (arr (n / 2 + 1) (spectrum n x)). split; [|by apply bins_arr].
  unfold fftForward. destruct (pick (Z.of_nat n)) eqn:P; [|by apply dftForward_ok].
  apply pick_builtin in P as (p & S & H). rewrite H in *. rewrite S. apply forward_ok; try done.
  destruct (decide (p < 31)%nat) as [|N]; [done|]. exfalso. rewrite S in H32. rewrite Nat2Z.inj_mul, Nat2Z.inj_pow in H32.
  pose proof (Z.pow_le_mono_r 2 31 (Z.of_nat p) ltac:(lia) ltac:(lia)). change (Z.of_nat 2) with 2%Z in H32. lia.
Qed.
Print Assumptions C86_forward.

(** Back: from any n/2+1 bins, each sample is the real part of the sum of the bins and their
    mirror images, turned by +j*k/n (not divided by n). *)
Theorem C86_backward : forall n m ro yl y, (0 < n)%nat -> (Z.of_nat n < 2 ^ 32)%Z -> memoryOk n m -> length ro = n -> bins n y yl ->
  exists out, fftInverse n m ro yl = Some out /\ samples n (signal n y) out.
Proof.
  intros n m ro yl y Hn H32 (A & B & D & E) Lo ->%bins_arr. exists (arr n (signal n y)). split; [|by apply samples_arr].
  unfold fftInverse. destruct (pick (Z.of_nat n)) eqn:P; [|by apply dftInverse_ok].
  apply pick_builtin in P as (p & S & H). rewrite H in *. rewrite S. apply inverse_ok; try done; [|by rewrite <- S].
  destruct (decide (p < 31)%nat) as [|N]; [done|]. exfalso. rewrite S in H32. rewrite Nat2Z.inj_mul, Nat2Z.inj_pow in H32.
  pose proof (Z.pow_le_mono_r 2 31 (Z.of_nat p) ltac:(lia) ltac:(lia)). change (Z.of_nat 2) with 2%Z in H32. lia.
Qed.
Print Assumptions C86_backward.

(** There and back gives n times every sample; the two calls may be at different times, with
    anything in the memory. *)
Theorem C86_round_trip : forall n m m' o ro ri x, (0 < n)%nat -> (Z.of_nat n < 2 ^ 32)%Z -> memoryOk n m -> memoryOk n m' ->
  length o = (n / 2 + 1)%nat -> length ro = n -> samples n x ri ->
  exists spec out, fftForward n m o ri = Some spec /\ fftInverse n m' ro spec = Some out /\ samples n (fun j => INR n * x j) out.
Proof.
  intros n m m' o ro ri x Hn H32 M M' Lo Lr X. destruct (C86_forward n m o ri x Hn H32 M Lo X) as (sp & E & B).
  destruct (C86_backward n m' ro sp _ Hn H32 M' Lr B) as (out & E' & S). exists sp, out. split; [done|]. split; [done|].
  destruct S as [L S]. split; [done|]. intros j Hj. rewrite S by done. by rewrite round_trip.
Qed.
Print Assumptions C86_round_trip.

(** The same by way of magnitudes and phases. *)
Theorem C86_polar_round_trip : forall n m m' o ro ri x, (0 < n)%nat -> (Z.of_nat n < 2 ^ 32)%Z -> memoryOk n m -> memoryOk n m' ->
  length o = (n / 2 + 1)%nat -> length ro = n -> samples n x ri ->
  exists mp out, fftForwardPolar n m o ri = Some mp /\ fftInversePolar n m' ro mp = Some out /\ samples n (fun j => INR n * x j) out /\
    forall k, (k <= n / 2)%nat -> exists mag ph, mp !! k = Some (mag, ph) /\ 0 <= mag /\ (mag * cos ph, mag * sin ph) = spectrum n x k.
Proof.
  intros n m m' o ro ri x Hn H32 M M' Lo Lr X.
  assert (exists mp, fftForwardPolar n m o ri = Some mp /\ mp = map toPolar (arr (n / 2 + 1) (spectrum n x))) as (mp & E & ->).
  { destruct M as (A & B & D & F). apply samples_arr in X as ->. eexists. split; [|reflexivity]. unfold fftForwardPolar, forwardPolar, dftForwardPolar.
    destruct (pick (Z.of_nat n)) eqn:P; [|by rewrite dftForward_ok].
    apply pick_builtin in P as (p & S & H). rewrite H in *. rewrite S. rewrite (forward_ok p (m_ab m) (m_v m) (m_cd m) _ x); try done.
    destruct (decide (p < 31)%nat) as [|N]; [done|]. exfalso. rewrite S in H32. rewrite Nat2Z.inj_mul, Nat2Z.inj_pow in H32.
    pose proof (Z.pow_le_mono_r 2 31 (Z.of_nat p) ltac:(lia) ltac:(lia)). change (Z.of_nat 2) with 2%Z in H32. lia. }
  destruct (C86_backward n m' ro (arr (n / 2 + 1) (spectrum n x)) (spectrum n x) Hn H32 M' Lr ltac:(by apply bins_arr)) as (out & E' & L & S).
  exists (map toPolar (arr (n / 2 + 1) (spectrum n x))), out. split; [done|]. split; [|split].
  - rewrite <- E'. unfold fftInversePolar, fftInverse, inversePolar, dftInversePolar. by rewrite polar_arr.
  - split; [done|]. intros j Hj. rewrite S by done. by rewrite round_trip.
  - intros k Hk. exists (fst (toPolar (spectrum n x k))), (snd (toPolar (spectrum n x k))). split; [|split].
    + rewrite list_lookup_fmap, arr_lookup by lia. cbn [fmap option_fmap option_map]. by rewrite <- surjective_pairing.
    + unfold toPolar. cbn [fst]. apply sqrt_pos.
    + rewrite <- (toCartesian_toPolar (spectrum n x k)) at 5. unfold toCartesian. f_equal; ring.
Qed.
Print Assumptions C86_polar_round_trip.

(** The fast transform is the plain one: at every power of two, size 2 included, they give the
    same bins and the same samples. *)
Theorem C86_alike : forall p ab v cd tmp o o' ro ro' ri yl, (p < 31)%nat -> let h := (2 ^ p)%nat in
  length ab = (h + 1)%nat -> length v = h -> length cd = (h + 1)%nat -> length tmp = (2 * h)%nat -> length o = (h + 1)%nat -> length o' = (h + 1)%nat ->
  length ro = (2 * h)%nat -> length ro' = (2 * h)%nat -> length ri = (2 * h)%nat -> length yl = (h + 1)%nat ->
  (exists out, transformF h ab v o ri = Some out /\ dftForward (2 * h) ri o' = Some out) /\
  (exists out, transformI h v cd ro yl = Some out /\ dftInverse (2 * h) tmp yl ro' = Some out).
Proof.
  intros p ab v cd tmp o o' ro ro' ri yl Hp h A1 A2 A3 A4 A5 A6 A7 A8 A9 A10.
  assert (2 * h / 2 = h)%nat as H by (rewrite Nat.mul_comm, Nat.div_mul; lia). assert (0 < h)%nat as Hh by apply pow2_pos.
  rewrite (arr_of 0 ri _ A9). rewrite (@arr_of C (0, 0) yl _ A10). split; eexists; (split; [by apply (forward_ok p) || by apply (inverse_ok p)|]).
  - pose proof (dftForward_ok (2 * h)) as F. rewrite H in F. by apply F.
  - pose proof (dftInverse_ok (2 * h)) as F. rewrite H in F. apply F; lia || done.
Qed.
Print Assumptions C86_alike.

(** Which one is chosen for the sizes the engines use, and for others. *)
Example C86_picks : pick 2048 = Builtin /\ pick 4096 = Builtin /\ pick 4 = Builtin /\ pick 2 = Plain /\ pick 1920 = Plain /\ pick 7 = Plain.
Proof. by vm_compute. Qed.

Lemma cis_quarter m : cis (- (INR (S m) * (PI / 2))) = cmul (cis (- (INR m * (PI / 2)))) (0, -1).
Proof.
  rewrite S_INR. replace (- ((INR m + 1) * (PI / 2))) with (- (INR m * (PI / 2)) + - (PI / 2)) by field. rewrite cis_add. f_equal.
  rewrite cis_neg. unfold cis, conj. cbn [fst snd]. by rewrite cos_PI2, sin_PI2.
Qed.
(** Four samples 1 2 3 4 have the bins 10, -2+2i, -2. *)
Example C86_example : forall m o, memoryOk 4 m -> length o = 3%nat ->
  fftForward 4 m o [1; 2; 3; 4] = Some [(10, 0); (-2, 2); (-2, 0)].
Proof.
  intros m o M Lo. destruct (C86_forward 4 m o [1; 2; 3; 4] (fun j => INR (j + 1)) ltac:(lia) ltac:(done) M Lo) as (out & E & L & B).
  { split; [done|]. intros j Hj. do 4 (destruct j as [|j]; [cbn; f_equal; ring|]). lia. }
  rewrite E. f_equal. cbn in L.
  assert (forall j k, - turn 4 j k = - (INR (j * k) * (PI / 2))) as T by (intros; unfold turn; rewrite mult_INR; cbn; field).
  assert (cis (- (INR 0 * (PI / 2))) = (1, 0)) as Z by (cbn [INR]; rewrite Rmult_0_l, Ropp_0; apply cis_0).
  destruct out as [|a [|b [|c [|]]]]; try done.
  pose proof (B 0%nat ltac:(cbn; lia)) as B0. pose proof (B 1%nat ltac:(cbn; lia)) as B1. pose proof (B 2%nat ltac:(cbn; lia)) as B2.
  cbn [lookup list_lookup] in B0, B1, B2. injection B0 as ->. injection B1 as ->. injection B2 as ->.
  unfold spectrum. cbn [csum]. rewrite !T. cbn [Nat.mul Nat.add]. rewrite !cis_quarter, !Z.
  unfold cadd, cmul. cbn [fst snd]. cbn [INR]. f_equal; [f_equal; ring|]. f_equal; [f_equal; ring|]. f_equal; f_equal; ring.
Qed.
