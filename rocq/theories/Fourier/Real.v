(** The real transforms, forward and backward, and the round trip. *)
From Coq Require Import ZArith Reals Lia Lra.
From stdpp Require Import list list_numbers.
From Verif Require Import Faster.Hann Fourier.Model Fourier.Spec Fourier.Arrays Fourier.Complex.
Local Open Scope R_scope.

Definition ci : C := (0, 1).

Lemma pairs_at {A} (f g : nat -> A) : forall n a i, (i < n)%nat ->
  mjoin ((fun i => [f i; g i]) <$> seq a n) !! (2 * i)%nat = Some (f (a + i)%nat) /\
  mjoin ((fun i => [f i; g i]) <$> seq a n) !! (2 * i + 1)%nat = Some (g (a + i)%nat).
Proof.
  induction n as [|n IH]; intros a i H; [lia|]. cbn [seq fmap list_fmap mjoin list_join app].
  destruct i as [|i]; [cbn; by rewrite Nat.add_0_r|].
  replace (2 * S i)%nat with (S (S (2 * i))) by lia. replace (S (S (2 * i)) + 1)%nat with (S (S (2 * i + 1))) by lia.
  cbn [lookup list_lookup]. specialize (IH (S a) i ltac:(lia)).
  replace (a + S i)%nat with (S a + i)%nat by lia. exact IH.
Qed.

Lemma sincosR_at h i : (i < h / 2)%nat ->
  sincosR h !! (2 * i)%nat = Some (cos (PI * INR (i + 1) / INR h)) /\
  sincosR h !! (2 * i + 1)%nat = Some (- sin (PI * INR (i + 1) / INR h)).
Proof.
  intros H. unfold sincosR.
  pose proof (pairs_at (fun i : nat => sin (PI * (INR (i + 1) / INR h + 1 / 2))) (fun i : nat => cos (PI * (INR (i + 1) / INR h + 1 / 2))) (h / 2) 0 i H) as [A B].
  cbv zeta. rewrite A, B. cbn [Nat.add].
  replace (PI * (INR (i + 1) / INR h + 1 / 2)) with (PI / 2 + PI * INR (i + 1) / INR h).
  - split; f_equal; [symmetry; apply cos_sin|]. rewrite sin_cos. ring.
  - unfold Rdiv. ring.
Qed.

Lemma turn_comm n j k : turn n j k = turn n k j.
Proof. unfold turn. by rewrite (Rmult_comm (INR j)). Qed.
Lemma turn_mirror n u k : (0 < n)%nat -> (k <= n)%nat -> cis (turn n u (n - k)) = cis (- turn n u k).
Proof.
  intros Hn Hk. replace (turn n u (n - k)) with (2 * PI * INR u + - turn n u k).
  - rewrite cis_add, cis_2PI. rewrite cmul_comm. apply cmul_1_r.
  - unfold turn. rewrite minus_INR by done. field. apply not_0_INR. lia.
Qed.

Section Half.
Context (h : nat) (Hh : (0 < h)%nat).
Let Hh0 : INR h <> 0. Proof. apply not_0_INR. lia. Qed.

Lemma turn_even u k : turn (2 * h) (2 * u) k = turn h u k.
Proof using Hh. unfold turn. rewrite !mult_INR. cbn [INR]. field. exact Hh0. Qed.
Lemma turn_odd u k : turn (2 * h) (2 * u + 1) k = turn h u k + PI * INR k / INR h.
Proof using Hh. unfold turn. rewrite plus_INR, !mult_INR. cbn [INR]. field. exact Hh0. Qed.
Lemma half_mirror k : (k <= h)%nat -> cis (PI * INR (h - k) / INR h) = cmul (-1, 0) (cis (- (PI * INR k / INR h))).
Proof using Hh.
  intros Hk. rewrite <- cis_PI, <- cis_add. f_equal. rewrite minus_INR by done. field. exact Hh0.
Qed.

Section Forward.
Context (x : nat -> R).
Definition evens (k : nat) : C := csum h (fun u => cmul (x (2 * u)%nat, 0) (cis (- turn h u k))).
Definition odds (k : nat) : C := csum h (fun u => cmul (x (2 * u + 1)%nat, 0) (cis (- turn h u k))).
Definition packed (j : nat) : C := (x (2 * j)%nat, x (2 * j + 1)%nat).

Lemma spectrum_split k : spectrum (2 * h) x k = cadd (evens k) (cmul (cis (- (PI * INR k / INR h))) (odds k)).
Proof using Hh.
  unfold spectrum. rewrite csum_split. f_equal.
  - unfold evens. apply csum_ext. intros. by rewrite turn_even.
  - unfold odds. rewrite <- csum_mul_l. apply csum_ext. intros. rewrite turn_odd, Ropp_plus_distr, cis_add.
    rewrite (cmul_comm (cis (- turn h i k))). rewrite !cmul_assoc. f_equal. apply cmul_comm.
Qed.
Lemma packed_split k : dft (-1) h packed k = cadd (evens k) (cmul ci (odds k)).
Proof.
  unfold dft, evens, odds. rewrite <- csum_mul_l, <- csum_add. apply csum_ext. intros u _.
  replace (-1 * turn h u k) with (- turn h u k) by ring. unfold packed, ci. generalize (cis (- turn h u k)). intros []. cring.
Qed.
Lemma evens_mirror k : (k <= h)%nat -> evens (h - k) = conj (evens k).
Proof using Hh.
  intros Hk. unfold evens. rewrite csum_conj. apply csum_ext. intros u _. rewrite conj_mul.
  rewrite (cis_neg (turn h u (h - k))), turn_mirror by done. unfold conj at 2. cbn [fst snd]. by rewrite Ropp_0.
Qed.
Lemma odds_mirror k : (k <= h)%nat -> odds (h - k) = conj (odds k).
Proof using Hh.
  intros Hk. unfold odds. rewrite csum_conj. apply csum_ext. intros u _. rewrite conj_mul.
  rewrite (cis_neg (turn h u (h - k))), turn_mirror by done. unfold conj at 2. cbn [fst snd]. by rewrite Ropp_0.
Qed.
Lemma real_sum n f : (forall i, (i < n)%nat -> snd (f i) = 0) -> snd (csum n f) = 0.
Proof.
  induction n as [|n IH]; intros H; [done|]. cbn [csum]. unfold cadd. cbn [snd].
  rewrite IH by (intros; apply H; lia). rewrite H by lia. ring.
Qed.
Lemma evens_0 : snd (evens 0) = 0.
Proof. apply real_sum. intros i _. unfold turn. cbn [INR]. rewrite Rmult_0_r. unfold Rdiv. rewrite Rmult_0_r, Rmult_0_l, Ropp_0, cis_0. cbn. ring. Qed.
Lemma odds_0 : snd (odds 0) = 0.
Proof. apply real_sum. intros i _. unfold turn. cbn [INR]. rewrite Rmult_0_r. unfold Rdiv. rewrite Rmult_0_r, Rmult_0_l, Ropp_0, cis_0. cbn. ring. Qed.

Lemma spectrum_0 : spectrum (2 * h) x 0 = (fst (dft (-1) h packed 0) + snd (dft (-1) h packed 0), 0).
Proof using Hh.
  rewrite spectrum_split, packed_split. cbn [INR]. replace (- (PI * 0 / INR h)) with 0 by (field; exact Hh0). rewrite cis_0.
  pose proof evens_0. pose proof odds_0. destruct (evens 0), (odds 0). cbn [snd] in *. subst. unfold ci. cring.
Qed.
Lemma spectrum_h : spectrum (2 * h) x h = (fst (dft (-1) h packed 0) - snd (dft (-1) h packed 0), 0).
Proof using Hh.
  rewrite spectrum_split, packed_split. replace (- (PI * INR h / INR h)) with (- PI) by (field; exact Hh0).
  rewrite cis_neg, cis_PI. replace (evens h) with (evens (h - 0)) by (by rewrite Nat.sub_0_r). replace (odds h) with (odds (h - 0)) by (by rewrite Nat.sub_0_r).
  rewrite evens_mirror, odds_mirror by lia.
  pose proof evens_0. pose proof odds_0. destruct (evens 0), (odds 0). cbn [snd] in *. subst. unfold ci. cring.
Qed.
Lemma spectrum_mirror k : (k <= h)%nat -> spectrum (2 * h) x (h - k) = conj (csub (evens k) (cmul (cis (- (PI * INR k / INR h))) (odds k))).
Proof using Hh.
  intros Hk. rewrite spectrum_split, evens_mirror, odds_mirror by done. rewrite cis_neg, half_mirror by done.
  generalize (evens k), (odds k), (cis (- (PI * INR k / INR h))). intros [] [] []. cring.
Qed.

(** What one step of the loop after the complex transform writes. *)
Lemma post_values k : (k <= h)%nat ->
  let p := dft (-1) h packed k in let q := dft (-1) h packed (h - k) in
  let s := - cos (PI * INR k / INR h) in let c := - sin (PI * INR k / INR h) in
  let r0 := fst p in let i0 := snd p in let r1 := fst q in let i1 := - snd q in
  let tw_r := (r0 - r1) * c - (i0 - i1) * s in
  let tw_i := (r0 - r1) * s + (i0 - i1) * c in
  ((r0 + r1 + tw_r) * (1 / 2), (i0 + i1 + tw_i) * (1 / 2)) = spectrum (2 * h) x k /\
  ((r0 + r1 - tw_r) * (1 / 2), (tw_i - i0 - i1) * (1 / 2)) = spectrum (2 * h) x (h - k).
Proof using Hh.
  intros Hk. cbv zeta. rewrite spectrum_mirror by done. rewrite spectrum_split, !packed_split.
  rewrite evens_mirror, odds_mirror by done. rewrite cis_neg. unfold cis.
  generalize (evens k), (odds k), (cos (PI * INR k / INR h)), (sin (PI * INR k / INR h)). intros [] [] c s.
  unfold ci, cadd, csub, cmul, conj. cbn [fst snd]. split; f_equal; field.
Qed.
End Forward.

Section Backward.
Context (y : nat -> C).
(** The first and the last bin count with their real parts only. *)
Definition clean (k : nat) : C := if decide (k = 0 \/ k = h)%nat then (fst (y k), 0) else y k.
Definition sums (k : nat) : C := cadd (clean k) (conj (clean (h - k)%nat)).
Definition diffs (k : nat) : C := cmul (cis (PI * INR k / INR h)) (csub (clean k) (conj (clean (h - k)%nat))).

Lemma pre_values k : (0 < k < h)%nat ->
  let p := y k in let q := y (h - k)%nat in
  let s := cos (PI * INR k / INR h) in let c := - sin (PI * INR k / INR h) in
  let r0 := fst p in let r1 := fst q in let i0 := snd p in let i1 := - snd q in
  let tw_r := (r0 - r1) * c - (i0 - i1) * s in
  let tw_i := (r0 - r1) * s + (i0 - i1) * c in
  (r0 + r1 + tw_r, i0 + i1 + tw_i) = cadd (sums k) (cmul ci (diffs k)) /\
  (r0 + r1 - tw_r, tw_i - i0 - i1) = cadd (sums (h - k)) (cmul ci (diffs (h - k))).
Proof using Hh.
  intros Hk. cbv zeta. unfold sums, diffs. replace (h - (h - k))%nat with k by lia.
  rewrite half_mirror by lia. unfold clean. rewrite !decide_False by lia. rewrite cis_neg. unfold cis.
  generalize (y k), (y (h - k)%nat), (cos (PI * INR k / INR h)), (sin (PI * INR k / INR h)). intros [] [] c s.
  unfold ci, cadd, csub, cmul, conj. cbn [fst snd]. split; f_equal; field.
Qed.
Lemma pre_0 : (fst (y 0%nat) + fst (y h), fst (y 0%nat) - fst (y h)) = cadd (sums 0) (cmul ci (diffs 0)).
Proof using Hh.
  unfold sums, diffs, clean. rewrite Nat.sub_0_r. rewrite !decide_True by lia.
  replace (PI * INR 0 / INR h) with 0 by (cbn [INR]; field; exact Hh0). rewrite cis_0. unfold ci. cring.
Qed.

Lemma hermitian_real f j : snd (f 0%nat) = 0 -> (forall k, (0 < k < h)%nat -> f (h - k)%nat = conj (f k)) ->
  snd (csum h (fun k => cmul (f k) (cis (turn h j k)))) = 0.
Proof using Hh.
  intros F0 F. set (S0 := csum h _).
  assert (conj S0 = S0) as E.
  { unfold S0. rewrite csum_conj. destruct h as [|h'] eqn:Eh; [lia|]. rewrite !csum_head. f_equal.
    - unfold turn. cbn [INR]. rewrite Rmult_0_r. unfold Rdiv. rewrite Rmult_0_r, Rmult_0_l, cis_0, cmul_1_r. destruct (f 0%nat). cbn [snd] in F0. subst. cring.
    - rewrite csum_rev. apply csum_ext. intros i Hi. rewrite conj_mul.
      replace (S (h' - 1 - i)) with (S h' - S i)%nat by lia. rewrite F by lia. rewrite conj_conj. f_equal.
      rewrite turn_mirror by lia. rewrite cis_neg. apply conj_conj. }
  apply (f_equal snd) in E. cbn [conj snd] in E. Lra.lra.
Qed.

Lemma sums_real j : snd (csum h (fun k => cmul (sums k) (cis (turn h j k)))) = 0.
Proof using Hh.
  apply hermitian_real.
  - unfold sums, clean. rewrite Nat.sub_0_r, !decide_True by lia. cbn. ring.
  - intros k Hk. unfold sums. replace (h - (h - k))%nat with k by lia. rewrite conj_add, conj_conj. apply cadd_comm.
Qed.
Lemma diffs_real j : snd (csum h (fun k => cmul (diffs k) (cis (turn h j k)))) = 0.
Proof using Hh.
  apply hermitian_real.
  - unfold diffs, clean. rewrite Nat.sub_0_r, !decide_True by lia. replace (PI * INR 0 / INR h) with 0 by (cbn [INR]; field; exact Hh0).
    rewrite cis_0. cbn. ring.
  - intros k Hk. unfold diffs. replace (h - (h - k))%nat with k by lia. rewrite half_mirror by lia. rewrite cis_neg, conj_mul.
    generalize (clean k), (clean (h - k)), (cis (PI * INR k / INR h)). intros [] [] []. cring.
Qed.

(** The sums that make the signal, folded in half. *)
Lemma fst_csum n f g : (forall i, (i < n)%nat -> fst (f i) = fst (g i)) -> fst (csum n f) = fst (csum n g).
Proof.
  induction n as [|n IH]; intros H; [done|]. cbn [csum]. unfold cadd. cbn [fst].
  rewrite IH by (intros; apply H; lia). by rewrite H by lia.
Qed.
Lemma whole_low k : (k < h)%nat -> whole (2 * h) y k = y k.
Proof using Hh. intros Hk. unfold whole. rewrite decide_True; [done|]. rewrite Nat.mul_comm, Nat.div_mul; lia. Qed.
Lemma whole_high k : (k < h)%nat -> whole (2 * h) y (h + k) = if decide (k = 0)%nat then y h else conj (y (h - k)%nat).
Proof using Hh.
  intros Hk. unfold whole. replace (2 * h / 2)%nat with h by (rewrite Nat.mul_comm, Nat.div_mul; lia).
  destruct (decide (k = 0)%nat) as [->|N]; [rewrite decide_True by lia; by rewrite Nat.add_0_r|].
  rewrite decide_False by lia. do 2 f_equal. lia.
Qed.
Lemma cis_real_int (t : nat) : snd (cis (PI * INR t)) = 0.
Proof. unfold cis. cbn [snd]. apply sin_eq_0_1. exists (Z.of_nat t). rewrite <- INR_IZR_INZ. ring. Qed.

Lemma signal_even j : signal (2 * h) y (2 * j) = fst (csum h (fun k => cmul (sums k) (cis (turn h j k)))).
Proof using Hh.
  unfold signal. replace (2 * h)%nat with (h + h)%nat at 1 by lia. rewrite csum_app, <- csum_add. apply fst_csum. intros k Hk.
  rewrite whole_low, whole_high by done. rewrite !turn_even.
  replace (turn h j (h + k)) with (turn h j k + 2 * PI * INR j).
  2:{ unfold turn. rewrite plus_INR. field. exact Hh0. }
  rewrite cis_add, cis_2PI, cmul_1_r. unfold sums, clean.
  destruct (decide (k = 0)%nat) as [->|N].
  - rewrite Nat.sub_0_r, !decide_True by lia. replace (turn h j 0) with 0 by (unfold turn; cbn [INR]; field; exact Hh0).
    rewrite cis_0. destruct (y 0%nat), (y h). cbn. ring.
  - rewrite !decide_False by lia. generalize (y k), (y (h - k)%nat), (cis (turn h j k)). intros [] [] []. cbn. ring.
Qed.
Lemma signal_odd j : signal (2 * h) y (2 * j + 1) = fst (csum h (fun k => cmul (diffs k) (cis (turn h j k)))).
Proof using Hh.
  unfold signal. replace (2 * h)%nat with (h + h)%nat at 1 by lia. rewrite csum_app, <- csum_add. apply fst_csum. intros k Hk.
  rewrite whole_low, whole_high by done. rewrite !turn_odd.
  replace (turn h j (h + k) + PI * INR (h + k) / INR h) with ((turn h j k + PI * INR k / INR h) + (2 * PI * INR j + PI)).
  2:{ unfold turn. rewrite plus_INR. field. exact Hh0. }
  rewrite !cis_add, cis_2PI, cis_PI. unfold diffs, clean.
  destruct (decide (k = 0)%nat) as [->|N].
  - rewrite Nat.sub_0_r, !decide_True by lia. replace (turn h j 0) with 0 by (unfold turn; cbn [INR]; field; exact Hh0).
    replace (PI * INR 0 / INR h) with 0 by (cbn [INR]; field; exact Hh0).
    rewrite cis_0. destruct (y 0%nat), (y h). cbn. ring.
  - rewrite !decide_False by lia. generalize (y k), (y (h - k)%nat), (cis (turn h j k)), (cis (PI * INR k / INR h)). intros [] [] [] []. cbn. ring.
Qed.
Lemma backward_pair j : dft 1 h (fun k => cadd (sums k) (cmul ci (diffs k))) j = (signal (2 * h) y (2 * j), signal (2 * h) y (2 * j + 1)).
Proof using Hh.
  rewrite signal_even, signal_odd. pose proof (sums_real j) as A. pose proof (diffs_real j) as B. unfold dft.
  replace (csum h (fun k => cmul (cadd (sums k) (cmul ci (diffs k))) (cis (1 * turn h k j)))) with
    (cadd (csum h (fun k => cmul (sums k) (cis (turn h j k)))) (cmul ci (csum h (fun k => cmul (diffs k) (cis (turn h j k)))))).
  - destruct (csum h (fun k => cmul (sums k) _)), (csum h (fun k => cmul (diffs k) _)). cbn [snd fst] in *. subst. unfold ci. cring.
  - rewrite <- csum_mul_l, <- csum_add. apply csum_ext. intros k _. rewrite Rmult_1_l, (turn_comm h k j).
    generalize (sums k), (diffs k), (cis (turn h j k)). intros [] [] []. unfold ci. cring.
Qed.
End Backward.
End Half.

(** ** The built-in transform *)
Theorem forward_ok p ab v o ri x : (p < 31)%nat -> let h := (2 ^ p)%nat in
  length ab = (h + 1)%nat -> length v = h -> length o = (h + 1)%nat -> ri = arr (2 * h) x ->
  transformF h ab v o ri = Some (arr (h + 1) (spectrum (2 * h) x)).
Proof.
  intros Hp h Lab Lv Lo ->. assert (0 < h)%nat as Hh by apply pow2_pos. unfold transformF.
  assert (pack h (arr (2 * h) x) (take h ab) = Some (arr h (packed x))) as ->.
  { rewrite (@arr_of C (0, 0) (take h ab) h) by (rewrite take_length; apply Nat.min_l; lia). set (f0 := fun i => default _ _). clearbody f0.
    unfold pack. destruct (loop_inv (fun i l => exists g, l = arr h g /\ forall j, (j < i)%nat -> g j = packed x j)
      (fun i ab => a ← arr (2 * h) x !! (i * 2)%nat; b ← arr (2 * h) x !! (i * 2 + 1)%nat; put ab i (a, b)) h 0 (arr h f0)) as (l & E & g & -> & G).
    - exists f0. split; [done|]. intros; lia.
    - intros i l Hi (g & -> & G). rewrite !arr_lookup by lia. do 2 (change (Some ?a ≫= ?g) with (g a); cbv beta).
      rewrite put_arr by lia. eexists. split; [done|]. eexists. split; [done|]. intros j Hj.
      destruct (decide (j = i)) as [->|N]; [rewrite upd_eq; unfold packed; do 2 f_equal; lia|]. rewrite upd_ne by done. apply G. lia.
    - refine (eq_trans E _). f_equal. apply arr_ext. intros i Hi. apply G. lia. }
  change (Some ?a ≫= ?g) with (g a); cbv beta.
  rewrite (@arr_of C (0, 0) v h Lv). set (v0 := fun i => default _ (v !! i)). clearbody v0. destruct (complex_ok p false (packed x) v0 Hp) as (z & Ez & Z).
  fold h in Ez, Z. rewrite Ez. change (Some ?a ≫= ?g) with (g a); cbv beta.
  rewrite arr_lookup by lia. change (Some ?a ≫= ?g) with (g a); cbv beta.
  rewrite (@arr_of C (0, 0) o (h + 1) Lo). set (f0 := fun i => default _ (o !! i)). clearbody f0.
  rewrite put_arr by lia. change (Some ?a ≫= ?g) with (g a); cbv beta.
  rewrite put_arr by lia. change (Some ?a ≫= ?g) with (g a); cbv beta.
  cbn [sg] in Z.
  destruct (loop_inv (fun i l => exists g, l = arr (h + 1) g /\ forall k, (k <= i \/ h - i <= k <= h)%nat -> g k = spectrum (2 * h) x k)
    (postStep h (arr h z)) (h / 2) 0 (arr (h + 1) (upd (upd f0 0 (fst (z 0%nat) + snd (z 0%nat), 0)) h (fst (z 0%nat) - snd (z 0%nat), 0)))) as (l & E & g & -> & G).
  - eexists. split; [reflexivity|]. intros k Hk. assert (k = 0 \/ k = h)%nat as [->| ->] by lia.
    + rewrite upd_ne by lia. rewrite upd_eq, spectrum_0, Z by lia. done.
    + rewrite upd_eq, spectrum_h, Z by lia. done.
  - intros i l Hi (g & -> & G). unfold postStep. destruct (sincosR_at h i ltac:(lia)) as [-> ->].
    pose proof (Nat.mul_div_le h 2 ltac:(lia)).
    do 2 (change (Some ?a ≫= ?g) with (g a); cbv beta).
    rewrite !arr_lookup by lia. do 2 (change (Some ?a ≫= ?g) with (g a); cbv beta). cbv zeta.
    rewrite put_arr by lia. change (Some ?a ≫= ?g) with (g a); cbv beta. rewrite put_arr by lia.
    eexists. split; [reflexivity|]. eexists. split; [reflexivity|]. rewrite !Z by lia.
    destruct (post_values h Hh x (i + 1) ltac:(lia)) as [P Q]. cbv zeta in P, Q. rewrite P, Q.
    intros k Hk. destruct (decide (k = h - (i + 1))%nat) as [->|N1]; [by rewrite upd_eq|]. rewrite upd_ne by done.
    destruct (decide (k = i + 1)%nat) as [->|N2]; [by rewrite upd_eq|]. rewrite upd_ne by done. apply G. lia.
  - refine (eq_trans E _). f_equal. apply arr_ext. intros k Hk. apply G. pose proof (Nat.div_mod h 2 ltac:(lia)). pose proof (Nat.mod_upper_bound h 2 ltac:(lia)). cbn [Nat.add]. lia.
Qed.

Theorem inverse_ok p v cd ro yl y : (p < 31)%nat -> let h := (2 ^ p)%nat in
  length v = h -> length cd = (h + 1)%nat -> length ro = (2 * h)%nat -> yl = arr (h + 1) y ->
  transformI h v cd ro yl = Some (arr (2 * h) (signal (2 * h) y)).
Proof.
  intros Hp h Lv Lcd Lro ->. assert (0 < h)%nat as Hh by apply pow2_pos. unfold transformI.
  rewrite !arr_lookup by lia. do 2 (change (Some ?a ≫= ?g) with (g a); cbv beta).
  rewrite (@arr_of C (0, 0) v h Lv). set (f0 := fun i => default _ (v !! i)). clearbody f0.
  rewrite put_arr by lia. change (Some ?a ≫= ?g) with (g a); cbv beta.
  set (V := fun k => cadd (sums h y k) (cmul ci (diffs h y k))).
  assert (loop (h / 2) 0 (preStep h (arr (h + 1) y)) (arr h (upd f0 0 (fst (y 0%nat) + fst (y h), fst (y 0%nat) - fst (y h)))) = Some (arr h V)) as ->.
  { destruct (loop_inv (fun i l => exists g, l = arr h g /\ forall k, (k < h)%nat -> (k <= i \/ h - i <= k)%nat -> g k = V k)
      (preStep h (arr (h + 1) y)) (h / 2) 0 (arr h (upd f0 0 (fst (y 0%nat) + fst (y h), fst (y 0%nat) - fst (y h))))) as (l & E & g & -> & G).
    - eexists. split; [reflexivity|]. intros k Hk1 Hk. assert (k = 0)%nat as -> by lia. rewrite upd_eq. apply pre_0. done.
    - intros i l Hi (g & -> & G). unfold preStep. destruct (sincosR_at h i ltac:(lia)) as [-> ->].
      pose proof (Nat.mul_div_le h 2 ltac:(lia)).
      do 2 (change (Some ?a ≫= ?g) with (g a); cbv beta).
      rewrite !arr_lookup by lia. do 2 (change (Some ?a ≫= ?g) with (g a); cbv beta). cbv zeta.
      rewrite put_arr by lia. change (Some ?a ≫= ?g) with (g a); cbv beta. rewrite put_arr by lia.
      eexists. split; [reflexivity|]. eexists. split; [reflexivity|].
      destruct (pre_values h Hh y (i + 1) ltac:(lia)) as [P Q]. cbv zeta in P, Q. rewrite P, Q.
      intros k Hk1 Hk. destruct (decide (k = h - (i + 1))%nat) as [->|N1]; [by rewrite upd_eq|]. rewrite upd_ne by done.
      destruct (decide (k = i + 1)%nat) as [->|N2]; [by rewrite upd_eq|]. rewrite upd_ne by done. apply G; lia.
    - refine (eq_trans E _). f_equal. apply arr_ext. intros k Hk. apply G; [done|]. pose proof (Nat.div_mod h 2 ltac:(lia)). pose proof (Nat.mod_upper_bound h 2 ltac:(lia)). cbn [Nat.add]. lia. }
  change (Some ?a ≫= ?g) with (g a); cbv beta.
  rewrite (@arr_of C (0, 0) (take h cd) h) by (rewrite take_length; apply Nat.min_l; lia).
  set (c0 := fun i => default _ (take h cd !! i)). clearbody c0.
  destruct (complex_ok p true V c0 Hp) as (z & Ez & Z).
  fold h in Ez, Z. rewrite Ez. change (Some ?a ≫= ?g) with (g a); cbv beta. cbn [sg] in Z.
  assert (forall j, (j < h)%nat -> z j = (signal (2 * h) y (2 * j), signal (2 * h) y (2 * j + 1))) as Z'.
  { intros j Hj. rewrite Z by done. by apply backward_pair. }
  clear Z. rewrite (arr_of 0 ro (2 * h) Lro). set (r0 := fun i => default _ (ro !! i)). clearbody r0. unfold unpack.
  destruct (loop_inv (fun i l => exists g, l = arr (2 * h) g /\ forall t, (t < 2 * i)%nat -> g t = signal (2 * h) y t)
    (fun i ro => z ← arr h z !! i; ro ← put ro (i * 2)%nat (fst z); put ro (i * 2 + 1)%nat (snd z)) h 0 (arr (2 * h) r0)) as (l & E & g & -> & G).
  - exists r0. split; [done|]. intros; lia.
  - intros i l Hi (g & -> & G). rewrite arr_lookup by lia. change (Some ?a ≫= ?g) with (g a); cbv beta.
    rewrite put_arr by lia. change (Some ?a ≫= ?g) with (g a); cbv beta. rewrite put_arr by lia.
    eexists. split; [reflexivity|]. eexists. split; [reflexivity|]. intros t Ht. rewrite Z' by lia. cbn [fst snd].
    destruct (decide (t = i * 2 + 1)%nat) as [->|N1]; [rewrite upd_eq; f_equal; lia|]. rewrite upd_ne by done.
    destruct (decide (t = i * 2)%nat) as [->|N2]; [rewrite upd_eq; f_equal; lia|]. rewrite upd_ne by done. apply G. lia.
  - refine (eq_trans E _). f_equal. apply arr_ext. intros t Ht. apply G. lia.
Qed.

(** ** The plain transform *)
Lemma accumulate_ok : forall n a f g acc, (forall j, (a <= j < a + n)%nat -> f j = Some (g j)) ->
  accumulate n a f acc = Some (acc + rsum n (fun j => g (a + j)%nat)).
Proof.
  induction n as [|n IH]; intros a f g acc H; cbn [accumulate]; [cbn [rsum]; f_equal; ring|].
  rewrite H by lia. change (Some ?a ≫= ?g) with (g a); cbv beta.
  rewrite (IH (S a) f g) by (intros; apply H; lia). f_equal.
  change (S n) with (1 + n)%nat. rewrite (rsum_add 1 n (fun j => g (a + j)%nat)). cbn [rsum]. rewrite Nat.add_0_r.
  rewrite (rsum_ext n (fun j => g (a + (1 + j))%nat) (fun j => g (S a + j)%nat)) by (intros; f_equal; lia). ring.
Qed.
Lemma csum_rsum n f : csum n f = (rsum n (fun i => fst (f i)), rsum n (fun i => snd (f i))).
Proof. induction n as [|n IH]; [done|]. cbn [csum rsum]. by rewrite IH. Qed.
Lemma arg_turn n i j : arg n i j = turn n i j.
Proof. unfold arg, turn, Rdiv. ring. Qed.

Theorem dftForward_ok n x o : length o = (n / 2 + 1)%nat ->
  dftForward n (arr n x) o = Some (arr (n / 2 + 1) (spectrum n x)).
Proof.
  intros Lo. rewrite (@arr_of C (0, 0) o _ Lo). set (f0 := fun i => default _ _). clearbody f0. unfold dftForward.
  set (step := fun i o => _).
  destruct (loop_inv (fun i l => exists g, l = arr (n / 2 + 1) g /\ forall k, (k < i)%nat -> g k = spectrum n x k)
    step (n / 2 + 1) 0 (arr (n / 2 + 1) f0)) as (l & E & g & -> & G).
  - exists f0. split; [done|]. intros; lia.
  - intros i l Hi (g & -> & G). unfold step.
    rewrite (accumulate_ok n 0 (fun j => x ← arr n x !! j; Some (x * cos (arg n i j))) (fun j => x j * cos (arg n i j))) by (intros j Hj; cbv beta; rewrite arr_lookup by lia; reflexivity).
    change (Some ?a ≫= ?g) with (g a); cbv beta.
    rewrite (accumulate_ok n 0 (fun j => x ← arr n x !! j; Some (- (x * sin (arg n i j)))) (fun j => - (x j * sin (arg n i j)))) by (intros j Hj; cbv beta; rewrite arr_lookup by lia; reflexivity).
    change (Some ?a ≫= ?g) with (g a); cbv beta. rewrite put_arr by lia.
    eexists. split; [reflexivity|]. eexists. split; [reflexivity|]. intros k Hk.
    destruct (decide (k = i)) as [->|N]; [|rewrite upd_ne by done; apply G; lia].
    rewrite upd_eq. unfold spectrum. rewrite csum_rsum, !Rplus_0_l. cbn [Nat.add]. f_equal; apply rsum_ext; intros j _; rewrite arg_turn, (turn_comm n i j), cis_neg; cbn; ring.
  - refine (eq_trans E _). f_equal. apply arr_ext. intros k Hk. apply G. lia.
Qed.

Lemma mirror_ok n y tmp : (0 < n)%nat -> length tmp = n -> mirror n (arr (n / 2 + 1) y) tmp = Some (arr n (whole n y)).
Proof.
  intros Hn Lt. rewrite (@arr_of C (0, 0) tmp _ Lt). set (f0 := fun i => default _ _). clearbody f0. unfold mirror. cbv zeta.
  pose proof (Nat.div_mod n 2 ltac:(lia)) as D. pose proof (Nat.mod_upper_bound n 2 ltac:(lia)) as M.
  assert (n / 2 + 1 <= n)%nat as Hb.
  { destruct (decide (n = 1)%nat) as [->|]; [cbn; lia|]. lia. }
  destruct (loop_inv (fun i l => exists g, l = arr n g /\ forall k, (k < i)%nat -> (k < n / 2 + 1)%nat -> g k = whole n y k)
    (fun i tmp => z ← arr (n / 2 + 1) y !! i; put tmp i z) (n / 2 + 1) 0 (arr n f0)) as (l & E & g & -> & G).
  - exists f0. split; [done|]. intros; lia.
  - intros i l Hi (g & -> & G). rewrite arr_lookup by lia. change (Some ?a ≫= ?g) with (g a); cbv beta. rewrite put_arr by lia.
    eexists. split; [reflexivity|]. eexists. split; [reflexivity|]. intros k Hk1 Hk.
    destruct (decide (k = i)) as [->|N]; [|rewrite upd_ne by done; apply G; lia]. rewrite upd_eq. unfold whole. by rewrite decide_True by lia.
  - rewrite E. change (Some ?a ≫= ?g) with (g a); cbv beta.
    destruct (loop_inv (fun i l => exists g, l = arr n g /\ forall k, (k < i)%nat -> g k = whole n y k)
      (fun i tmp => z ← arr (n / 2 + 1) y !! (n - i)%nat; put tmp i (conj z)) (n - (n / 2 + 1)) (n / 2 + 1) (arr n g)) as (l & E' & g' & -> & G').
    + exists g. split; [done|]. intros k Hk. apply G; lia.
    + intros i l Hi (g' & -> & G'). rewrite arr_lookup by lia. change (Some ?a ≫= ?g) with (g a); cbv beta. rewrite put_arr by lia.
      eexists. split; [reflexivity|]. eexists. split; [reflexivity|]. intros k Hk.
      destruct (decide (k = i)) as [->|N]; [|rewrite upd_ne by done; apply G'; lia]. rewrite upd_eq. unfold whole. by rewrite decide_False by lia.
    + refine (eq_trans E' _). f_equal. apply arr_ext. intros k Hk. apply G'. lia.
Qed.

Theorem dftInverse_ok n y tmp ro : (0 < n)%nat -> length tmp = n -> length ro = n ->
  dftInverse n tmp (arr (n / 2 + 1) y) ro = Some (arr n (signal n y)).
Proof.
  intros Hn Lt Lr. unfold dftInverse. rewrite mirror_ok by done. change (Some ?a ≫= ?g) with (g a); cbv beta.
  rewrite (arr_of 0 ro _ Lr). set (f0 := fun i => default _ _). clearbody f0.
  set (step := fun i (ro : list R) => _).
  destruct (loop_inv (fun i l => exists g, l = arr n g /\ forall k, (k < i)%nat -> g k = signal n y k) step n 0 (arr n f0)) as (l & E & g & -> & G).
  - exists f0. split; [done|]. intros; lia.
  - intros i l Hi (g & -> & G). unfold step.
    rewrite (accumulate_ok n 0 (fun j => z ← arr n (whole n y) !! j; Some (fst z * cos (arg n i j))) (fun j => fst (whole n y j) * cos (arg n i j))) by (intros j Hj; cbv beta; rewrite arr_lookup by lia; reflexivity).
    change (Some ?a ≫= ?g) with (g a); cbv beta.
    rewrite (accumulate_ok n 0 (fun j => z ← arr n (whole n y) !! j; Some (- (snd z * sin (arg n i j)))) (fun j => - (snd (whole n y j) * sin (arg n i j)))) by (intros j Hj; cbv beta; rewrite arr_lookup by lia; reflexivity).
    change (Some ?a ≫= ?g) with (g a); cbv beta. rewrite put_arr by lia.
    eexists. split; [reflexivity|]. eexists. split; [reflexivity|]. intros k Hk.
    destruct (decide (k = i)) as [->|N]; [|rewrite upd_ne by done; apply G; lia].
    rewrite upd_eq. unfold signal. rewrite csum_rsum, !Rplus_0_l. cbn [fst Nat.add]. rewrite <- rsum_plus. apply rsum_ext. intros j _. rewrite arg_turn. cbn. ring.
  - refine (eq_trans E _). f_equal. apply arr_ext. intros k Hk. apply G. lia.
Qed.

(** ** There and back *)
Lemma circle (n : nat) (d : Z) : (0 < n)%nat -> (forall q, d <> q * Z.of_nat n)%Z ->
  csum n (fun k => cis (INR k * (2 * PI * IZR d / INR n))) = (0, 0).
Proof.
  intros Hn Hd. rewrite csum_rsum. f_equal.
  - rewrite <- (cos_circle 0 n d Hn Hd). apply rsum_ext. intros k _. unfold cis. cbn [fst]. by rewrite Rplus_0_l.
  - rewrite <- (cos_circle (- (PI / 2)) n d Hn Hd). apply rsum_ext. intros k _. unfold cis. cbn [snd].
    rewrite <- (cos_neg (- (PI / 2) + _)). rewrite Ropp_plus_distr, Ropp_involutive.
    rewrite <- sin_shift. f_equal. ring.
Qed.

Lemma spectrum_conj n x k : (0 < n)%nat -> (k <= n)%nat -> spectrum n x (n - k) = conj (spectrum n x k).
Proof.
  intros Hn Hk. unfold spectrum. rewrite csum_conj. apply csum_ext. intros j _. rewrite conj_mul.
  rewrite (cis_neg (turn n j (n - k))), turn_mirror by done. unfold conj at 2. cbn [fst snd]. f_equal. f_equal. ring.
Qed.
Lemma whole_spectrum n x k : (k < n)%nat -> whole n (spectrum n x) k = spectrum n x k.
Proof.
  intros Hk. unfold whole. destruct (decide _); [done|]. rewrite spectrum_conj by lia. apply conj_conj.
Qed.

Theorem round_trip n x t : (t < n)%nat -> signal n (spectrum n x) t = INR n * x t.
Proof.
  intros Ht. assert (0 < n)%nat as Hn by lia. assert (INR n <> 0) as Hn0 by (apply not_0_INR; lia). unfold signal.
  replace (csum n (fun k => cmul (whole n (spectrum n x) k) (cis (turn n t k)))) with (INR n * x t, 0); [done|]. symmetry.
  transitivity (csum n (fun k => csum n (fun j => cmul (x j, 0) (cis (INR k * (2 * PI * IZR (Z.of_nat t - Z.of_nat j) / INR n)))))).
  { apply csum_ext. intros k Hk. rewrite whole_spectrum by done. unfold spectrum. rewrite <- csum_mul_r. apply csum_ext. intros j _.
    rewrite <- cmul_assoc, <- cis_add. do 2 f_equal. unfold turn. rewrite minus_IZR, <- !INR_IZR_INZ. field. exact Hn0. }
  rewrite csum_swap.
  transitivity (csum n (fun j => if decide (j = t) then (INR n * x t, 0) else (0, 0))); [|by apply csum_single].
  apply csum_ext. intros j Hj. rewrite csum_mul_l. destruct (decide (j = t)) as [->|N].
  - rewrite Z.sub_diag. rewrite (csum_ext n _ (fun _ => (1, 0))).
    2:{ intros k _. replace (INR k * (2 * PI * 0 / INR n)) with 0 by (field; exact Hn0). apply cis_0. }
    rewrite csum_rsum, !rsum_const. cbn [fst snd]. unfold cmul. cbn [fst snd]. f_equal; ring.
  - rewrite circle; [apply cmul_0_r|done|]. intros q Hq. assert (q = 0)%Z by nia. lia.
Qed.

(** ** Polar form *)
Lemma toCartesian_toPolar z : toCartesian (toPolar z) = z.
Proof.
  destruct z as [a b]. unfold toCartesian, toPolar, atan2. cbn [fst snd].
  assert (forall a b, 0 < a -> R_sqrt.sqrt (a * a + b * b) = a * R_sqrt.sqrt (1 + (b / a)²)) as Sq.
  { intros u w Hu. replace (u * u + w * w) with (u * u * (1 + (w / u)²)) by (unfold Rsqr; field; Lra.lra).
    rewrite sqrt_mult_alt by nra. rewrite sqrt_square by Lra.lra. done. }
  assert (forall u w, R_sqrt.sqrt (1 + (w / u)²) > 0) as Sp.
  { intros u w. apply sqrt_lt_R0. pose proof (Rle_0_sqr (w / u)). Lra.lra. }
  pose proof PI_RGT_0.
  destruct (Rlt_dec 0 a) as [Ha|Ha].
  { rewrite (Sq a b Ha), cos_atan, sin_atan. specialize (Sp a b). f_equal; field; Lra.lra. }
  destruct (Rlt_dec a 0) as [Hb|Hb].
  { assert (R_sqrt.sqrt (a * a + b * b) = - a * R_sqrt.sqrt (1 + (b / a)²)) as E.
    { replace (a * a + b * b) with ((- a) * (- a) + b * b) by ring. rewrite (Sq (- a) b) by Lra.lra. do 2 f_equal. f_equal. unfold Rsqr. field. Lra.lra. }
    specialize (Sp a b). rewrite E. destruct (Rle_dec 0 b).
    - rewrite neg_cos, neg_sin, cos_atan, sin_atan. f_equal; field; Lra.lra.
    - rewrite cos_minus, sin_minus, cos_PI, sin_PI, cos_atan, sin_atan. f_equal; field; Lra.lra. }
  assert (a = 0) as -> by Lra.lra. replace (0 * 0 + b * b) with (b * b) by ring.
  destruct (Rlt_dec 0 b) as [Hc|Hc].
  { rewrite cos_PI2, sin_PI2, sqrt_square by Lra.lra. f_equal; ring. }
  destruct (Rlt_dec b 0) as [Hd|Hd].
  { rewrite cos_neg, sin_neg, cos_PI2, sin_PI2. replace (b * b) with ((- b) * (- b)) by ring. rewrite sqrt_square by Lra.lra. f_equal; ring. }
  assert (b = 0) as -> by Lra.lra. rewrite Rmult_0_r, sqrt_0. f_equal; ring.
Qed.
Lemma polar_arr n f : map toCartesian (map toPolar (arr n f)) = arr n f.
Proof. rewrite map_map. rewrite <- (map_id (arr n f)) at 2. apply map_ext. apply toCartesian_toPolar. Qed.
