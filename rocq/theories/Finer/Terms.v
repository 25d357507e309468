(** What some of the words in the statements of C72 and C84 mean. *)
From stdpp Require Import prelude list numbers.
From Coq Require Import ZArith QArith Qround Qabs Lia Lqa.
From Verif Require Import Base.Arith Finer.PeakModel Finer.SegmenterModel Finer.GuideModel Finer.PhaseModel Finer.KickModel.
From stdpp Require Import list numbers.
Local Open Scope Z_scope.

(** C84: the strength of the lock at a frequency is that of the first band that does not end below
    it, or else of the last band. *)
Definition lockStrength (f : Q) (bands : list lockBand) (be : Q) : Prop :=
  exists n b, bands !! n = Some b /\ lbeta b = be /\
    (forall m b', (m < n)%nat -> bands !! m = Some b' -> (lf1 b' < f)%Q) /\ ((f <= lf1 b)%Q \/ S n = length bands).
Lemma ltq_true a b : ltq a b = true <-> (a < b)%Q.
Proof.
  unfold ltq. destruct (Qle_bool b a) eqn:E; cbn [negb].
  - apply Qle_bool_iff in E. split; [done|]. intros L. by apply Qlt_not_le in L.
  - split; [|done]. intros _. apply Qnot_le_lt. intros L. apply Qle_bool_iff in L. congruence.
Qed.
Theorem C84_strength : forall f bands be, betaAt f bands = Some be <-> lockStrength f bands be.
Proof.
  intros f bands be. induction bands as [|b bands IH].
  { split; [done|]. intros (n & b & X & _). done. }
  destruct bands as [|b2 bands].
  { cbn [betaAt]. split.
    - intros [= <-]. exists 0%nat, b. split_and!; [done|done|intros; lia|by right].
    - intros (n & b' & X & <- & _). destruct n; [by injection X as ->|done]. }
  change (betaAt f (b :: b2 :: bands)) with (if ltq (lf1 b) f then betaAt f (b2 :: bands) else Some (lbeta b)).
  destruct (ltq (lf1 b) f) eqn:E.
  - apply ltq_true in E. rewrite IH. split.
    + intros (n & x & X & Y & A & B). exists (S n), x. split_and!; [done|done| |destruct B as [B|B]; [by left|right; cbn [length] in *; lia]].
      intros [|m] b' L Z; [by injection Z as <-|]. apply (A m); [lia|done].
    + intros ([|n] & x & X & Y & A & B).
      * injection X as ->. destruct B as [B|B]; [by apply Qle_not_lt in B|cbn [length] in B; lia].
      * exists n, x. split_and!; [done|done| |destruct B as [B|B]; [by left|right; cbn [length] in *; lia]].
        intros m b' L Z. apply (A (S m)); [lia|done].
  - assert (f <= lf1 b)%Q as L by (apply Qnot_lt_le; intros L; apply ltq_true in L; congruence). split.
    + intros [= <-]. exists 0%nat, b. split_and!; [done|done|intros; lia|by left].
    + intros ([|n] & x & X & <- & A & _); [by injection X as ->|]. specialize (A 0%nat b ltac:(lia) eq_refl). by apply Qle_not_lt in L.
Qed.
Print Assumptions C84_strength.
Example C84_strength_example : let bs := [LockBand 1 (1 # 2) 0 700; LockBand 2 (1 # 3) 700 1600; LockBand 3 1 1600 4800] in
  betaAt 700 bs = Some (1 # 2)%Q /\ betaAt 701 bs = Some (1 # 3)%Q /\ betaAt 9000 bs = Some 1%Q.
Proof. vm_compute. done. Qed.

(** C72: a frame is taken for a hit if the magnitudes of the bins from 1 up to that of 200 Hz sum to
    more than 0.01 and to more than 1.4 times what they summed to in the frame before. *)
Definition lowSum (n : Z) (m : list Q) : Q := foldr Qplus 0%Q (take (Z.to_nat n) (drop 1 m)).
Lemma sumBins_sum m n : forall k acc, (k + n <= length m)%nat ->
  exists x, sumBins m (seqZ (Z.of_nat k) (Z.of_nat n)) acc = Some x /\ (x == acc + foldr Qplus 0 (take n (drop k m)))%Q.
Proof.
  induction n as [|n IH]; intros k acc L.
  - exists acc. split; [done|]. change (take 0 (drop k m)) with (@nil Q). cbn [foldr]. ring.
  - rewrite seqZ_cons by lia. cbn [sumBins]. unfold at_.
    destruct (lookup_lt_is_Some_2 m k ltac:(lia)) as [y Hy].
    rewrite (proj2 (Z.ltb_ge (Z.of_nat k) 0)) by lia.
    rewrite Nat2Z.id, Hy. cbn [mbind option_bind].
    replace (Z.succ (Z.of_nat k)) with (Z.of_nat (S k)) by lia. replace (Z.pred (Z.of_nat (S n))) with (Z.of_nat n) by lia.
    destruct (IH (S k) (acc + y)%Q ltac:(lia)) as (x & E & X). exists x. split; [exact E|]. rewrite X.
    rewrite (drop_S _ _ _ Hy). cbn [take foldr]. ring.
Qed.
Theorem C72_hit : forall g m prev, 0 < cfft g -> (0 < rate g)%Q ->
  let b := cround (200 / (rate g / inject_Z (cfft g))) in
  b < Z.of_nat (length m) -> b < Z.of_nat (length prev) ->
  (checkPotentialKick g m prev = Some true <-> (1 # 100 < lowSum b m)%Q /\ ((14 # 10) * lowSum b prev < lowSum b m)%Q).
Proof.
  intros g m prev Hf Hr b L1 L2. assert (0 < inject_Z (cfft g))%Q as Hf' by (change 0%Q with (inject_Z 0); by rewrite <- Zlt_Qlt).
  assert (binForFrequency 200 (cfft g) (rate g) = b) as Eb.
  { unfold binForFrequency, b. assert (200 * inject_Z (cfft g) / rate g == 200 / (rate g / inject_Z (cfft g)))%Q as X by (field; split; lra).
    unfold cround. set (u := (200 * _ / _)%Q) in *. set (v := (200 / _)%Q) in *. clearbody u v.
    assert (Qfloor (u + (1 # 2)) = Qfloor (v + (1 # 2))) as -> by (by rewrite X).
    assert (Qfloor (- u + (1 # 2)) = Qfloor (- v + (1 # 2))) as E by (by rewrite X).
    destruct (Qlt_le_dec u 0), (Qlt_le_dec v 0); try done; try lra. by rewrite E. }
  assert (0 <= b) as B0. { apply cround_nonneg. apply (Qlt_le_trans _ 0); [done|]. apply Qle_shift_div_l; [|lra]. apply Qlt_shift_div_l; [done|]. lra. }
  unfold checkPotentialKick. rewrite Eb. cbv zeta.
  destruct (sumBins_sum m (Z.to_nat b) 1 0 ltac:(lia)) as (x & Ex & X). destruct (sumBins_sum prev (Z.to_nat b) 1 0 ltac:(lia)) as (y & Ey & Y).
  rewrite Z2Nat.id in Ex, Ey by lia. change (Z.of_nat 1) with 1 in *. rewrite Ex. cbn [mbind option_bind]. rewrite Ey. cbn [mbind option_bind].
  unfold lowSum. split.
  - intros [= H]. apply andb_true_iff in H as [H1 H2]. apply ltq_true in H1, H2. split; lra.
  - intros [H1 H2]. f_equal. apply andb_true_iff. split; apply ltq_true; lra.
Qed.
Print Assumptions C72_hit.
Example C72_hit_example : exists g, newGuide 44100 false = Some g /\ cround (200 / (rate g / inject_Z (cfft g))) = 9 /\
  checkPotentialKick g (repeat (1 # 100)%Q 1025) (repeat (1 # 200)%Q 1025) = Some true /\
  checkPotentialKick g (repeat (1 # 100)%Q 1025) (repeat (1 # 120)%Q 1025) = Some false.
Proof. eexists. split; [vm_compute; reflexivity|]. vm_compute. done. Qed.
