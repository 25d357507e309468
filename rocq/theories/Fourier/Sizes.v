(** Sizes for which the built-in transform is chosen. *)
From Coq Require Import ZArith Reals Lia Lra.
From stdpp Require Import list list_numbers.
From Verif Require Import Fourier.Model Fourier.Spec Fourier.Arrays Fourier.Complex Fourier.Real.
Local Open Scope Z_scope.

Lemma land_pow2 n : 0 < n -> Z.land n (n - 1) = 0 -> n = 2 ^ Z.log2 n.
Proof.
  intros Hn E. destruct (Z.log2_spec n Hn) as [L U]. set (l := Z.log2 n) in *. assert (0 <= l) as Hl by apply Z.log2_nonneg.
  destruct (Z.eq_dec n (2 ^ l)) as [|N]; [done|]. exfalso.
  assert (Z.testbit (Z.land n (n - 1)) l = true) as T; [|rewrite E, Z.bits_0 in T; done].
  rewrite Z.land_spec. apply andb_true_iff. rewrite Z.pow_succ_r in U by done.
  assert (forall m, 2 ^ l <= m < 2 * 2 ^ l -> Z.testbit m l = true) as B.
  { intros m Hm. rewrite Z.testbit_true by done. replace (m / 2 ^ l) with 1; [done|].
    apply (Z.div_unique_pos _ _ _ (m - 2 ^ l)); lia. }
  split; apply B; lia.
Qed.

Lemma pick_builtin size : pick (Z.of_nat size) = Builtin -> exists p, size = (2 * 2 ^ p)%nat /\ (size / 2 = 2 ^ p)%nat.
Proof.
  unfold pick. destruct (Z.eqb_spec (Z.land (Z.of_nat size) (Z.of_nat size - 1)) 0) as [E|]; [|done].
  destruct (Z.ltb_spec (Z.of_nat size) 4) as [|L]; [done|]. intros _.
  apply land_pow2 in E; [|lia]. set (l := Z.log2 (Z.of_nat size)) in *. clearbody l.
  assert (1 <= l) as Hl.
  { destruct (Z_le_gt_dec 1 l); [done|]. exfalso. destruct (Z_le_gt_dec 0 l); [|rewrite Z.pow_neg_r in E; lia].
    assert (l = 0) as -> by lia. cbn in E. lia. }
  exists (Z.to_nat (l - 1)). assert (size = 2 * 2 ^ Z.to_nat (l - 1))%nat as S.
  { apply Nat2Z.inj. rewrite E, Nat2Z.inj_mul, Nat2Z.inj_pow, Z2Nat.id by lia. change (Z.of_nat 2) with 2.
    rewrite <- Z.pow_succ_r by lia. f_equal. lia. }
  split; [done|]. rewrite S at 1. rewrite Nat.mul_comm, Nat.div_mul; lia.
Qed.
