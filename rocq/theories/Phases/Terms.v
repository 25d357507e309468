(** What some of the words in the statements of C80 mean. *)
From stdpp Require Import prelude.
From Coq Require Import ZArith QArith Qround Qabs Lia Lqa.
From Verif Require Import Base.Arith Phases.Model Phases.Spec.
From stdpp Require Import list.
Local Open Scope Z_scope.

(** C80: a ratio counts as 1 when it is closer to it than a millionth; the bin of a frequency is
    within half a bin of it; the error of a phase is what remains within half a turn. *)
Theorem C80_terms : forall (c : config) r f t, 0 < fft c -> (0 < rate c)%Q ->
  (unity r = true <-> (Qabs (r - 1) < 1 # 1000000)%Q) /\
  (Qabs (inject_Z (bin_of c f) * (rate c / inject_Z (fft c)) - f) <= rate c / inject_Z (fft c) / 2)%Q /\
  same (princ t) t /\ (- (1 # 2) < princ t <= 1 # 2)%Q.
Proof.
  intros c r f t Hf Hr. assert (0 < inject_Z (fft c))%Q as Hf' by (change 0%Q with (inject_Z 0); by rewrite <- Zlt_Qlt).
  split_and!.
  - unfold unity, ltQ. destruct (Qle_bool (1 # 1000000) (Qabs (r - 1))) eqn:E; cbn [negb].
    + apply Qle_bool_iff in E. split; [done|]. intros L. by apply Qlt_not_le in L.
    + split; [|done]. intros _. apply Qnot_le_lt. intros L. apply Qle_bool_iff in L. congruence.
  - unfold bin_of. set (q := (f * inject_Z (fft c) / rate c)%Q).
    assert (inject_Z (rint q) - (1 # 2) <= q /\ q <= inject_Z (rint q) + (1 # 2))%Q as [A B] by apply rint_near.
    set (x := inject_Z (rint q)) in *. clearbody x.
    assert (x * (rate c / inject_Z (fft c)) - f == (x - q) * (rate c / inject_Z (fft c)))%Q as -> by (unfold q; field; split; lra).
    rewrite Qabs_Qmult, (Qabs_pos (rate c / _)) by (apply Qle_shift_div_l; [done|lra]).
    assert (rate c / inject_Z (fft c) / 2 == (1 # 2) * (rate c / inject_Z (fft c)))%Q as -> by (field; lra).
    apply Qmult_le_compat_r; [|apply Qle_shift_div_l; [done|lra]]. apply Qabs_Qle_condition. split; lra.
  - exists (1 + Qfloor (- (t + (1 # 2)))). unfold princ. rewrite inject_Z_plus. ring.
  - unfold princ. pose proof (Qfloor_le (- (t + (1 # 2)))). pose proof (Qlt_floor (- (t + (1 # 2)))). rewrite inject_Z_plus in H0. change (inject_Z 1) with 1%Q in H0. lra.
  - unfold princ. pose proof (Qfloor_le (- (t + (1 # 2)))). lra.
Qed.
Print Assumptions C80_terms.
Example C80_terms_example : unity (1000001 # 1000000) = false /\ unity (10000001 # 10000000) = true /\
  Qeq_bool (princ (- (3 # 2))) (1 # 2) = true /\ Qeq_bool (princ (7 # 4)) (- (1 # 4)) = true.
Proof. vm_compute. done. Qed.
