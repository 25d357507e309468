(** Proofs about calculateSizes. *)
From stdpp Require Import prelude.
From Coq Require Import ZArith QArith Qround Lia Lqa.
From Verif Require Import Base.Arith MathMisc.Model MathMisc.Spec MathMisc.Proofs Faster.Sizes Faster.Spec.
Local Open Scope Z_scope.

Lemma roundUp_pow2 v : 1 <= v <= 2 ^ 63 -> exists w, roundUp v = Some w /\ pow2 w /\ v <= w.
Proof.
  intros H. destruct (roundUp_spec v H) as (w & E & k & Hk & Ew & Hv & _).
  exists w. split; [done|]. split; [by exists k|done].
Qed.
Lemma roundUp_least v k : 1 <= v -> 0 <= k <= 62 -> v <= 2 ^ k ->
  exists w, roundUp v = Some w /\ pow2 w /\ v <= w /\ w <= 2 ^ k.
Proof.
  intros H Hk Hv. destruct (roundUp_spec v) as (w & E & j & Hj & Ew & Hvw & Hl).
  { split; [done|]. transitivity (2 ^ k); [done|]. apply Z.pow_le_mono_r; lia. }
  exists w. split_and!; [done|by exists j|done|]. apply Hl; [lia|done].
Qed.
Lemma floor_div_nonneg a r : 0 <= a -> (0 < r)%Q -> 0 <= Qfloor (inject_Z a / r).
Proof.
  intros Ha Hr. change 0 with (Qfloor (inject_Z 0)). apply Qfloor_resp_le.
  apply Qle_shift_div_l; [done|]. rewrite Qmult_0_l. by apply inject_Z_inj_le in Ha.
Qed.
Lemma floor_div_mul a r : (0 < r)%Q -> (inject_Z (Qfloor (inject_Z a / r)) * r <= inject_Z a)%Q.
Proof.
  intros Hr. destruct (floor_bounds (inject_Z a / r)) as [H _].
  setoid_replace (inject_Z a) with (inject_Z a / r * r)%Q at 2 by (field; lra).
  apply Qmult_le_compat_r; [done|lra].
Qed.
Lemma floor_lt_1 a r : (0 < r)%Q -> Qfloor (inject_Z a / r) < 1 -> (inject_Z a < r)%Q.
Proof.
  intros Hr H. destruct (floor_bounds (inject_Z a / r)) as [_ H2].
  assert (Qfloor (inject_Z a / r) + 1 <= 1) by lia.
  apply inject_Z_inj_le in H0. rewrite inject_Z_plus in H0. change (inject_Z 1) with 1%Q in H0.
  assert (H3 : (inject_Z a / r < 1)%Q) by lra.
  setoid_replace (inject_Z a) with (inject_Z a / r * r)%Q by (field; lra).
  setoid_replace r with (1 * r)%Q at 3 by ring. apply Qmult_lt_r; done.
Qed.

Lemma while_halve_spec : forall n (cond : Z -> bool) x, (forall y, cond y = true -> 2 <= y) -> 1 <= x < 2 ^ Z.of_nat n ->
  exists y, while_loop (S n) cond (fun i => i / 2) x = Some y /\ 1 <= y <= x /\ cond y = false.
Proof.
  induction n as [|n IH]; intros cond x Hc Hx.
  { change (2 ^ Z.of_nat 0) with 1 in Hx. lia. }
  cbn [while_loop]. destruct (cond x) eqn:E; [|exists x; split_and!; [done|lia|lia|done]].
  assert (2 <= x) by (by apply Hc).
  destruct (IH cond (x / 2) Hc) as (y & Ey & H1 & H2).
  { rewrite Nat2Z.inj_succ, Z.pow_succ_r in Hx by lia. split.
    - apply Z.div_le_lower_bound; lia.
    - apply Z.div_lt_upper_bound; lia. }
  exists y. split; [exact Ey|]. split; [|done]. assert (x / 2 <= x) by (apply Z.div_le_upper_bound; lia). lia.
Qed.
Lemma halvings_enough x : 1 <= x -> exists n, halvings x = S n /\ x < 2 ^ Z.of_nat n.
Proof.
  intros H. exists (S (Z.to_nat (Z.log2 x))). split; [done|].
  destruct (Z.log2_spec x) as [_ H2]; [lia|]. rewrite Nat2Z.inj_succ, Z2Nat.id by apply Z.log2_nonneg. done.
Qed.
Lemma while_halvings (cond : Z -> bool) x : (forall y, cond y = true -> 2 <= y) -> 1 <= x ->
  exists y, while_loop (halvings x) cond (fun i => i / 2) x = Some y /\ 1 <= y <= x /\ cond y = false.
Proof.
  intros Hc Hx. destruct (halvings_enough x Hx) as (n & -> & Hn). apply while_halve_spec; [done|lia].
Qed.
Lemma while_halve_pow2 : forall n (cond : Z -> bool) x y, pow2 x -> (forall y, cond y = true -> 2 <= y) ->
  while_loop n cond (fun i => i / 2) x = Some y -> pow2 y.
Proof.
  induction n as [|n IH]; intros cond x y Hx Hc; [done|]. cbn [while_loop].
  destruct (cond x) eqn:E; [|congruence]. apply IH; [|done].
  destruct Hx as (k & Hk & ->). assert (2 <= 2 ^ k) by (by apply Hc).
  destruct (Z.eq_dec k 0) as [->|]; [done|].
  exists (k - 1). split; [lia|]. replace k with (1 + (k - 1)) at 1 by lia. rewrite Z.pow_add_r by lia.
  change (2 ^ 1) with 2. rewrite Z.mul_comm. apply Z.div_mul. lia.
Qed.

Lemma halve_loop_spec : forall n limit r out inc, (1 <= r)%Q -> inc = Qfloor (inject_Z out / r) ->
  1 <= out < 2 ^ Z.of_nat n ->
  exists out', halve_loop (S n) limit r out inc = Some (out', Qfloor (inject_Z out' / r)) /\ 1 <= out' <= out.
Proof.
  induction n as [|n IH]; intros limit r out inc Hr Ei Ho.
  { change (2 ^ Z.of_nat 0) with 1 in Ho. lia. }
  cbn [halve_loop]. destruct (ltQ _ _ && _) eqn:E.
  2: { exists out. rewrite Ei. split; [done|lia]. }
  apply andb_true_iff in E as [_ E]. apply Z.ltb_lt in E.
  assert (2 <= out).
  { assert (H := floor_div_mul out r ltac:(lra)). rewrite <- Ei in H.
    assert (H2 : (inject_Z 2 * 1 <= inject_Z inc * r)%Q).
    { apply Qmult_le_compat_nonneg; (split; [lra || (apply inject_Z_inj_le; lia)|]);
        [apply inject_Z_inj_le; lia|done]. }
    apply inject_Z_inj_le. lra. }
  rewrite Nat2Z.inj_succ, Z.pow_succ_r in Ho by lia.
  destruct (IH limit r (out / 2) (Qfloor (inject_Z (out / 2) / r)) Hr eq_refl) as (o & Eo & Hb).
  { split; [apply Z.div_le_lower_bound; lia|apply Z.div_lt_upper_bound; lia]. }
  exists o. split; [exact Eo|]. assert (out / 2 <= out) by (apply Z.div_le_upper_bound; lia). lia.
Qed.
Lemma halve_loop_halvings limit r out : (1 <= r)%Q -> 1 <= out ->
  exists out', halve_loop (halvings out) limit r out (Qfloor (inject_Z out / r))
               = Some (out', Qfloor (inject_Z out' / r)) /\ 1 <= out' <= out.
Proof.
  intros Hr Ho. destruct (halvings_enough out Ho) as (n & -> & Hn). by apply halve_loop_spec.
Qed.

Lemma double_loop_spec : forall n r out inc, (1 <= r)%Q -> inc = Qfloor (inject_Z out / r) -> 1 <= out ->
  (r <= inject_Z (out * 2 ^ Z.of_nat n))%Q ->
  exists out', double_loop (S n) r out inc = Some (out', Qfloor (inject_Z out' / r)) /\
    out <= out' /\ 1 <= Qfloor (inject_Z out' / r) /\ (out' = out \/ (inject_Z out' < 2 * r)%Q).
Proof.
  induction n as [|n IH]; intros r out inc Hr Ei Ho Hn.
  { change (2 ^ Z.of_nat 0) with 1 in Hn. rewrite Z.mul_1_r in Hn.
    cbn [double_loop]. destruct (Z.ltb_spec inc 1).
    - rewrite Ei in H. apply floor_lt_1 in H; [|lra]. lra.
    - exists out. rewrite Ei in *. split_and!; [done|lia|lia|by left]. }
  cbn [double_loop]. destruct (Z.ltb_spec inc 1).
  - rewrite Nat2Z.inj_succ, Z.pow_succ_r in Hn by lia.
    destruct (IH r (out * 2) (Qfloor (inject_Z (out * 2) / r)) Hr eq_refl) as (o & Eo & H1 & H2 & H3); [lia| |].
    { replace (out * 2 * 2 ^ Z.of_nat n) with (out * (2 * 2 ^ Z.of_nat n)) by lia. done. }
    exists o. split_and!; [exact Eo|lia|done|]. right. destruct H3 as [->|H3]; [|done].
    rewrite Ei in H. apply floor_lt_1 in H; [|lra]. rewrite inject_Z_mult. change (inject_Z 2) with 2%Q. lra.
  - exists out. rewrite Ei in *. split_and!; [done|lia|lia|by left].
Qed.
Lemma double_loop_doublings r out : (1 <= r)%Q -> 1 <= out ->
  exists out', double_loop (doublings r) r out (Qfloor (inject_Z out / r))
               = Some (out', Qfloor (inject_Z out' / r)) /\
    out <= out' /\ 1 <= Qfloor (inject_Z out' / r) /\ (out' = out \/ (inject_Z out' < 2 * r)%Q).
Proof.
  intros Hr Ho. apply double_loop_spec; [done..|].
  rewrite Nat2Z.inj_succ, Z2Nat.id by apply Z.log2_up_nonneg.
  destruct (ceil_bounds r) as [H1 _].
  assert (H2 : cceil r <= 2 ^ Z.log2_up (cceil r)).
  { destruct (Z.le_gt_cases (cceil r) 1) as [H|H].
    - rewrite Z.log2_up_eqn0 by lia. done.
    - apply Z.log2_up_spec. lia. }
  assert (0 <= 2 ^ Z.log2_up (cceil r)) by (apply Z.pow_nonneg; lia).
  assert (H3 : cceil r <= out * 2 ^ Z.succ (Z.log2_up (cceil r))).
  { rewrite Z.pow_succ_r by apply Z.log2_up_nonneg. nia. }
  apply inject_Z_inj_le in H3. lra.
Qed.

Definition good (r : Q) (inc win : Z) : Prop :=
  pow2 win /\ 1 <= inc /\ 4 * inc <= win /\ (inject_Z (4 * inc) * r <= inject_Z win)%Q.

Lemma good_below r inc win : (0 < r)%Q -> (r <= 1)%Q -> pow2 win -> 1 <= inc -> 4 * inc <= win -> good r inc win.
Proof.
  intros Hr H1 Hp Hi Hw. split_and!; [done..|].
  assert (H2 : (inject_Z (4 * inc) <= inject_Z win)%Q) by (by apply inject_Z_inj_le).
  assert (H3 : (0 <= inject_Z (4 * inc))%Q) by (apply (inject_Z_inj_le 0); lia). nra.
Qed.
Lemma four_le (wir : Q) inc : (4 <= wir)%Q -> 0 <= inc -> (inject_Z (4 * inc) <= inject_Z inc * wir)%Q.
Proof.
  intros Hw Hi. rewrite inject_Z_mult. change (inject_Z 4) with 4%Q.
  assert (0 <= inject_Z inc)%Q by (by apply (inject_Z_inj_le 0)). nra.
Qed.

Lemma grow_loop_spec : forall n b r wir out inc win,
  (0 < r)%Q -> (r < 1)%Q -> (1 <= inject_Z (2 ^ 40) * r)%Q -> (4 <= wir)%Q -> (wir <= 6)%Q ->
  1 <= out -> 64 <= out * 2 ^ Z.of_nat n ->
  pow2 win -> 1 <= inc -> 4 * inc <= win ->
  exists o i w, grow_loop (S n) b r wir out inc win = Some (o, i, w) /\ pow2 w /\ 1 <= i /\ 4 * i <= w.
Proof.
  induction n as [|n IH]; intros b r wir out inc win Hr Hr1 Hlow Hw4 Hw6 Ho Hn Hp Hi H4; cbn [grow_loop].
  { change (2 ^ Z.of_nat 0) with 1 in Hn. destruct (Z.ltb_spec out 64); [lia|]. cbn [andb]. eauto 10. }
  destruct (Z.ltb_spec out 64); cbn [andb]; [|eauto 10].
  destruct (Z.ltb_spec win (b * 4)); [|eauto 10].
  set (out' := out * 2). set (i := cceil (inject_Z out' / r)).
  destruct (ceil_bounds (inject_Z out' / r)) as [Hc1 Hc2]. fold i in Hc1, Hc2.
  assert (Hq : (inject_Z 2 <= inject_Z out' / r)%Q).
  { apply Qle_shift_div_l; [done|].
    assert (inject_Z 2 <= inject_Z out')%Q by (apply inject_Z_inj_le; unfold out'; lia).
    change (inject_Z 2) with 2%Q in *. nra. }
  assert (Hi1 : 2 <= i) by (apply inject_Z_inj_le; lra).
  assert (Hq2 : (inject_Z out' / r <= inject_Z (128 * 2 ^ 40))%Q).
  { apply Qle_shift_div_r; [done|].
    assert (inject_Z out' <= inject_Z 128)%Q by (apply inject_Z_inj_le; unfold out'; lia).
    rewrite inject_Z_mult. change (inject_Z 128) with 128%Q in *. nra. }
  assert (Hi2 : i <= 128 * 2 ^ 40) by (apply Q_lt_Z; lra).
  destruct (ceil_bounds (inject_Z i * wir)) as [Hd1 Hd2].
  assert (Hf := four_le wir i Hw4 ltac:(lia)).
  assert (Hg : 4 * i <= cceil (inject_Z i * wir)) by (apply inject_Z_inj_le; lra).
  destruct (roundUp_pow2 (cceil (inject_Z i * wir))) as (w & Ew & Hpw & Hvw).
  { split; [lia|].
    assert (inject_Z i * wir <= inject_Z (6 * (128 * 2 ^ 40)))%Q.
    { rewrite inject_Z_mult. apply inject_Z_inj_le in Hi2.
      assert (0 <= inject_Z i)%Q by (apply (inject_Z_inj_le 0); lia). change (inject_Z 6) with 6%Q. nra. }
    assert (cceil (inject_Z i * wir) <= 6 * (128 * 2 ^ 40)) by (apply Q_lt_Z; lra).
    etransitivity; [eassumption|]. vm_compute. discriminate. }
  rewrite Ew. change (Some w ≫= ?f) with (f w). cbv beta.
  apply IH; try done; unfold out'; try lia.
  rewrite Nat2Z.inj_succ, Z.pow_succ_r in Hn by lia. nia.
Qed.

Lemma sizes_rt_below_good c r : (0 < r)%Q -> (r < 1)%Q -> (1 <= inject_Z (2 ^ 40) * r)%Q ->
  pow2 (base c) -> 8 <= base c -> exists i w, sizes_rt_below c r = Some (i, w) /\ good r i w.
Proof.
  intros Hr Hr1 Hlow Hp Hb. unfold sizes_rt_below.
  match goal with |- context [if ?x then (9 # 2)%Q else 6%Q] => set (rsb := x); set (wir := if rsb then (9 # 2)%Q else 6%Q) end.
  assert (Hw : (9 # 2 <= wir)%Q /\ (wir <= 6)%Q) by (unfold wir; destruct rsb; split; lra).
  destruct Hw as [Hw4 Hw6]. clearbody wir.
  set (i := Qfloor (inject_Z (base c) / wir)).
  assert (Hq : (1 <= inject_Z (base c) / wir)%Q).
  { apply Qle_shift_div_l; [lra|]. assert (inject_Z 8 <= inject_Z (base c))%Q by (by apply inject_Z_inj_le).
    change (inject_Z 8) with 8%Q in *. lra. }
  assert (Hi : 1 <= i) by (apply Qfloor_resp_le in Hq; exact Hq).
  assert (H4 : 4 * i <= base c).
  { apply inject_Z_inj_le. eapply Qle_trans; [apply (four_le wir); [lra|lia]|].
    apply floor_div_mul. lra. }
  destruct (Z.ltb_spec (Qfloor (inject_Z i * r)) 64).
  - edestruct (grow_loop_spec 7 (base c) r wir (if Qfloor (inject_Z i * r) <? 1 then 1 else Qfloor (inject_Z i * r)) i (base c))
      as (o & i' & w & E & Hpw & Hi' & Hw); try done; try lra.
    + destruct (Z.ltb_spec (Qfloor (inject_Z i * r)) 1); lia.
    + change (2 ^ Z.of_nat 7) with 128. destruct (Z.ltb_spec (Qfloor (inject_Z i * r)) 1); lia.
    + rewrite E. exists i', w. split; [done|]. apply good_below; try done; lra.
  - exists i, (base c). split; [done|]. apply good_below; try done; lra.
Qed.

Lemma rint_ge z q : (inject_Z z <= q)%Q -> z <= rint q.
Proof. intros H. rewrite <- (rint_Z z). by apply rint_le. Qed.
Lemma rint_lt z q : (q <= inject_Z z)%Q -> rint q <= z.
Proof. intros H. rewrite <- (rint_Z z). by apply rint_le. Qed.

Lemma pow2_div w n : pow2 w -> pow2 n -> n <= w -> pow2 (w / n) /\ w = w / n * n.
Proof.
  intros (a & Ha & ->) (b & Hb & ->) H.
  assert (b <= a) by (apply (Z.pow_le_mono_r_iff 2); lia).
  replace (2 ^ a) with (2 ^ (a - b) * 2 ^ b) by (rewrite <- Z.pow_add_r by lia; f_equal; lia).
  rewrite Z.div_mul by (assert (0 < 2 ^ b) by (apply Z.pow_pos_nonneg; lia); lia).
  split; [|done]. exists (a - b). lia.
Qed.
Lemma pow2_le_div w d : pow2 w -> pow2 d -> d <= w -> pow2 (w / d).
Proof. intros Hw Hd H. by destruct (pow2_div w d Hw Hd H). Qed.
Lemma pow2_pos w : pow2 w -> 1 <= w.
Proof. intros (k & Hk & ->). assert (0 < 2 ^ k) by (apply Z.pow_pos_nonneg; lia). lia. Qed.

Lemma sizes_rt_above_good c r : (1 <= r)%Q -> (r <= inject_Z (2 ^ 40))%Q ->
  pow2 (base c) -> 8 <= base c -> base c <= 2 ^ 40 ->
  (ltQ 1 (pitchScale c) && resampleBefore true (highQuality c) (highConsistency c) (pitchScale c) = true -> 512 <= base c) ->
  exists i w, sizes_rt_above c r = Some (i, w) /\ good r i w.
Proof.
  intros Hr Hhigh Hp Hb Hbm Hrsb. unfold sizes_rt_above.
  match goal with |- context [if Qeq_bool r 1 then 4%Q else if ?x then _ else _] =>
    set (rsb := x) in *; set (wir := if Qeq_bool r 1 then 4%Q else if rsb then (9 # 2)%Q else 8%Q) end.
  assert (Hw : (4 <= wir)%Q /\ (wir <= 8)%Q).
  { unfold wir. destruct (Qeq_bool r 1); [split; lra|]. destruct rsb; split; lra. }
  destruct Hw as [Hw4 Hw8]. clearbody wir.
  set (o := Qfloor (inject_Z (base c) / wir)).
  assert (Hq : (1 <= inject_Z (base c) / wir)%Q).
  { apply Qle_shift_div_l; [lra|]. assert (inject_Z 8 <= inject_Z (base c))%Q by (by apply inject_Z_inj_le).
    change (inject_Z 8) with 8%Q in *. lra. }
  assert (Ho : 1 <= o) by (apply Qfloor_resp_le in Hq; exact Hq).
  assert (Ho2 : o <= base c).
  { apply inject_Z_inj_le. assert (H := floor_div_mul (base c) wir ltac:(lra)). fold o in H.
    assert (0 <= inject_Z o)%Q by (apply (inject_Z_inj_le 0); lia). nra. }
  destruct (halve_loop_halvings (1024 * rateMultiple c) r o Hr Ho) as (o1 & E1 & Ho1).
  rewrite E1. change (Some ?x ≫= ?f) with (f x). cbv beta iota.
  destruct (double_loop_doublings r o1 Hr ltac:(lia)) as (o2 & E2 & Ho12 & Hi2 & Hb2).
  rewrite E2. change (Some ?x ≫= ?f) with (f x). cbv beta iota.
  set (i := Qfloor (inject_Z o2 / r)) in *.
  assert (Hir : (inject_Z i * r <= inject_Z o2)%Q) by (apply floor_div_mul; lra).
  assert (Ho2b : o2 <= 2 ^ 42).
  { destruct Hb2 as [->|Hb2].
    - etransitivity; [apply Ho1|]. etransitivity; [apply Ho2|]. etransitivity; [apply Hbm|]. apply Z.pow_le_mono_r; lia.
    - apply Z.lt_le_incl, inject_Z_inj_lt. replace (2 ^ 42) with (4 * 2 ^ 40) by (vm_compute; reflexivity).
      rewrite inject_Z_mult. change (inject_Z 4) with 4%Q. lra. }
  assert (Hf : (inject_Z (4 * o2) <= inject_Z o2 * wir)%Q) by (apply four_le; [done|lia]).
  destruct (roundUp_pow2 (rint (inject_Z o2 * wir))) as (mw & Em & Hpm & Hmw).
  { split; [apply rint_ge in Hf; lia|].
    apply rint_lt. apply Qle_trans with (inject_Z (2 ^ 42 * 8)).
    - rewrite inject_Z_mult. apply inject_Z_inj_le in Ho2b. change (inject_Z 8) with 8%Q.
      assert (0 <= inject_Z o2)%Q by (apply (inject_Z_inj_le 0); lia). nra.
    - apply inject_Z_inj_le. vm_compute. discriminate. }
  rewrite Em. change (Some ?x ≫= ?f) with (f x). cbv beta iota.
  set (win := if base c <? mw then mw else base c).
  assert (Hwin : pow2 win /\ 4 * o2 <= win /\ base c <= win).
  { unfold win. apply rint_ge in Hf. destruct (Z.ltb_spec (base c) mw); split_and!; try done; lia. }
  destruct Hwin as (Hpw & H4 & Hbw).
  assert (Hio : i <= o2).
  { apply inject_Z_inj_le. assert (0 <= inject_Z i)%Q by (apply (inject_Z_inj_le 0); lia). nra. }
  assert (Hg : good r i win).
  { split_and!; [done..|lia|]. apply inject_Z_inj_le in H4. rewrite inject_Z_mult in *.
    change (inject_Z 4) with 4%Q in *. nra. }
  destruct rsb eqn:Er; [|eauto].
  specialize (Hrsb eq_refl). unfold rsb in Er. apply andb_true_iff in Er as [Hps _]. apply ltQ_true in Hps.
  assert (Hwn : (inject_Z win / pitchScale c <= inject_Z win)%Q).
  { apply Qle_shift_div_r; [lra|]. assert (0 <= inject_Z win)%Q by (apply (inject_Z_inj_le 0); lia). nra. }
  assert (Hwb : win <= 2 ^ 60).
  { assert (mw <= 2 ^ 60).
    { destruct (roundUp_least (rint (inject_Z o2 * wir)) 60) as (w' & Ew' & _ & _ & Hle).
      - apply rint_ge in Hf. lia.
      - lia.
      - apply rint_lt. apply Qle_trans with (inject_Z (2 ^ 42 * 8)).
        + rewrite inject_Z_mult. apply inject_Z_inj_le in Ho2b. change (inject_Z 8) with 8%Q.
          assert (0 <= inject_Z o2)%Q by (apply (inject_Z_inj_le 0); lia). nra.
        + apply inject_Z_inj_le. vm_compute. discriminate.
      - congruence. }
    unfold win. destruct (Z.ltb_spec (base c) mw); [done|]. etransitivity; [apply Hbm|]. apply Z.pow_le_mono_r; lia. }
  set (v := rint (inject_Z win / pitchScale c)).
  assert (Hv : v <= win) by (by apply rint_lt).
  assert (Hv0 : 0 <= v).
  { apply rint_nonneg. apply Qle_shift_div_l; [lra|]. rewrite Qmult_0_l. apply (inject_Z_inj_le 0). lia. }
  assert (Hn : exists n, roundUp v = Some n /\ n <= win /\ (pow2 n \/ n = 0)).
  { destruct (Z.eq_dec v 0) as [Ez|Hz].
    - exists 0. rewrite Ez. split_and!; [vm_compute; reflexivity|lia|by right].
    - destruct Hpw as (k & Hk & Ek). rewrite Ek in Hv, Hwb.
      destruct (roundUp_least v k) as (n & En & Hpn & _ & Hle); [lia| |done|].
      + split; [done|]. assert (k <= 60) by (apply (Z.pow_le_mono_r_iff 2); lia). lia.
      + exists n. rewrite Ek. split_and!; [done|done|by left]. }
  destruct Hn as (n & En & Hnw & Hpn). rewrite En. change (Some ?x ≫= ?f) with (f x). cbv beta iota.
  set (n' := if n <? 512 then 512 else n).
  assert (Hn' : pow2 n' /\ n' <= win).
  { unfold n'. destruct (Z.ltb_spec n 512); [split; [exists 9; lia|lia]|]. split; [|done]. destruct Hpn; [done|lia]. }
  destruct Hn' as [Hpn' Hle].
  destruct (pow2_div win n' Hpw Hpn' Hle) as [Hpd Ed].
  set (d := win / n') in *. assert (Hd := pow2_pos d Hpd). assert (Hn1 := pow2_pos n' Hpn').
  destruct (Z.ltb_spec d i), (Z.ltb_spec d o2); cbn [andb]; try eauto.
  destruct (Z.eqb_spec d 0); [lia|].
  exists (i / d), (win / d). split; [done|].
  assert (Hdw : win / d = n') by (rewrite Ed, Z.mul_comm; apply Z.div_mul; lia).
  assert (Hid : i / d * d <= i) by (rewrite Z.mul_comm; apply Z.mul_div_le; lia).
  destruct Hg as (_ & _ & Hg4 & Hgr).
  split_and!.
  - by rewrite Hdw.
  - apply Z.div_le_lower_bound; lia.
  - rewrite Hdw. apply (Z.mul_le_mono_pos_r _ _ d); [lia|]. lia.
  - rewrite Hdw. assert (Hdq : (0 < inject_Z d)%Q) by (apply (inject_Z_inj_lt 0); lia).
    apply (Qmult_le_r _ _ (inject_Z d)); [done|].
    assert (Ew : (inject_Z n' * inject_Z d == inject_Z win)%Q).
    { rewrite <- inject_Z_mult. rewrite (Z.mul_comm n' d), <- Ed. reflexivity. }
    rewrite Ew. apply inject_Z_inj_le in Hid. rewrite inject_Z_mult in Hid.
    rewrite inject_Z_mult in *. change (inject_Z 4) with 4%Q in *.
    apply Qle_trans with (4 * inject_Z i * r)%Q; [|done].
    setoid_replace (4 * inject_Z (i / d) * r * inject_Z d)%Q with (4 * (inject_Z (i / d) * inject_Z d) * r)%Q by ring.
    apply Qmult_le_compat_r; [lra|lra].
Qed.

Lemma sizes_off_below_good c r : (0 < r)%Q -> (r < 1)%Q -> (1 <= inject_Z (2 ^ 40) * r)%Q ->
  pow2 (base c) -> 8 <= base c -> exists i w, sizes_off_below c r = Some (i, w) /\ good r i w.
Proof.
  intros Hr Hr1 Hlow Hp Hb. unfold sizes_off_below.
  assert (Hb4 : 1 <= base c / 4) by (apply Z.div_le_lower_bound; lia).
  destruct (while_halvings (fun i => 512 <=? i) (base c / 4)) as (i & Ei & Hi & _); [intros y Hy; cbv beta in Hy; apply Z.leb_le in Hy; lia|done|].
  rewrite Ei. change (Some ?x ≫= ?f) with (f x). cbv beta.
  destruct (Z.ltb_spec (Qfloor (inject_Z i * r)) 1).
  - destruct (ceil_bounds (1 / r)) as [H1 H2].
    destruct (roundUp_pow2 (cceil (1 / r))) as (w & Ew & Hpw & Hvw).
    { assert (1 <= 1 / r)%Q by (apply Qle_shift_div_l; lra).
      assert (1 / r <= inject_Z (2 ^ 40))%Q by (apply Qle_shift_div_r; [done|lra]).
      split; [apply inject_Z_inj_le; change (inject_Z 1) with 1%Q; lra|].
      assert (cceil (1 / r) <= 2 ^ 40) by (apply Q_lt_Z; lra).
      etransitivity; [eassumption|]. vm_compute. discriminate. }
    rewrite Ew. change (Some ?x ≫= ?f) with (f x). cbv beta.
    exists w, (w * 4). split; [done|]. assert (Hw1 := pow2_pos w Hpw).
    apply good_below; [done|lra| |lia|lia].
    destruct Hpw as (k & Hk & ->). exists (k + 2). split; [lia|]. rewrite Z.pow_add_r by lia. lia.
  - exists i, (base c). split; [done|]. apply good_below; [done|lra|done|lia|].
    assert (4 * (base c / 4) <= base c) by (apply Z.mul_div_le; lia). lia.
Qed.

Lemma while_double_spec : forall n w, pow2 w -> 8192 <= w * 2 ^ Z.of_nat n ->
  exists y, while_loop (S n) (fun w => w <? 8192) (fun w => w * 2) w = Some y /\ pow2 y /\ w <= y.
Proof.
  induction n as [|n IH]; intros w Hp Hn; cbn [while_loop].
  { change (2 ^ Z.of_nat 0) with 1 in Hn. destruct (Z.ltb_spec w 8192); [lia|]. exists w. split; [done|split; [done|lia]]. }
  destruct (Z.ltb_spec w 8192); [|exists w; split; [done|split; [done|lia]]].
  assert (1 <= w) by (by apply pow2_pos).
  destruct (IH (w * 2)) as (y & Ey & Hy & Hle).
  - destruct Hp as (k & Hk & ->). exists (k + 1). split; [lia|]. rewrite Z.pow_add_r by lia. lia.
  - rewrite Nat2Z.inj_succ, Z.pow_succ_r in Hn by lia. lia.
  - exists y. split; [exact Ey|]. split; [done|lia].
Qed.

Lemma sizes_off_above_good c r : (1 <= r)%Q -> (r <= inject_Z (2 ^ 40))%Q ->
  pow2 (base c) -> 8 <= base c -> base c <= 2 ^ 40 ->
  exists i w, sizes_off_above c r = Some (i, w) /\ good r i w.
Proof.
  intros Hr Hhigh Hp Hb Hbm. unfold sizes_off_above.
  assert (Ho : 1 <= base c / 6) by (apply Z.div_le_lower_bound; lia).
  assert (Ho2 : base c / 6 <= base c) by (apply Z.div_le_upper_bound; lia).
  destruct (halve_loop_halvings 1024 r (base c / 6) Hr Ho) as (o1 & E1 & Ho1).
  rewrite E1. change (Some ?x ≫= ?f) with (f x). cbv beta iota.
  destruct (double_loop_doublings r o1 Hr ltac:(lia)) as (o2 & E2 & Ho12 & Hi2 & Hb2).
  rewrite E2. change (Some ?x ≫= ?f) with (f x). cbv beta iota.
  set (i := Qfloor (inject_Z o2 / r)) in *.
  assert (Hir : (inject_Z i * r <= inject_Z o2)%Q) by (apply floor_div_mul; lra).
  assert (Ho2b : o2 <= 2 ^ 42).
  { destruct Hb2 as [->|Hb2].
    - etransitivity; [apply Ho1|]. etransitivity; [apply Ho2|]. etransitivity; [apply Hbm|]. apply Z.pow_le_mono_r; lia.
    - apply Z.lt_le_incl, inject_Z_inj_lt. replace (2 ^ 42) with (4 * 2 ^ 40) by (vm_compute; reflexivity).
      rewrite inject_Z_mult. change (inject_Z 4) with 4%Q. lra. }
  destruct (roundUp_pow2 (o2 * 6)) as (w & Ew & Hpw & Hvw).
  { split; [lia|]. transitivity (2 ^ 42 * 6); [lia|]. vm_compute. discriminate. }
  rewrite Ew. change (Some ?x ≫= ?f) with (f x). cbv beta iota.
  assert (Hpm : pow2 (Z.max (base c) w)) by (destruct (Z.max_spec (base c) w) as [[_ ->]|[_ ->]]; done).
  assert (Hmain : exists win, (if ltQ 5 r then while_loop 15 (fun w => w <? 8192) (fun w => w * 2) (Z.max (base c) w)
    else Some (Z.max (base c) w)) = Some win /\ pow2 win /\ Z.max (base c) w <= win).
  { destruct (ltQ 5 r).
    - apply while_double_spec; [done|]. change (2 ^ Z.of_nat 14) with 16384. lia.
    - exists (Z.max (base c) w). split; [done|split; [done|lia]]. }
  destruct Hmain as (win & -> & Hpwin & Hle). change (Some ?x ≫= ?f) with (f x). cbv beta.
  exists i, win. split; [done|].
  assert (Hio : i <= o2).
  { apply inject_Z_inj_le. assert (0 <= inject_Z i)%Q by (apply (inject_Z_inj_le 0); lia). nra. }
  split_and!; [done..|lia|].
  assert (H4 : 4 * o2 <= win) by lia. apply inject_Z_inj_le in H4. rewrite inject_Z_mult in *.
  change (inject_Z 4) with 4%Q in *. nra.
Qed.

Lemma calculateSizes_valid c : pow2 (base c) -> 8 <= base c -> base c <= 2 ^ 40 ->
  (1 <= inject_Z (2 ^ 40) * (accepted (timeRatio c) * accepted (pitchScale c)))%Q ->
  (accepted (timeRatio c) * accepted (pitchScale c) <= inject_Z (2 ^ 40))%Q ->
  (realtime c = true -> (1 < accepted (pitchScale c))%Q -> highQuality c = false -> highConsistency c = false ->
   512 <= base c) ->
  exists s, calculateSizes c = Some s /\
    timeRatio' s = accepted (timeRatio c) /\ pitchScale' s = accepted (pitchScale c) /\
    pow2 (fftSize s) /\ window s = (if smoothing c then 2 * fftSize s else fftSize s) /\
    1 <= increment s /\ 4 * increment s <= fftSize s /\
    (inject_Z (4 * increment s) * (timeRatio' s * pitchScale' s) <= inject_Z (fftSize s))%Q /\
    (0 < expected c -> 4 * increment s <= expected c \/ increment s = 1) /\
    window s <= maxProcess' s /\ maxProcess c <= maxProcess' s /\
    (inject_Z (maxProcess' s) / pitchScale' s <= inject_Z (outbufSize s))%Q /\
    (inject_Z (2 * maxProcess' s) * timeRatio' s <= inject_Z (outbufSize s))%Q /\
    2 * maxProcess' s <= outbufSize s.
Proof.
  intros Hp Hb Hbm Hlow Hhigh Hdiv. unfold calculateSizes.
  change (if ltQ 0 (pitchScale c) then pitchScale c else 1%Q) with (accepted (pitchScale c)).
  change (if ltQ 0 (timeRatio c) then timeRatio c else 1%Q) with (accepted (timeRatio c)).
  assert (Hpos : forall q, (0 < accepted q)%Q).
  { intros q. change (accepted q) with (if ltQ 0 q then q else 1%Q). destruct (ltQ 0 q) eqn:E; [by apply ltQ_true|lra]. }
  pose proof (Hpos (timeRatio c)) as Ht. pose proof (Hpos (pitchScale c)) as Hps.
  set (t := accepted (timeRatio c)) in *. clearbody t.
  set (p := accepted (pitchScale c)) in *. clearbody p.
  cbv zeta. cbn [realtime threaded highQuality highConsistency smoothing base rateMultiple timeRatio pitchScale expected maxProcess].
  set (r := (t * p)%Q) in *. assert (Hr : (0 < r)%Q) by (unfold r; nra). assert (Er : (t * p)%Q = r) by done. clearbody r.
  match goal with |- context [sizes_rt_below ?x r] => set (c' := x) end.
  match goal with |- exists s, (?X ≫= ?f) = _ /\ _ => assert (HX : exists i w, X = Some (i, w) /\ good r i w) end.
  { destruct (realtime c) eqn:Ert, (ltQ r 1) eqn:Elt;
      [apply ltQ_true in Elt|apply ltQ_false in Elt|apply ltQ_true in Elt|apply ltQ_false in Elt].
    - by apply sizes_rt_below_good.
    - apply sizes_rt_above_good; try done. intros Hrsb. apply andb_true_iff in Hrsb as [H1 H2].
      apply ltQ_true in H1. unfold resampleBefore in H2. cbn [andb] in H2.
      change (pitchScale c') with p in *.
      change (highQuality c') with (highQuality c) in H2. change (highConsistency c') with (highConsistency c) in H2.
      destruct (highQuality c); [apply ltQ_true in H2; lra|]. destruct (highConsistency c); [done|]. by apply Hdiv.
    - by apply sizes_off_below_good.
    - by apply sizes_off_above_good. }
  destruct HX as (i & win & -> & Hpw & Hi & H4 & H4r). change (Some ?x ≫= ?f) with (f x). cbv beta iota.
  match goal with |- exists s, (?X ≫= ?f) = _ /\ _ =>
    assert (HX : exists j, X = Some j /\ 1 <= j <= i /\ (0 < expected c -> 4 * j <= expected c \/ j = 1)) end.
  { destruct (Z.ltb_spec 0 (expected c)).
    - destruct (while_halvings (fun j => (expected c <? j * 4) && (1 <? j)) i) as (j & Ej & Hj & Hc); [|done|].
      + intros y Hy. apply andb_true_iff in Hy as [_ Hy]. apply Z.ltb_lt in Hy. lia.
      + exists j. split; [done|]. split; [lia|]. intros _. apply andb_false_iff in Hc as [Hc|Hc]; apply Z.ltb_ge in Hc; lia.
    - exists i. split; [done|split; [lia|lia]]. }
  destruct HX as (j & -> & Hj & Hexp). change (Some ?x ≫= ?f) with (f x). cbv beta.
  eexists. split; [reflexivity|]. cbn [fftSize window increment outbufSize maxProcess' timeRatio' pitchScale'].
  set (w := if smoothing c then win * 2 else win). set (mp := Z.max w (maxProcess c)).
  match goal with |- context [cceil ?x] => set (v := x) end.
  assert (Hw : 1 <= w) by (unfold w; destruct (smoothing c); lia).
  assert (Hv : (inject_Z mp / p <= v)%Q /\ (inject_Z (2 * mp) * t <= v)%Q /\ (inject_Z (2 * mp) <= v)%Q).
  { assert (Hmp : (0 <= inject_Z (mp * 2))%Q) by (apply (inject_Z_inj_le 0); lia).
    replace (2 * mp) with (mp * 2) by lia.
    assert (Hm : (1 <= (if ltQ 1 t then t else 1))%Q /\ (t <= (if ltQ 1 t then t else 1))%Q).
    { destruct (ltQ 1 t) eqn:E; [apply ltQ_true in E|apply ltQ_false in E]; split; lra. }
    revert Hm. unfold v. generalize (if ltQ 1 t then t else 1%Q). intros m [Hm1 Hm2].
    assert (inject_Z (mp * 2) * t <= inject_Z (mp * 2) * m)%Q by nra.
    assert (inject_Z (mp * 2) <= inject_Z (mp * 2) * m)%Q by nra.
    destruct (ltQ (inject_Z mp / p) (inject_Z (mp * 2) * m)) eqn:E; [apply ltQ_true in E|apply ltQ_false in E]; lra. }
  clearbody v. destruct (ceil_bounds v) as [Hc _]. destruct Hv as (Hv1 & Hv2 & Hv3).
  assert (Hout : exists o, (if realtime c || threaded c then cceil v * 16 else cceil v) = o /\ cceil v <= o).
  { assert (0 <= cceil v).
    { apply inject_Z_inj_le. change (inject_Z 0) with 0%Q. assert (0 <= inject_Z (2 * mp))%Q by (apply (inject_Z_inj_le 0); lia). lra. }
    eexists. split; [reflexivity|]. destruct (realtime c || threaded c); lia. }
  destruct Hout as (o & -> & Ho). pose proof Ho as HoQ. apply inject_Z_inj_le in HoQ.
  split_and!; try done; try lia.
  - unfold w. destruct (smoothing c); lia.
  - rewrite Er. revert H4r. rewrite !inject_Z_mult. change (inject_Z 4) with 4%Q. intros H4r.
    assert (Hji : (inject_Z j <= inject_Z i)%Q) by (apply inject_Z_inj_le; lia). nra.
  - lra.
  - lra.
  - apply inject_Z_inj_le. lra.
Qed.

Lemma baseSize_valid rate short long : 8000 <= rate <= 192000 ->
  exists b, baseSize rate short long = Some b /\ pow2 b /\ 256 <= b <= 16384 /\
    (12024 <= rate \/ short = false \/ long = true -> 512 <= b).
Proof.
  intros Hr. unfold baseSize.
  set (v := Qfloor (inject_Z 2048 * (rate # 48000))).
  assert (Hv : v = 2048 * rate / 48000).
  { unfold v, Qmult, Qfloor, inject_Z. cbn [Qnum Qden]. reflexivity. }
  assert (H1 : 341 <= v <= 8192).
  { rewrite Hv. split; [apply Z.div_le_lower_bound; lia|apply Z.div_le_upper_bound; lia]. }
  destruct (roundUp_least v 13) as (w & Ew & Hpw & Hvw & Hle); [lia|lia|lia|].
  rewrite Ew. change (Some ?x ≫= ?f) with (f x). cbv beta. change (2 ^ 13) with 8192 in Hle.
  destruct Hpw as (k & Hk & Ek).
  assert (Hk9 : 9 <= k).
  { destruct (Z.le_gt_cases 9 k); [done|]. assert (2 ^ k <= 2 ^ 8) by (apply Z.pow_le_mono_r; lia).
    change (2 ^ 8) with 256 in *. lia. }
  assert (Hw512 : 512 <= w) by (rewrite Ek; change 512 with (2 ^ 9); apply Z.pow_le_mono_r; lia).
  assert (Hhalf : w / 2 = 2 ^ (k - 1)).
  { rewrite Ek. replace k with (1 + (k - 1)) at 1 by lia. rewrite Z.pow_add_r by lia. change (2 ^ 1) with 2.
    rewrite Z.mul_comm. apply Z.div_mul. lia. }
  assert (H256 : 256 <= w / 2) by (apply Z.div_le_lower_bound; lia).
  assert (Hbig : 12024 <= rate -> 512 <= w / 2).
  { intros Hrate. assert (512 < v).
    { rewrite Hv. apply Z.lt_le_trans with 513; [lia|]. apply Z.div_le_lower_bound; [lia|]. clear -Hrate. lia. }
    assert (10 <= k).
    { destruct (Z.le_gt_cases 10 k); [done|]. assert (2 ^ k <= 2 ^ 9) by (apply Z.pow_le_mono_r; lia).
      change (2 ^ 9) with 512 in *. lia. }
    rewrite Hhalf. change 512 with (2 ^ 9). apply Z.pow_le_mono_r; lia. }
  assert (Hh2 : w / 2 <= w) by (apply Z.div_le_upper_bound; lia).
  assert (Hpk : pow2 w) by (by exists k).
  assert (Hpk1 : pow2 (w / 2)) by (exists (k - 1); lia).
  assert (Hpk2 : pow2 (w * 2)).
  { exists (k + 1). split; [lia|]. rewrite Z.pow_add_r by lia. lia. }
  destruct short, long; cbn [andb]; eexists; (split; [reflexivity|]); (split; [done|]); (split; [lia|]); try lia.
Qed.
