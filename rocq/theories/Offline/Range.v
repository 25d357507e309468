(** The increments an offline stretcher without pitch change works with. *)
From stdpp Require Import prelude.
From Coq Require Import ZArith QArith Qround Lia Lqa.
From Verif Require Import Base.Arith Faster.Sizes Faster.Spec Faster.SizesProofs.
Local Open Scope Z_scope.

Lemma pow2_range b lo hi : pow2 b -> 2 ^ lo <= b <= 2 ^ hi -> 0 <= lo -> exists k, b = 2 ^ k /\ lo <= k <= hi.
Proof.
  intros (k & Hk & ->) [H1 H2] Hlo. exists k. split; [done|].
  split; [by apply (Z.pow_le_mono_r_iff 2); lia|].
  destruct (Z.le_gt_cases k hi); [done|]. exfalso. assert (2 ^ hi < 2 ^ k); [|lia].
  destruct (Z.le_gt_cases 0 hi); [apply Z.pow_lt_mono_r; lia|]. rewrite (Z.pow_neg_r 2 hi) in H2 by lia.
  assert (0 < 2 ^ k) by (apply Z.pow_pos_nonneg; lia). lia.
Qed.
(** Offline, shortening: a quarter of the base window, at most 256. *)
Lemma below_range c r i w : pow2 (base c) -> 256 <= base c <= 16384 -> (1 # 16 <= r)%Q -> (r < 1)%Q -> sizes_off_below c r = Some (i, w) ->
  w <= 16384 /\ (i = 64 \/ i = 128 \/ i = 256).
Proof.
  intros Hp Hb Hr Hr1 E. unfold sizes_off_below in E.
  assert (H : while_loop (halvings (base c / 4)) (fun i => 512 <=? i) (fun i => i / 2) (base c / 4) = Some (Z.min 256 (base c / 4)) /\
    (Z.min 256 (base c / 4) = 64 \/ Z.min 256 (base c / 4) = 128 \/ Z.min 256 (base c / 4) = 256)).
  { destruct (pow2_range (base c) 8 14 Hp ltac:(cbn; lia) ltac:(lia)) as (k & -> & Hk).
    assert (Hc : k = 8 \/ k = 9 \/ k = 10 \/ k = 11 \/ k = 12 \/ k = 13 \/ k = 14) by lia.
    destruct Hc as [->|[->|[->|[->|[->|[->| ->]]]]]]; (split; [vm_compute; reflexivity|vm_compute; auto]). }
  destruct H as [H Hi]. rewrite H in E. change (Some ?x ≫= ?f) with (f x) in E. cbv beta zeta in E.
  set (j := Z.min 256 (base c / 4)) in *.
  assert (Hj : 1 <= Qfloor (inject_Z j * r)).
  { change 1 with (Qfloor (inject_Z 1)) at 1. apply Qfloor_resp_le. change (inject_Z 1) with 1%Q.
    destruct Hi as [->|[->| ->]]; [change (inject_Z 64) with 64%Q|change (inject_Z 128) with 128%Q|change (inject_Z 256) with 256%Q]; lra. }
  rewrite (proj2 (Z.ltb_ge _ _) Hj) in E. injection E as <- <-. split; [lia|exact Hi].
Qed.
Lemma halve_range : forall n r out inc out' inc', (1 <= r)%Q -> (r <= 20)%Q -> inc = Qfloor (inject_Z out / r) ->
  halve_loop n 1024 r out inc = Some (out', inc') -> 42 <= out -> 42 <= out' <= 1024 /\ inc' = Qfloor (inject_Z out' / r).
Proof.
  induction n as [|n IH]; intros r out inc out' inc' Hr Hr2 -> E Ho; [done|]. cbn [halve_loop] in E.
  assert (Hge : forall o, 42 <= o -> 2 <= Qfloor (inject_Z o / r)).
  { intros o Ho'. change 2 with (Qfloor (inject_Z 2)) at 1. apply Qfloor_resp_le. change (inject_Z 2) with 2%Q.
    apply Qle_shift_div_l; [lra|]. assert (42 <= inject_Z o)%Q by (change 42%Q with (inject_Z 42); rewrite <- Zle_Qle; done). nra. }
  destruct (ltQ 1024 (inject_Z out)) eqn:El.
  - rewrite (proj2 (Z.ltb_lt 1 _)) in E by (specialize (Hge out Ho); lia). cbn [andb] in E.
    apply ltQ_true in El. assert (1024 < out).
    { unfold Qlt in El. cbn [Qnum Qden inject_Z] in El. lia. }
    eapply IH in E; [exact E|done|done|done|]. apply Z.div_le_lower_bound; lia.
  - cbn [andb] in E. injection E as <- <-. split; [|done]. split; [done|].
    apply Z.nlt_ge. intros Hlt. assert (ltQ 1024 (inject_Z out) = true); [|congruence]. apply ltQ_true. change 1024%Q with (inject_Z 1024). rewrite <- Zlt_Qlt. lia.
Qed.
(** Offline, lengthening. *)
Lemma above_range c r i w : pow2 (base c) -> 256 <= base c <= 16384 -> (1 <= r)%Q -> (r <= 20)%Q -> sizes_off_above c r = Some (i, w) ->
  w <= 16384 /\ 2 <= i <= 1024 /\ (3 <= inject_Z i * r)%Q.
Proof.
  intros Hp Hb Hr Hr2 E. unfold sizes_off_above in E.
  match type of E with (?x ≫= _) = _ => destruct x as [[o1 i1]|] eqn:E1; [|done] end.
  change (Some ?x ≫= ?f) with (f x) in E. cbv beta iota in E.
  destruct (halve_range _ r (base c / 6) _ o1 i1 Hr Hr2 eq_refl E1) as [Ho1 ->]; [apply Z.div_le_lower_bound; lia|].
  match type of E with (?x ≫= _) = _ => destruct x as [[o2 i2]|] eqn:E2; [|done] end.
  change (Some ?x ≫= ?f) with (f x) in E. cbv beta iota in E.
  assert (H42 : (42 <= inject_Z o1)%Q) by (change 42%Q with (inject_Z 42); rewrite <- Zle_Qle; lia).
  assert (Hge : 2 <= Qfloor (inject_Z o1 / r)).
  { rewrite <- (Qfloor_Z 2). apply Qfloor_resp_le. change (inject_Z 2) with 2%Q. apply Qle_shift_div_l; lra. }
  assert (E2' : o2 = o1 /\ i2 = Qfloor (inject_Z o1 / r)).
  { destruct (doublings r) as [|n]; [done|]. cbn [double_loop] in E2. rewrite (proj2 (Z.ltb_ge _ 1)) in E2 by lia. by injection E2. }
  destruct E2' as [-> ->].
  destruct (roundUp_least (o1 * 6) 13 ltac:(lia) ltac:(lia) ltac:(change (2 ^ 13) with 8192; lia)) as (wn & Ew & Hpw & _ & Hw13).
  change (2 ^ 13) with 8192 in Hw13. rewrite Ew in E.
  change (Some ?x ≫= ?f) with (f x) in E. cbv beta zeta in E.
  match type of E with (?x ≫= _) = _ => destruct x as [wm|] eqn:Ewm; [|done] end.
  change (Some ?x ≫= ?f) with (f x) in E. cbv beta in E.
  assert (Hwm : wm <= 16384).
  { assert (Hp2 : pow2 (Z.max (base c) wn)) by (destruct (Z.max_spec (base c) wn) as [[_ ->]|[_ ->]]; done).
    destruct (ltQ 5 r); [|injection Ewm as <-; lia].
    assert (Hgen : forall n x, x <= 16384 -> while_loop n (fun w => w <? 8192) (fun w => w * 2) x = Some wm -> wm <= 16384).
    { induction n as [|n IH]; intros x Hx Ex; [done|]. cbn [while_loop] in Ex. destruct (Z.ltb_spec x 8192); [|injection Ex as <-; done].
      eapply IH; [|exact Ex]. lia. }
    eapply Hgen; [|exact Ewm]. lia. }
  assert (Ewi : w = wm) by congruence. rewrite Ewi. split; [done|].
  assert (Ei : i = Qfloor (inject_Z o1 / r)) by congruence. clear E. subst i.
  assert (Hle : (inject_Z o1 / r <= inject_Z o1)%Q) by (apply Qle_shift_div_r; [lra|nra]).
  destruct (floor_bounds (inject_Z o1 / r)) as [Hf1 Hf2]. split; [split; [done|]|].
  - transitivity o1; [|apply Ho1]. rewrite <- (Qfloor_Z o1) at 2. by apply Qfloor_resp_le.
  - assert (Hd : (inject_Z o1 / r * r == inject_Z o1)%Q) by (field; lra).
    assert (((inject_Z o1 / r) - 1) * r <= inject_Z (Qfloor (inject_Z o1 / r)) * r)%Q by (apply Qmult_le_compat_r; lra). lra.
Qed.

From Verif Require Import Faster.Model Offline.Model Offline.Spec Offline.Study Offline.Profile Offline.Fresh Offline.Whole.
Lemma covered_good {A S R K KS} (D : dsp A S R K) (e : engine A S R KS) c N : fresh D e c ->
  covered (rate e) (smoothTransients (opts e)) (time e) -> expectedIn e <= 0 \/ 4096 <= expectedIn e -> 4096 <= N ->
  (forall si, 32768 <= zlen (shape D si)) -> good D e N.
Proof.
  intros HF [H20 Hcov] Hex HN Hshape. pose proof (fresh_fitting D e c HF) as HT. pose proof HF as []. pose proof HT as [].
  destruct (baseSize_valid (rate e) (short (opts e)) (long (opts e)) fr_rate) as (b & Eb & Hbp & Hbr & _). rewrite fr_base in Eb. injection Eb as <-.
  assert (Ht16 : (1 # 16 <= time e)%Q) by (destruct Hcov as [?|[[? _]|[_ ?]]]; lra).
  assert (Hmain : fftSize (sz e) <= 16384 /\ (3 <= inject_Z (Sizes.increment (sz e)) * time e)%Q /\
    (((1 <= time e)%Q /\ 2 <= Sizes.increment (sz e) <= 1024) \/
     ((time e < 1)%Q /\ (Sizes.increment (sz e) = 64 \/ Sizes.increment (sz e) = 128 \/ Sizes.increment (sz e) = 256)))).
  { unfold calculateSizes, configOf in fr_fix. cbn [Sizes.realtime Sizes.threaded Sizes.highQuality Sizes.highConsistency Sizes.smoothing
      Sizes.base Sizes.rateMultiple Sizes.timeRatio Sizes.pitchScale Sizes.expected Sizes.maxProcess] in fr_fix.
    assert (Et : ltQ 0 (time e) = true) by (apply ltQ_true; lra). rewrite Et, fr_pitch in fr_fix. change (ltQ 0 1) with true in fr_fix. cbv iota in fr_fix.
    match type of fr_fix with (?x ≫= _) = _ => destruct x as [[inc w]|] eqn:E1; [|done] end.
    change (Some ?x ≫= ?f) with (f x) in fr_fix. cbv beta iota in fr_fix.
    assert (Hr : (time e * 1 == time e)%Q) by ring.
    assert (Hinc : w <= 16384 /\ 1 <= inc <= 1024 /\ (3 <= inject_Z inc * time e)%Q /\
      (((1 <= time e)%Q /\ 2 <= inc <= 1024) \/ ((time e < 1)%Q /\ (inc = 64 \/ inc = 128 \/ inc = 256)))).
    { destruct (ltQ (time e * 1) 1) eqn:El.
      - apply ltQ_true in El. eapply below_range in E1 as [Hw Hi]; [|exact Hbp|exact Hbr|rewrite Hr; lra|exact El].
        split; [done|]. split; [lia|]. rewrite Hr in El. split; [|right; done].
        destruct Hi as [->|[->| ->]]; [change (inject_Z 64) with 64%Q|change (inject_Z 128) with 128%Q|change (inject_Z 256) with 256%Q]; lra.
      - apply ltQ_false in El. eapply above_range in E1 as (Hw & Hi & Hi3); [|exact Hbp|exact Hbr|exact El|rewrite Hr; lra].
        rewrite Hr in El, Hi3. split; [done|]. split; [lia|]. split; [done|]. left. split; [done|lia]. }
    destruct Hinc as (Hw & Hi & H3 & Hcase).
    assert (Hexp : (if 0 <? expectedIn e then while_loop (halvings inc) (fun i => (expectedIn e <? i * 4) && (1 <? i)) (fun i => i / 2) inc else Some inc) = Some inc).
    { destruct (Z.ltb_spec 0 (expectedIn e)); [|done]. unfold halvings. cbn [while_loop].
      rewrite (proj2 (Z.ltb_ge (expectedIn e) (inc * 4))) by lia. done. }
    rewrite Hexp in fr_fix. change (Some ?x ≫= ?f) with (f x) in fr_fix. cbv beta zeta in fr_fix.
    injection fr_fix as Esz. rewrite <- Esz. cbn [fftSize Sizes.increment]. done. }
  destruct Hmain as (Hfft & H3 & Hcase).
  assert (Hi : Sizes.increment (sz e) <= 1024 /\ 1 <= Sizes.increment (sz e)) by (destruct Hcase as [[_ ?]|[_ ?]]; lia).
  constructor.
  - lia.
  - done.
  - destruct Hcase as [[Hge _]|[Hlt Hi']].
    + assert (inject_Z (Sizes.increment (sz e)) <= inject_Z N)%Q by (rewrite <- Zle_Qle; lia).
      assert (0 <= inject_Z N)%Q by (change 0%Q with (inject_Z 0); rewrite <- Zle_Qle; lia). nra.
    + assert (inject_Z (Sizes.increment (sz e)) <= 256)%Q by (change 256%Q with (inject_Z 256); rewrite <- Zle_Qle; lia).
      assert (4096 <= inject_Z N)%Q by (change 4096%Q with (inject_Z 4096); rewrite <- Zle_Qle; lia). nra.
  - unfold roomyRatio. destruct Hcase as [[Hge ?]|[Hlt Hi']]; [left; split; [done|lia]|].
    destruct Hcov as [Hc|[[Hc Hr16]|[-> _]]]; [| |right; by left].
    + right. right. destruct Hi' as [->|[->| ->]].
      * exists 3. change (inject_Z 64) with 64%Q. change (inject_Z 3) with 3%Q. split; [lia|]. split; [lia|lra].
      * exists 3. change (inject_Z 128) with 128%Q. change (inject_Z 3) with 3%Q. split; [lia|]. split; [lia|lra].
      * exists 2. change (inject_Z 256) with 256%Q. change (inject_Z 2) with 2%Q. split; [lia|]. split; [lia|lra].
    + right. right. exists 4. change (inject_Z 4) with 4%Q. split; [lia|].
      destruct Hi' as [->|[->| ->]]; [change (inject_Z 64) with 64%Q|change (inject_Z 128) with 128%Q|change (inject_Z 256) with 256%Q]; (split; [lia|lra]).
  - intros si. specialize (Hshape si). rewrite ft_win. destruct (smoothOn (opts e)); lia.
Qed.
