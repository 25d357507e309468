(** At time ratio and pitch scale 1 the R2 engine offline keeps every sample in its place. *)
From stdpp Require Import prelude.
From Coq Require Import ZArith QArith Qround Reals Lra Lia Lqa.
From Verif Require Import Base.Arith Faster.Model Faster.Core Faster.Chunks Faster.Stream Faster.Runs Faster.RunsProofs Faster.OlaSpec Faster.Ola Faster.VocoderSpec Faster.Vocoder Faster.Hann Faster.UnityModel Faster.Unity.
From Verif Require Calculator.Model Calculator.Peaks.
From stdpp Require Import list.
Local Open Scope Z_scope.

(** ** The profile *)
Section Profile.
Context (h : Z) (Hh : 1 <= h).
Notation uniform l := (Forall (fun x => Z.abs x = h) l).

Lemma spread_uniform n : forall per acc total, (per == inject_Z h)%Q -> (acc == inject_Z total)%Q ->
  Calculator.Model.spread n per acc total = Some (replicate n h, total + Z.of_nat n * h).
Proof.
  induction n as [|n IH]; intros per acc total Hp Ha; cbn [Calculator.Model.spread].
  { cbn [replicate]. do 2 f_equal. lia. }
  assert (E : cround (acc + per - inject_Z total) = h).
  { rewrite (cround_comp _ (inject_Z h)) by (rewrite Hp, Ha; ring).
    assert (H0 : (0 <= inject_Z h)%Q) by (change 0%Q with (inject_Z 0); rewrite <- Zle_Qle; lia).
    pose proof (cround_upper _ H0) as H1. destruct (cround_near (inject_Z h)) as [H2 _].
    assert (h < cround (inject_Z h) + 1) by (apply inject_Z_inj_lt; rewrite inject_Z_plus; change (inject_Z 1) with 1%Q; lra).
    assert (cround (inject_Z h) < h + 1) by (apply inject_Z_inj_lt; rewrite inject_Z_plus; change (inject_Z 1) with 1%Q; lra). lia. }
  rewrite E. rewrite (proj2 (Z.ltb_ge h 0)) by lia. rewrite IH.
  - change (Some ?x ≫= ?f) with (f x). cbv beta iota. cbn [replicate]. do 2 f_equal. lia.
  - done.
  - rewrite Hp, Ha, inject_Z_plus. ring.
Qed.

Lemma region_uniform n r : 0 <= n -> exists l, Calculator.Model.region h (n * h) n r = Some l /\ zlen l = n /\ uniform l.
Proof.
  intros Hn. unfold Calculator.Model.region. destruct (Z.eqb_spec n 0) as [->|Hn0]; [by exists []|].
  set (first := if r then (if 1 <? n then Z.min h (n * h) else n * h) else 0).
  set (nr := if r then n - 1 else n).
  assert (Hf : first = if r then h else 0).
  { unfold first. destruct r; [|done]. destruct (Z.ltb_spec 1 n); [nia|]. assert (n = 1) by lia. subst n. lia. }
  destruct (Z.ltb_spec 0 nr) as [Hr|Hr].
  2: { assert (r = true /\ n = 1) as [-> ->] by (unfold nr in Hr; destruct r; lia). exists [- first]. rewrite Hf. split; [done|]. split; [done|]. constructor; [lia|done]. }
  assert (Hper : (inject_Z (n * h - first) / inject_Z nr == inject_Z h)%Q).
  { assert (E : n * h - first = nr * h) by (rewrite Hf; unfold nr; destruct r; lia). rewrite E, inject_Z_mult. field.
    change 0%Q with (inject_Z 0). rewrite inject_Z_injective. lia. }
  rewrite (spread_uniform _ _ _ _ Hper (Qeq_refl _)). change (Some ?x ≫= ?f) with (f x). cbv beta iota.
  set (m := Z.to_nat (nr - 1)).
  assert (Et : n * h - (first + Z.of_nat m * h) = h) by (unfold m; rewrite Z2Nat.id by lia; rewrite Hf; unfold nr; destruct r; ring).
  rewrite (proj2 (Z.ltb_lt (first + Z.of_nat m * h) (n * h))) by lia. rewrite Et.
  eexists. split; [reflexivity|]. split.
  - unfold zlen. rewrite !app_length, replicate_length. cbn. unfold m, nr in *. destruct r; cbn; lia.
  - rewrite !Forall_app. split; [destruct r; [rewrite Hf; constructor; [lia|done]|done]|]. split; [apply Forall_replicate; lia|]. constructor; [lia|done].
Qed.

Lemma regions_uniform total : 0 <= total -> forall ps sc r, 0 <= sc -> Forall (fun '(p, t) => 0 <= Calculator.Model.chunk p /\ t = Calculator.Model.chunk p * h) ps ->
  exists l, Calculator.Model.regions h (total * h) total sc (sc * h) r ps = Some l /\ uniform l.
Proof.
  intros Ht. induction ps as [|[p t] ps IH]; intros sc r Hsc Hps; cbn [Calculator.Model.regions].
  - destruct (region_uniform (Z.max (Z.min total total) (Z.min sc total) - Z.min sc total) r) as (l & E & _ & Hu); [lia|].
    replace (Z.max (Z.min (total * h) (total * h)) (Z.min (sc * h) (total * h)) - Z.min (sc * h) (total * h)) with
      ((Z.max (Z.min total total) (Z.min sc total) - Z.min sc total) * h) by (rewrite !Z.mul_min_distr_nonneg_r, Z.mul_max_distr_nonneg_r by lia; ring).
    rewrite E. eexists. split; [reflexivity|done].
  - apply Forall_cons in Hps as [[Hc ->] Hps]. set (ch := Calculator.Model.chunk p) in *.
    destruct (region_uniform (Z.max (Z.min ch total) (Z.min sc total) - Z.min sc total) r) as (l & E & _ & Hu); [lia|].
    replace (Z.max (Z.min (ch * h) (total * h)) (Z.min (sc * h) (total * h)) - Z.min (sc * h) (total * h)) with
      ((Z.max (Z.min ch total) (Z.min sc total) - Z.min sc total) * h) by (rewrite !Z.mul_min_distr_nonneg_r, Z.mul_max_distr_nonneg_r by lia; ring).
    rewrite E. destruct (IH ch (Calculator.Model.hard p) Hc Hps) as (k & Ek & Hk).
    change (Some ?x ≫= ?f) with (f x). cbv beta. rewrite Ek. eexists. split; [reflexivity|]. by apply Forall_app.
Qed.
End Profile.

(** ** The frames *)
Section Unity.
Context {T C : Type} (look : T -> list R -> T) (next : T -> Z -> bool -> T) (full : T -> bool -> bool) (resynth : T -> nat -> R)
  (curve : C -> list (bool * T) -> Q * bool * C) (w h : Z).
Notation D := (realDsp look next full resynth curve w h).
Hypotheses (Hh : 1 <= h) (Hw : 4 * h <= w).

Lemma even_advance P k : increment P = h -> Forall (fun x => Z.abs x = h) (increments P) -> phaseAdvance P k = h /\ advance P k = h.
Proof using.
  intros Ei Hu. assert (G : forall j x, getZ (increments P) j = Some x -> Z.abs x = h).
  { intros j x. unfold getZ. destruct (0 <=? j); [|done]. intros Hx. rewrite Forall_lookup in Hu. by eapply Hu. }
  assert (Hp : phaseAdvance P k = h) by (unfold phaseAdvance; destruct (getZ _ _) eqn:E; [by eapply G|done]).
  split; [done|]. unfold advance. destruct (getZ _ _) eqn:E; [by eapply G|done].
Qed.

Lemma unity_vocoder P : window P = w -> increment P = h -> Forall (fun x => Z.abs x = h) (increments P) ->
  forall n s stream k, fst s = true ->
  exists s', vocoder D P s stream (Z.of_nat k) n =
    ((fun j => (take (Z.to_nat w) (frameAt w h stream j), h)) <$> seq k n, (fun _ => (take (Z.to_nat w) (weight w h), h)) <$> seq k n, s').
Proof using.
  intros Ew Ei Hu. induction n as [|n IH]; intros s stream k Hs; [by eexists|].
  cbn [vocoder]. destruct (even_advance P (Z.of_nat k) Ei Hu) as [Ep Ea]. rewrite Ep, Ea, Ew, Ei. cbn [analyse modify shape realDsp]. unfold lookAt.
  unfold modified. cbn [fst snd]. rewrite Hs, Z.eqb_refl. cbn [andb orb].
  replace (Z.of_nat k + 1) with (Z.of_nat (S k)) by lia.
  match goal with |- context [vocoder D P ?s stream (Z.of_nat (S k)) n] => destruct (IH s stream (S k) eq_refl) as [s' E]; rewrite E end.
  exists s'. reflexivity.
Qed.

(** What the plain function gives at position [j]. *)
Lemma unity_stretched P s stream j : window P = w -> increment P = h -> Forall (fun x => Z.abs x = h) (increments P) -> fst s = true ->
  zlen (stretched D P s stream) = windows P (zlen stream) * h /\
  (0 <= j < windows P (zlen stream) * h -> exists v, getZ stream j = Some v /\ getZ (stretched D P s stream) j = Some (v * gain w h (Z.to_nat (windows P (zlen stream))) j)%R).
Proof.
  intros Ew Ei Hu Hs. unfold stretched. set (n := Z.to_nat (windows P (zlen stream))).
  assert (Hn : windows P (zlen stream) = Z.of_nat n).
  { unfold n, windows. rewrite Ew, Ei. destruct (Z.ltb_spec (zlen stream) w); [done|]. assert (0 <= (zlen stream - w) / h) by (apply Z.div_pos; lia). lia. }
  assert (Hfit : (0 < n)%nat -> (Z.of_nat n - 1) * h + w <= zlen stream).
  { intros H0. unfold windows in Hn. rewrite Ew, Ei in Hn. destruct (Z.ltb_spec (zlen stream) w); [lia|].
    assert (h * ((zlen stream - w) / h) <= zlen stream - w) by (apply Z.mul_div_le; lia). nia. }
  destruct (unity_vocoder P Ew Ei Hu n s stream 0 Hs) as [s' E]. change (Z.of_nat 0) with 0 in E. rewrite E, Hn.
  set (F := fun j => (take (Z.to_nat w) (frameAt w h stream j))).
  assert (Hsp : span ((fun k => (F k, h)) <$> seq 0 n) = Z.of_nat n * h).
  { clear. unfold span. rewrite <- list_fmap_compose. generalize 0%nat. induction n as [|n IH]; intros s; [done|].
    cbn [seq fmap list_fmap]. change (sumZ (?a :: ?l)) with (a + sumZ l). rewrite IH. cbn. lia. }
  change ((λ j0, (take (Z.to_nat w) (frameAt w h stream j0), h)) <$> seq 0 n) with ((fun k => (F k, h)) <$> seq 0 n).
  rewrite Hsp, ola_from. split; [rewrite zlen_olaFrom; lia|]. intros Hj.
  assert (Hn0 : (0 < n)%nat) by (destruct n; lia). specialize (Hfit Hn0).
  destruct (getZ stream j) as [v|] eqn:Hv.
  2: { exfalso. unfold getZ in Hv. rewrite (proj2 (Z.leb_le 0 j)) in Hv by lia. apply lookup_ge_None_1 in Hv. unfold zlen in Hfit. nia. }
  exists v. split; [done|]. rewrite getZ_olaFrom by lia. rewrite Z.add_0_l.
  pose proof (layout_even h F n 0) as L1. pose proof (layout_even h (fun _ => take (Z.to_nat w) (weight w h)) n 0) as L2.
  change (Z.of_nat 0 * h) with 0 in L1, L2. rewrite L1, L2. cbn [quot add zero one realDsp]. rewrite !sum_even. f_equal.
  assert (S1 : rsum n (fun k0 => match getZ (F k0) (j - Z.of_nat k0 * h) with Some v => v | None => 0%R end) =
    (v * rsum n (fun k => let o := (j - Z.of_nat k * h)%Z in if ((0 <=? o) && (o <? w))%Z then hann w o * hann w o else 0))%R).
  { rewrite <- rsum_scale. apply rsum_ext. intros q Hq. unfold F. rewrite take_ge by (unfold frameAt; rewrite !cut_length, take_length; lia).
    rewrite frameAt_get by nia. cbv zeta. destruct (_ && _); [|Lra.lra]. rewrite Hv. cbn. Lra.lra. }
  assert (S2 : rsum n (fun k0 => match getZ (take (Z.to_nat w) (weight w h)) (j - Z.of_nat k0 * h) with Some v => v | None => 0%R end) =
    rsum n (fun k => let o := (j - Z.of_nat k * h)%Z in if ((0 <=? o) && (o <? w))%Z then hann w o * (3/4) else 0)%R).
  { apply rsum_ext. intros q Hq. rewrite take_ge by (unfold weight; rewrite fmap_length, seq_length; lia).
    rewrite weight_get, area_half by lia. cbv zeta. destruct (_ && _); [|done]. Lra.lra. }
  rewrite S1, S2. unfold gain. rewrite Rplus_0_l. unfold Rdiv. ring.
Qed.
End Unity.

(** ** How loud *)
Lemma hann_range w o : (0 <= hann w o <= 1)%R.
Proof. unfold hann. pose proof (COS_bound (2 * PI * IZR o / IZR w)). Lra.lra. Qed.
Lemma rsum_le n (f g : nat -> R) : (forall i, (i < n)%nat -> (f i <= g i)%R) -> (rsum n f <= rsum n g)%R.
Proof. induction n as [|n IH]; intros H; cbn [rsum]; [Lra.lra|]. specialize (IH (fun i Hi => H i (Nat.lt_lt_succ_r _ _ Hi))). specialize (H n (Nat.lt_succ_diag_r n)). Lra.lra. Qed.
Lemma gain_bound w h n j : (0 <= gain w h n j <= 4 / 3)%R.
Proof.
  unfold gain. cbv zeta.
  set (N := rsum n (fun k => if (0 <=? j - Z.of_nat k * h) && (j - Z.of_nat k * h <? w) then hann w (j - Z.of_nat k * h) * hann w (j - Z.of_nat k * h) else 0)%R).
  set (E := rsum n (fun k => if (0 <=? j - Z.of_nat k * h) && (j - Z.of_nat k * h <? w) then hann w (j - Z.of_nat k * h) * (3/4) else 0)%R).
  assert (HN : (0 <= N)%R).
  { replace 0%R with (rsum n (fun _ => 0%R)) by (apply rsum_zero; done). apply rsum_le. intros k _. pose proof (hann_range w (j - Z.of_nat k * h)). destruct (_ && _); [Lra.nra|Lra.lra]. }
  assert (HE : (N <= 4/3 * E)%R).
  { unfold E. rewrite <- rsum_scale. apply rsum_le. intros k _. pose proof (hann_range w (j - Z.of_nat k * h)). destruct (_ && _); [Lra.nra|Lra.lra]. }
  set (o := if j =? 0 then 1%R else 0%R). assert (Ho : (0 <= o)%R) by (unfold o; destruct (j =? 0); Lra.lra).
  destruct (Req_dec (o + E) 0) as [H0|H0].
  - unfold Rdiv. rewrite H0, Rinv_0. Lra.lra.
  - assert (Hp : (0 < o + E)%R) by Lra.lra. split.
    + apply Rmult_le_pos; [done|]. left. by apply Rinv_0_lt_compat.
    + apply (Rmult_le_reg_r (o + E)); [done|]. unfold Rdiv. rewrite Rmult_assoc, Rinv_l by done. Lra.lra.
Qed.
