(** Proofs about the guide. *)
From stdpp Require Import prelude list numbers.
From Coq Require Import ZArith QArith Qround Lia Lqa.
From Verif Require Import Base.Arith MathMisc.Model MathMisc.Proofs Finer.PeakModel Finer.SegmenterModel Finer.GuideModel Finer.GuideSpec.
From stdpp Require Import list.
Local Open Scope Z_scope.

Lemma ltq_true a b : ltq a b = true <-> (a < b)%Q.
Proof. unfold ltq. rewrite negb_true_iff. split; intros H; [apply Qnot_le_lt; intros H1; apply Qle_bool_iff in H1; congruence|apply not_true_is_false; rewrite Qle_bool_iff; intros H1; lra]. Qed.
Lemma ltq_false a b : ltq a b = false <-> (b <= a)%Q.
Proof. unfold ltq. rewrite negb_false_iff. apply Qle_bool_iff. Qed.
Lemma floor_is q k : (inject_Z k <= q)%Q -> (q < inject_Z k + 1)%Q -> Qfloor q = k.
Proof.
  intros H1 H2. destruct (floor_bounds q) as [H3 H4]. apply Z.le_antisymm; apply Q_lt_Z; lra.
Qed.
Lemma cround_is q k : (0 <= q)%Q -> (inject_Z k - (1 # 2) <= q)%Q -> (q < inject_Z k + (1 # 2))%Q -> cround q = k.
Proof. intros H0 H1 H2. unfold cround. destruct (Qlt_le_dec q 0); [lra|]. apply floor_is; lra. Qed.
Lemma bin_bounds f n rate : (0 <= f)%Q -> 0 < n -> (0 < rate)%Q -> 0 <= binForFrequency f n rate.
Proof.
  intros H1 H2 H3. unfold binForFrequency. apply cround_nonneg. apply Qlt_le_trans with 0%Q; [lra|].
  apply Qle_shift_div_l; [done|]. rewrite Qmult_0_l. apply Qmult_le_0_compat; [done|]. change 0%Q with (inject_Z 0). rewrite <- Zle_Qle. lia.
Qed.

(** The sizes. *)
Lemma guide_sizes r single : (8000 <= r)%Q -> (r <= 192000)%Q -> exists g n, newGuide r single = Some g /\ 1024 <= n /\ n mod 4 = 0 /\ (r <= inject_Z (32 * n))%Q /\
  rate g = r /\ singleWindow g = single /\ cfft g = n /\
  if single then longest g = n /\ shortest g = n /\ bandLimit g = [bandLimits n r 0 (r / 2)]
  else longest g = n * 2 /\ shortest g = n / 2 /\
    bandLimit g = [bandLimits (n * 2) r 0 1100; bandLimits n r 0 (r / 2); bandLimits (n / 2) r 4000 (r / 2)] /\
    minLower g = 500%Q /\ minHigher g = 4000%Q /\ defaultLower g = 700%Q /\ defaultHigher g = 4800%Q /\ maxLower g = 1100%Q /\ maxHigher g = 7000%Q.
Proof.
  intros H1 H2. destruct (roundUpDiv_spec r 32) as (m & E & (k & Hk & Em) & Hm & _); [lia|lra| |].
  { assert (192000 <= inject_Z 32 * inject_Z (2 ^ 63))%Q by (vm_compute; discriminate). lra. }
  unfold newGuide. rewrite E. cbn [mbind option_bind]. eexists _, (if m <? 1024 then 1024 else m). split; [done|].
  assert (Hn : 1024 <= (if m <? 1024 then 1024 else m)) by (destruct (Z.ltb_spec m 1024); lia).
  assert (H4 : (if m <? 1024 then 1024 else m) mod 4 = 0).
  { destruct (Z.ltb_spec m 1024) as [Hlt|Hge]; [done|]. assert (10 <= k) by (apply Z.nlt_ge; intros Hc; assert (2 ^ k < 2 ^ 10) by (apply Z.pow_lt_mono_r; lia); lia).
    rewrite Em. replace k with ((k - 2) + 2) by lia. rewrite Z.pow_add_r by lia. change (2 ^ 2) with 4. apply Z_mod_mult. }
  split; [done|]. split; [done|]. split.
  - assert (Hm2 : (r <= inject_Z (32 * m))%Q).
    { rewrite inject_Z_mult. change (inject_Z 32) with 32%Q in *. assert (r == r / 32 * 32)%Q by field. lra. }
    destruct (Z.ltb_spec m 1024) as [Hlt|Hge]; [|done]. eapply Qle_trans; [exact Hm2|]. rewrite <- Zle_Qle. lia.
  - destruct single; cbn; split_and!; done.
Qed.
  Lemma at_some {A} (l : list A) i : 0 <= i < Z.of_nat (length l) -> exists x, at_ l i = Some x.
  Proof. intros H. unfold at_. destruct (Z.ltb_spec i 0); [lia|]. destruct (lookup_lt_is_Some_2 l (Z.to_nat i)) as [x ->]; [lia|]. eauto. Qed.
  Lemma sumBins_some m bins : Forall (fun i => 0 <= i < Z.of_nat (length m)) bins -> forall acc, exists x, sumBins m bins acc = Some x.
  Proof.
    induction bins as [|i bins IH]; intros H acc; cbn [sumBins]; [eauto|]. apply Forall_cons in H as [H1 H2]. destruct (at_some m i H1) as [x ->]. cbn [mbind option_bind]. by apply IH.
  Qed.
(** A guide as it is constructed; [n] the classification FFT size. *)
Record setup (r : Q) (single : bool) (g : guide) (n : Z) : Prop := Setup {
  Hr1 : (8000 <= r)%Q; Hr2 : (r <= 192000)%Q; Hn : 1024 <= n; Hn4 : n mod 4 = 0; Er : rate g = r; Es : singleWindow g = single; En : cfft g = n;
  Hsz : if single then longest g = n /\ shortest g = n /\ bandLimit g = [bandLimits n r 0 (r / 2)]
    else longest g = n * 2 /\ shortest g = n / 2 /\
      bandLimit g = [bandLimits (n * 2) r 0 1100; bandLimits n r 0 (r / 2); bandLimits (n / 2) r 4000 (r / 2)] /\
      minLower g = 500%Q /\ minHigher g = 4000%Q /\ defaultLower g = 700%Q /\ defaultHigher g = 4800%Q /\ maxLower g = 1100%Q /\ maxHigher g = 7000%Q
}.
Lemma kick_some r single g n m p : setup r single g n -> Z.of_nat (length m) = n / 2 + 1 -> Z.of_nat (length p) = n / 2 + 1 -> exists b, checkPotentialKick g m p = Some b.
Proof.
  intros St H1 H2. pose proof St as [Hr1 Hr2 Hn Hn4 Er Es En Hsz]. unfold checkPotentialKick. set (b := binForFrequency 200 (cfft g) (rate g)).
  assert (Hb : b <= n / 2).
  { unfold b, binForFrequency. rewrite Er, En. set (q := (200 * inject_Z n / r)%Q). destruct (cround_near q) as [H3 _].
    assert (Hnq : (1024 <= inject_Z n)%Q) by (change 1024%Q with (inject_Z 1024); by rewrite <- Zle_Qle).
    assert (Hq : (q <= inject_Z n * (1 # 40))%Q). { unfold q. apply Qle_shift_div_r; [lra|]. nra. }
    apply Z.div_le_lower_bound; [lia|]. apply Q_lt_Z. rewrite inject_Z_mult. change (inject_Z 2) with 2%Q. lra. }
  assert (Hs : Forall (fun i => 0 <= i < n / 2 + 1) (seqZ 1 b)) by (apply Forall_forall; intros i Hi; apply elem_of_seqZ in Hi; lia).
  destruct (sumBins_some m (seqZ 1 b)) with (acc := 0%Q) as [x ->]; [by rewrite H1|]. cbn [mbind option_bind].
  destruct (sumBins_some p (seqZ 1 b)) with (acc := 0%Q) as [y ->]; [by rewrite H2|]. cbn [mbind option_bind]. eauto.
Qed.
Lemma descend_some r single g n m k : setup r single g n -> Z.of_nat (length m) = n / 2 + 1 -> forall b, 0 <= b <= n / 2 -> exists b', descend k (n / 2) m b = Some b' /\ 0 <= b' <= n / 2.
Proof.
  intros St Hl. pose proof St as [Hr1 Hr2 Hn Hn4 Er Es En Hsz]. induction k as [|k IH]; intros b Hb; cbn [descend]; [eauto|].
  destruct (Z.ltb_spec b (n / 2)).
  - destruct (at_some m (b + 1)) as [x ->]; [lia|]. destruct (at_some m b) as [y ->]; [lia|]. cbn [mbind option_bind]. destruct (ltq x y); [apply IH; lia|].
    destruct (Z.ltb_spec 0 b).
    + destruct (at_some m (b - 1)) as [z ->]; [lia|]. cbn [mbind option_bind]. destruct (ltq z y); [apply IH; lia|eauto].
    + cbn [mbind option_bind]. eauto.
  - cbn [mbind option_bind]. destruct (Z.ltb_spec 0 b).
    + destruct (at_some m (b - 1)) as [z ->]; [lia|]. destruct (at_some m b) as [y ->]; [lia|]. cbn [mbind option_bind]. destruct (ltq z y); [apply IH; lia|eauto].
    + cbn [mbind option_bind]. eauto.
Qed.
(** The valley: the frequency of a bin, or one of the special cases. *)
Lemma valley_some r single g n f m : setup r single g n -> Z.of_nat (length m) = n / 2 + 1 -> (0 <= f)%Q -> exists f', descendToValley g f m = Some f' /\ (0 <= f' /\ (f' == f /\ (f == 0 \/ f == r / 2) \/ f' <= r / 2))%Q.
Proof.
  intros St Hl Hf. pose proof St as [Hr1 Hr2 Hn Hn4 Er Es En Hsz]. unfold descendToValley. rewrite Er, En.
  destruct (Qeq_bool f 0) eqn:E0; [apply Qeq_bool_iff in E0; exists f; split; [done|]; split; [done|]; left; split; [reflexivity|by left]|].
  destruct (Qeq_bool f (r / 2)) eqn:E1; [apply Qeq_bool_iff in E1; exists f; split; [done|]; split; [done|]; left; split; [reflexivity|by right]|].
  cbn [orb]. pose proof (bin_bounds f n r Hf ltac:(lia) ltac:(lra)) as Hb0.
  assert (Hn2 : 0 <= n / 2) by (apply Z.div_pos; lia).
  destruct (descend_some _ _ _ _ m 3 St Hl (binForFrequency f n r `min` (n / 2))) as (b & -> & Hb); [lia|]. cbn [mbind option_bind]. eexists. split; [done|].
  assert (Hnq : (0 < inject_Z n)%Q) by (change 0%Q with (inject_Z 0); rewrite <- Zlt_Qlt; lia).
  assert (Hbq : (0 <= inject_Z b)%Q) by (change 0%Q with (inject_Z 0); rewrite <- Zle_Qle; lia).
  assert (Hb2 : (2 * inject_Z b <= inject_Z n)%Q).
  { change 2%Q with (inject_Z 2). rewrite <- inject_Z_mult, <- Zle_Qle. pose proof (Z.mul_div_le n 2 ltac:(lia)). lia. }
  unfold frequencyForBin. split; [apply Qle_shift_div_l; [done|]; rewrite Qmult_0_l; apply Qmult_le_0_compat; lra|]. right.
  apply Qle_shift_div_r; [done|]. assert (r / 2 * inject_Z n == r * (inject_Z n * (1 # 2)))%Q as -> by field. nra.
Qed.

(** What is known from frame to frame. *)
Definition carry (s : guidance) : Prop := (0 <= f1 (band0 s) /\ 0 <= f1 (band1 s))%Q.
Definition good (r : Q) (single : bool) (g : guide) (s : guidance) : Prop :=
  contiguous r s /\ locks_stop r s /\ kicks_apart s /\ (single = true \/ (9600 <= r)%Q -> upwards s /\ within (bandLimit g) s) /\
  (single = false -> Forall2 (fun l b => lfft l = fftSize b) (bandLimit g) (used s)) /\ carry s.

Lemma half_pos r single g n : setup r single g n -> (0 <= r / 2)%Q.
Proof. intros St. pose proof St as [Hr1 Hr2 Hn Hn4 Er Es En Hsz]. apply Qle_shift_div_l; lra. Qed.

(** The three ways the bands are set; [lo] and [hi] the splits. *)
Definition split_at (r : Q) (n : Z) (lo hi : Q) (s : guidance) : Prop :=
  fftBandCount s = 3 /\ band0 s = FftBand (n * 2) 0 lo /\ band1 s = FftBand n lo hi /\ band2 s = FftBand (n / 2) hi (r / 2).
Definition splits_ok (r lo hi : Q) : Prop :=
  (0 <= lo)%Q /\ (0 <= hi)%Q /\ ((9600 <= r)%Q -> (lo <= hi /\ hi <= r / 2 /\ lo <= 1100 /\ (4000 <= hi))%Q).
Lemma split_good r single g n lo hi s : setup r single g n -> single = false -> split_at r n lo hi s -> splits_ok r lo hi -> locks_stop r s -> kicks_apart s -> good r single g s.
Proof.
  intros St Hs (H1 & H2 & H3 & H4) (H5 & H6 & H7) Hl Hk. pose proof St as [Hr1 Hr2 Hn Hn4 Er Es En Hsz]. rewrite Hs in Hsz. destruct Hsz as (_ & _ & Eb & _). unfold good.
  split; [right; rewrite H1, H2, H3, H4; cbn; done|]. split; [done|]. split; [done|]. split; [|split].
  - intros [Hc|Hc]; [congruence|]. destruct (H7 Hc) as (G1 & G2 & G3 & G4). unfold upwards, within, used. rewrite H1, Eb, H2, H3, H4. change (Z.to_nat 3) with 3%nat. cbn [take].
    pose proof (half_pos _ _ _ _ St). split; repeat constructor; cbn [f0 f1 fftSize lfft f0min f1max bandLimits]; try lra; try done; right; lra.
  - intros _. unfold used. rewrite H1, Eb, H2, H3, H4. change (Z.to_nat 3) with 3%nat. cbn [take]. repeat constructor.
  - unfold carry. rewrite H2, H3. cbn [f1]. done.
Qed.
Lemma single_good r single g n s : setup r single g n -> single = true -> fftBandCount s = 1 -> band0 s = FftBand n 0 (r / 2) -> (0 <= f1 (band1 s))%Q -> locks_stop r s -> kicks_apart s -> good r single g s.
Proof.
  intros St Hs H1 H2 Hc Hl Hk. pose proof St as [Hr1 Hr2 Hn Hn4 Er Es En Hsz]. rewrite Hs in Hsz. destruct Hsz as (_ & _ & Eb). pose proof (half_pos _ _ _ _ St). unfold good.
  split; [left; by rewrite H1, H2|]. split; [done|]. split; [done|]. split; [|split; [congruence|]].
  - intros _. unfold upwards, within, used. rewrite H1, H2, Eb. change (Z.to_nat 1) with 1%nat. cbn [take]. split; repeat constructor; cbn [f0 f1 fftSize lfft f0min f1max bandLimits]; try lra; right; lra.
  - unfold carry. rewrite H2. done.
Qed.

Definition apart (s : guidance) : Prop := present (kick s) = false /\ present (preKick s) = false.
Lemma apart_ok s : apart s -> kicks_apart s.
Proof. intros [H1 H2]. unfold kicks_apart. rewrite H1, H2. split; [intros [? ?]; done|]. done. Qed.
(** After the preparation. *)
Definition ready (r : Q) (single : bool) (n : Z) (s : guidance) : Prop := apart s /\ locks_stop r s /\ carry s /\
  if single then fftBandCount s = 1 /\ band0 s = FftBand n 0 (r / 2)
  else fftBandCount s = 3 /\ fftSize (band0 s) = n * 2 /\ fftSize (band1 s) = n /\ fftSize (band2 s) = n / 2.
Lemma prepare_ready r single g n q h s : setup r single g n -> carry s -> apart s -> ready r single n (prepare g q h s).
Proof.
  intros St [H1 H2] [H3 H4]. pose proof St as [Hr1 Hr2 Hn Hn4 Er Es En Hsz]. unfold prepare, ready. rewrite Es, Er, En. pose proof (half_pos _ _ _ _ St). destruct single.
  - cbn [apart kick preKick lockCount locks_stop carry band0 band1 f1 fftBandCount]. split; [done|]. split; [left; split; [done|]; cbn; by destruct (ltq _ _)|]. split; [done|]. done.
  - destruct Hsz as (-> & -> & _). split; [done|]. split; [by right|]. split; [done|]. done.
Qed.
Lemma silence_good r single g n s : setup r single g n -> ready r single n s -> good r single g (updateForSilence g s).
Proof.
  intros St (H1 & H2 & [H3 H3'] & H4). pose proof St as [Hr1 Hr2 Hn Hn4 Er Es En Hsz]. pose proof (half_pos _ _ _ _ St) as Hh. unfold updateForSilence. rewrite Es, Er. destruct single eqn:Esg.
  - apply (single_good _ _ _ n); [done|done|apply H4|apply H4|done|done|by apply apart_ok].
  - destruct H4 as (H4 & H5 & H6 & H7). apply (split_good _ _ _ n 0 (r / 2)); [done|done| | |done|by apply apart_ok].
    + unfold split_at. cbn. unfold setF. rewrite H5, H6, H7. done.
    + split; [lra|]. split; [done|]. intros H. split; [done|]. split; [lra|]. split; [lra|]. apply Qle_shift_div_l; lra.
Qed.
Lemma unity_good r single g n s had seg rt : setup r single g n -> ready r single n s -> good r single g (updateForUnity g s had seg rt).
Proof.
  intros St H. pose proof St as [Hr1 Hr2 Hn Hn4 Er Es En Hsz]. unfold updateForUnity. destruct rt; cbn [negb]; [|by apply (silence_good _ _ _ n)].
  assert (Hgen : forall rg, good r single g (withReset (if singleWindow g then s else withBands s (setF (band0 s) 0 (minLower g)) (setF (band1 s) (minLower g) (minHigher g)) (setF (band2 s) (minHigher g) (rate g / 2))) rg)).
  { intros rg. destruct H as (H1 & H2 & [H3 H3'] & H4). rewrite Es, Er. destruct single eqn:Esg.
    - apply (single_good _ _ _ n); [done|done|apply H4|apply H4|done|done|by apply apart_ok].
    - destruct H4 as (H4 & H5 & H6 & H7). destruct Hsz as (_ & _ & _ & -> & -> & _). apply (split_good _ _ _ n 500 4000); [done|done| | |done|by apply apart_ok].
      + unfold split_at. cbn. unfold setF. rewrite H5, H6, H7. done.
      + split; [lra|]. split; [lra|]. intros Hc. split; [lra|]. split; [|split; lra]. apply Qle_shift_div_l; lra. }
  destruct had; apply Hgen.
Qed.
Lemma choose_good r single g n q h m s : setup r single g n -> single = false -> Z.of_nat (length m) = n / 2 + 1 -> carry s -> kicks_apart s ->
  fftBandCount s = 3 -> fftSize (band0 s) = n * 2 -> fftSize (band1 s) = n -> fftSize (band2 s) = n / 2 -> lockCount s = 4 ->
  exists s', chooseBands g q h m s = Some s' /\ good r single g s' /\ (kick s', preKick s', channelLock s', highUnlocked s', phaseReset s') = (kick s, preKick s, channelLock s, highUnlocked s, phaseReset s).
Proof.
  intros St Hs Hl [Hc1 Hc2] Hk H1 H2 H3 H4 H5. pose proof St as [Hr1 Hr2 Hn Hn4 Er Es En Hsz]. unfold chooseBands.
  destruct (valley_some _ _ _ _ (f1 (band0 s)) m St Hl Hc1) as (lo & -> & Hlo & _). cbn [mbind option_bind].
  destruct (valley_some _ _ _ _ (f1 (band1 s)) m St Hl Hc2) as (hi & -> & Hhi & Hhi'). cbn [mbind option_bind].
  eexists. split; [done|]. split; [|done]. rewrite Hs in Hsz. destruct Hsz as (_ & _ & _ & E1 & E2 & E3 & E4 & E5 & E6). rewrite E1, E2, E3, E4, E5, E6, Er. pose proof (half_pos _ _ _ _ St) as Hh.
  set (lower := if ltq 1100 lo || ltq lo 500 then 700%Q else lo). set (higher := if ltq 7000 hi || ltq hi 4000 then 4800%Q else hi).
  assert (Hlower : (500 <= lower /\ lower <= 1100)%Q).
  { unfold lower. destruct (ltq 1100 lo) eqn:F1; [cbn; lra|]. destruct (ltq lo 500) eqn:F2; [cbn; lra|]. cbn [orb]. apply ltq_false in F1, F2. done. }
  assert (Hhigher : (4000 <= higher /\ higher <= 7000 /\ (9600 <= r -> higher <= r / 2))%Q).
  { assert (H48 : (9600 <= r -> 4800 <= r / 2)%Q) by (intros Hx; apply Qle_shift_div_l; lra).
    unfold higher. destruct (ltq 7000 hi) eqn:F1; [cbn; split; [lra|]; split; [lra|done]|]. destruct (ltq hi 4000) eqn:F2; [cbn; split; [lra|]; split; [lra|done]|]. cbn [orb]. apply ltq_false in F1, F2.
    split; [done|]. split; [done|]. intros _. destruct Hhi' as [[Ea [Eb|Eb]]|Ea]; [lra|lra|done]. }
  apply (split_good _ _ _ n lower (if 256 <? h then r / 2 else higher)%Q); [done|done| | | |done].
  - unfold split_at. cbn. unfold setF. rewrite H2, H3, H4. done.
  - destruct Hlower, Hhigher as (? & ? & Hny). assert (H40 : (4000 <= r / 2)%Q) by (apply Qle_shift_div_l; lra).
    split; [lra|]. destruct (256 <? h).
    + split; [done|]. intros _. split; [lra|]. split; [lra|]. split; lra.
    + split; [lra|]. intros Hc. specialize (Hny Hc). split; [lra|]. split; [lra|]. split; lra.
  - right. cbn. done.
Qed.
Lemma good_ranges r single g s k p h x c : good r single g s -> kicks_apart (withRanges s k p h x c) -> good r single g (withRanges s k p h x c).
Proof. intros (H1 & H2 & H3 & H4 & H5 & H6) Hk. split; [exact H1|]. split; [exact H2|]. split; [exact Hk|]. split; [exact H4|]. split; [exact H5|exact H6]. Qed.

Lemma update_good r single g n a s : setup r single g n -> carry s -> frame_ok g a -> exists s', updateGuidance g a s = Some s' /\ good r single g s'.
Proof.
  intros St Hc (Hm1 & Hm2 & Hm3). pose proof St as [Hr1 Hr2 Hn Hn4 Er Es En Hsz]. rewrite En in Hm1, Hm2, Hm3. unfold updateGuidance. cbv zeta.
  set (s1 := withRanges s _ _ _ _ _). assert (Hrd : ready r single n (prepare g (ratio a) (outhop a) s1)) by (by apply prepare_ready). set (s2 := prepare g (ratio a) (outhop a) s1) in *.
  destruct (resetOnSilence a && _); [eexists; split; [done|by apply (silence_good _ _ _ n)]|].
  destruct (0 <? unityCount a); [eexists; split; [done|by apply (unity_good _ _ _ n)]|].
  destruct Hrd as (R1 & R2 & R3 & R4).
  assert (Hkk : exists k fk, (if singleWindow g then Some (false, false) else detectKicks g (magnitudes a) (prevMagnitudes a) (nextMagnitudes a) (segm a) (prevSegm a) (nextSegm a)) = Some (k, fk) /\
    (k = true -> 40 < percussiveBelow (segm a))%Q /\ (k = false -> fk = true -> 40 < percussiveBelow (nextSegm a))%Q).
  { rewrite Es. destruct single; [by exists false, false|]. unfold detectKicks. destruct (kick_some _ _ _ _ (magnitudes a) (prevMagnitudes a) St Hm1 Hm2) as [k ->]. destruct (kick_some _ _ _ _ (nextMagnitudes a) (magnitudes a) St Hm3 Hm1) as [fk ->].
    destruct (ltq 40 (percussiveBelow (segm a))) eqn:E1; [destruct (ltq (percussiveBelow (prevSegm a)) 40) eqn:E2|]; cbn [andb mbind option_bind].
    - apply ltq_true in E1. destruct k; cbn [negb andb mbind option_bind].
      + exists true, false. split; [done|]. split; [intros _; exact E1|done].
      + destruct (ltq 40 (percussiveBelow (nextSegm a))) eqn:E3; cbn [andb mbind option_bind]; [|by exists false, false]. apply ltq_true in E3.
        destruct (ltq (percussiveBelow (segm a)) 40); cbn [mbind option_bind]; eexists _, _; (split; [done|]; split; [done|]; intros _ _; exact E3).
    - cbn [negb andb]. destruct (ltq 40 (percussiveBelow (nextSegm a))) eqn:E3; cbn [andb mbind option_bind]; [|by exists false, false]. apply ltq_true in E3.
      destruct (ltq (percussiveBelow (segm a)) 40); cbn [mbind option_bind]; eexists _, _; (split; [done|]; split; [done|]; intros _ _; exact E3).
    - cbn [negb andb]. destruct (ltq 40 (percussiveBelow (nextSegm a))) eqn:E3; cbn [andb mbind option_bind]; [|by exists false, false]. apply ltq_true in E3.
      destruct (ltq (percussiveBelow (segm a)) 40); cbn [mbind option_bind]; eexists _, _; (split; [done|]; split; [done|]; intros _ _; exact E3). }
  destruct Hkk as (k & fk & -> & Hk1 & Hk2). change (Some ?x ≫= ?f) with (f x). cbv beta iota zeta.
  set (s3 := withRanges s2 _ _ _ _ _).
  assert (Hk3 : kicks_apart s3).
  { destruct R1 as [P1 P2]. unfold kicks_apart, s3. cbn [kick preKick withRanges]. destruct k; [|destruct fk].
    - rewrite P2. cbn. split; [intros [? ?]; done|]. split; [auto|done].
    - rewrite P1. cbn. split; [intros [? ?]; done|]. split; [done|auto].
    - rewrite P1, P2. split; [intros [? ?]; done|]. done. }
  assert (Hs4 : exists s4, (if singleWindow g then Some s3 else chooseBands g (ratio a) (outhop a) (magnitudes a) s3) = Some s4 /\ good r single g s4 /\ (kick s4, preKick s4) = (kick s3, preKick s3)).
  { rewrite Es. destruct single eqn:Esg.
    - exists s3. split; [done|]. split; [|done]. destruct R3. apply (single_good _ _ _ n); [done|done|apply R4|apply R4|done|done|done].
    - destruct R4 as (Q1 & Q2 & Q3 & Q4). destruct R2 as [[R2 _]|[R2 _]]; [unfold s2, prepare in R2; rewrite Es in R2; cbn in R2; lia|].
      destruct (choose_good r false g n (ratio a) (outhop a) (magnitudes a) s3) as (s4 & E4 & G4 & Hsame); try done.
      exists s4. split; [done|]. split; [done|]. congruence. }
  destruct Hs4 as (s4 & -> & G4 & E4). change (Some ?x ≫= ?f) with (f x). cbv beta iota zeta.
  destruct (ltq 2 (ratio a)); [|eexists; split; [done|done]]. eexists. split; [done|]. apply good_ranges; [done|]. injection E4 as E5 E6.
  unfold kicks_apart in *. cbn [kick preKick withRanges]. rewrite E5, E6. exact Hk3.
Qed.
Lemma run_good r single g n l : setup r single g n -> forall s, carry s -> Forall (frame_ok g) l -> exists gs, guideRun g s l = Some gs /\ length gs = length l /\ Forall (good r single g) gs.
Proof.
  intros St. pose proof St as [Hr1 Hr2 Hn Hn4 Er Es En Hsz]. induction l as [|a l IH]; intros s Hc Hl; cbn [guideRun]; [by exists []|]. apply Forall_cons in Hl as [H1 H2].
  destruct (update_good r single g n a s St Hc H1) as (s' & -> & G). cbn [mbind option_bind]. destruct (IH s') as (gs & -> & E & F); [apply G|done|]. cbn [mbind option_bind].
  exists (s' :: gs). split; [done|]. split; [cbn; lia|by constructor].
Qed.

Lemma history_good r single frames : (8000 <= r)%Q -> (r <= 192000)%Q -> exists g, newGuide r single = Some g /\ (Forall (frame_ok g) frames ->
  exists gs, guideRun g guidance0 frames = Some gs /\ length gs = length frames /\
    Forall (fun s => contiguous r s /\ locks_stop r s /\ kicks_apart s /\ (single = true \/ (9600 <= r)%Q -> upwards s /\ within (bandLimit g) s)) gs).
Proof.
  intros H1 H2. destruct (guide_sizes r single H1 H2) as (g & n & E & Hn & Hn4 & _ & Er & Es & En & Hsz). exists g. split; [done|]. intros Hl.
  destruct (run_good r single g n frames ltac:(by constructor) guidance0) as (gs & Eg & Hlen & Hg); [split; cbn; lra|done|]. exists gs. split; [done|]. split; [done|].
  eapply Forall_impl; [exact Hg|]. intros s (G1 & G2 & G3 & G4 & _). done.
Qed.
(** The bins whose phases are computed exist. *)
Lemma limits_fit r single g : (8000 <= r)%Q -> (r <= 192000)%Q -> newGuide r single = Some g ->
  Forall (fun l => 0 <= b0min l /\ b0min l <= b1max l /\ b1max l <= lfft l / 2) (bandLimit g).
Proof.
  intros H1 H2 Eg. destruct (guide_sizes r single H1 H2) as (g' & n & E & Hn & Hn4 & _ & Er & Es & En & Hsz). assert (g' = g) as -> by congruence.
  assert (Hnq : (1024 <= inject_Z n)%Q) by (change 1024%Q with (inject_Z 1024); by rewrite <- Zle_Qle).
  assert (Hgen : forall m fa fb, 0 < m -> m mod 2 = 0 -> (0 <= fa)%Q -> (fa <= fb)%Q -> (fb <= r / 2)%Q ->
    0 <= b0min (bandLimits m r fa fb) /\ b0min (bandLimits m r fa fb) <= b1max (bandLimits m r fa fb) /\ b1max (bandLimits m r fa fb) <= lfft (bandLimits m r fa fb) / 2).
  { intros m fa fb Hm Hm2 Ha Hab Hb. cbn [b0min b1max lfft bandLimits]. assert (Hmq : (0 < inject_Z m)%Q) by (change 0%Q with (inject_Z 0); rewrite <- Zlt_Qlt; lia).
    destruct (floor_bounds (fa * inject_Z m / r)) as [F1 F2]. destruct (ceil_bounds (fb * inject_Z m / r)) as [C1 C2].
    assert (Ha' : (0 <= fa * inject_Z m / r)%Q) by (apply Qle_shift_div_l; [lra|]; rewrite Qmult_0_l; apply Qmult_le_0_compat; lra).
    assert (Hab' : (fa * inject_Z m / r <= fb * inject_Z m / r)%Q) by (apply Qmult_le_compat_r; [apply Qmult_le_compat_r; lra|]; apply Qinv_le_0_compat; lra).
    assert (Hb' : (fb * inject_Z m / r <= inject_Z m * (1 # 2))%Q) by (apply Qle_shift_div_r; [lra|]; assert (r / 2 == r * (1 # 2))%Q by field; nra).
    split; [apply Q_lt_Z; change (inject_Z 0) with 0%Q; lra|]. split; [apply Q_lt_Z; lra|].
    assert (Em : m = 2 * (m / 2)) by (apply Z_div_exact_2; lia). apply Q_lt_Z. rewrite Em in Hb' at 2. rewrite inject_Z_mult in Hb'. change (inject_Z 2) with 2%Q in Hb'. lra. }
  assert (Hny : (1100 <= r / 2 /\ 4000 <= r / 2)%Q) by (split; apply Qle_shift_div_l; lra).
  assert (Hn2 : n mod 2 = 0 /\ (n / 2) mod 2 = 0 /\ 0 < n / 2).
  { assert (En4 : n = 4 * (n / 4)) by (apply Z_div_exact_2; lia). assert (n / 2 = 2 * (n / 4)) as -> by (rewrite En4 at 1; replace (4 * (n / 4)) with (2 * (n / 4) * 2) by lia; apply Z.div_mul; lia).
    split; [rewrite En4; replace (4 * (n / 4)) with (2 * (n / 4) * 2) by lia; apply Z_mod_mult|]. split; [rewrite Z.mul_comm; apply Z_mod_mult|lia]. }
  destruct Hn2 as (N1 & N2 & N3). destruct single.
  - destruct Hsz as (_ & _ & ->). constructor; [|constructor]. apply Hgen; [lia|done|lra|lra|lra].
  - destruct Hsz as (_ & _ & -> & _). constructor; [|constructor; [|constructor; [|constructor]]]; apply Hgen; try lra; try lia; try done. by rewrite Z.mul_comm, Z.mul_comm, Z_mod_mult.
Qed.

(** Where two bands meet at [f], the lower with twice the FFT size. *)
Lemma split_bins r F lo f hi : (0 < r)%Q -> 0 < F -> F mod 2 = 0 -> (0 <= lo)%Q ->
  let x := (f * inject_Z F / r)%Q in (1 <= x)%Q -> (x <= inject_Z (F / 2))%Q ->
  binForFrequency lo (2 * F) r <= 2 * Qfloor x - 1 ->
  let last := snd (synthesisBins r (FftBand (2 * F) lo f)) - 1 in let first := fst (synthesisBins r (FftBand F f hi)) in
  2 * first - last = if Qle_bool (1 # 4) (x - inject_Z (Qfloor x)) && negb (Qle_bool (1 # 2) (x - inject_Z (Qfloor x))) then 0 else 2.
Proof.
  intros Hr HF HF2 Hlo x Hx1 Hx2 Hlow. set (m := Qfloor x) in *. destruct (floor_bounds x) as [M1 M2]. fold m in M1, M2.
  assert (HF' : F = 2 * (F / 2)) by (apply Z_div_exact_2; lia).
  assert (Hm1 : 1 <= m) by (apply Q_lt_Z; change (inject_Z 1) with 1%Q; lra). assert (Hm2 : m <= F / 2) by (apply Q_lt_Z; lra).
  assert (Hlo0 : 0 <= binForFrequency lo (2 * F) r) by (apply bin_bounds; [done|lia|done]).
  assert (Ex : (f * inject_Z (2 * F) / r == 2 * x)%Q) by (unfold x; rewrite inject_Z_mult; change (inject_Z 2) with 2%Q; field; lra).
  assert (Eh : forall k, (inject_Z k - (1 # 2) <= 2 * x)%Q -> (2 * x < inject_Z k + (1 # 2))%Q -> binForFrequency f (2 * F) r = k) by (intros k K1 K2; unfold binForFrequency; apply cround_is; lra).
  assert (El : forall k, (inject_Z k - (1 # 2) <= x)%Q -> (x < inject_Z k + (1 # 2))%Q -> binForFrequency f F r = k) by (intros k K1 K2; unfold binForFrequency; apply cround_is; fold x; lra).
  assert (Hsyn : forall h l, binForFrequency f (2 * F) r = h -> binForFrequency f F r = l -> 2 * m <= h <= 2 * F / 2 -> 0 <= l <= F / 2 ->
    snd (synthesisBins r (FftBand (2 * F) lo f)) = (if h mod 2 =? 0 then h - 1 else h) /\ fst (synthesisBins r (FftBand F f hi)) = l).
  { intros h l Hh Hl Hhr Hlr. unfold synthesisBins. cbn [f0 f1 fftSize]. rewrite Hh, Hl. cbn [fst snd]. destruct (Z.ltb_spec 0 h); [|lia]. rewrite andb_true_r.
    split; [|destruct (Z.leb_spec (F / 2 + 1) l); [lia|done]].
    destruct (Z.leb_spec (2 * F / 2 + 1) (binForFrequency lo (2 * F) r)) as [Hc|Hc]; destruct (h mod 2 =? 0); repeat match goal with |- context [?a <=? ?b] => destruct (Z.leb_spec a b); try lia | |- context [?a <? ?b] => destruct (Z.ltb_spec a b); try lia end. }
  assert (H2F : 2 * F / 2 = F) by (rewrite Z.mul_comm; apply Z.div_mul; lia).
  assert (Hodd : forall k, (2 * k + 1) mod 2 = 1) by (intros k; replace (2 * k + 1) with (1 + k * 2) by lia; by rewrite Z_mod_plus_full).
  assert (Heven : forall k, (2 * k) mod 2 = 0) by (intros k; rewrite Z.mul_comm; apply Z_mod_mult).
  cbv zeta.
  assert (Hm2q : (x < inject_Z m + 1)%Q) by lra. 
  destruct (Qlt_le_dec (x - inject_Z m) (1 # 4)) as [T1|T1].
  { assert (Qle_bool (1 # 4) (x - inject_Z m) = false) as -> by (apply not_true_is_false; rewrite Qle_bool_iff; lra). cbn [andb].
    destruct (Hsyn (2 * m) m) as [-> ->]; [apply Eh; rewrite inject_Z_mult; change (inject_Z 2) with 2%Q; lra|apply El; lra|lia|lia|]. rewrite Heven. cbn [Z.eqb]. lia. }
  assert (Qle_bool (1 # 4) (x - inject_Z m) = true) as -> by (by rewrite Qle_bool_iff). cbn [andb].
  assert (Hlt : m < F / 2) by (apply Z.le_neq; split; [done|]; intros Hc; rewrite <- Hc in Hx2; lra).
  destruct (Qlt_le_dec (x - inject_Z m) (1 # 2)) as [T2|T2].
  { assert (Qle_bool (1 # 2) (x - inject_Z m) = false) as -> by (apply not_true_is_false; rewrite Qle_bool_iff; lra). cbn [negb].
    destruct (Hsyn (2 * m + 1) m) as [-> ->]; [apply Eh; rewrite inject_Z_plus, inject_Z_mult; change (inject_Z 2) with 2%Q; change (inject_Z 1) with 1%Q; lra|apply El; lra|lia|lia|]. rewrite Hodd. cbn [Z.eqb]. lia. }
  assert (Qle_bool (1 # 2) (x - inject_Z m) = true) as -> by (by rewrite Qle_bool_iff). cbn [negb].
  assert (El' : binForFrequency f F r = m + 1) by (apply El; rewrite inject_Z_plus; change (inject_Z 1) with 1%Q; lra).
  destruct (Qlt_le_dec (x - inject_Z m) (3 # 4)) as [T3|T3].
  { destruct (Hsyn (2 * m + 1) (m + 1)) as [-> ->]; [apply Eh; rewrite inject_Z_plus, inject_Z_mult; change (inject_Z 2) with 2%Q; change (inject_Z 1) with 1%Q; lra|done|lia|lia|]. rewrite Hodd. cbn [Z.eqb]. lia. }
  destruct (Hsyn (2 * (m + 1)) (m + 1)) as [-> ->]; [apply Eh; rewrite inject_Z_mult, inject_Z_plus; change (inject_Z 2) with 2%Q; change (inject_Z 1) with 1%Q; lra|done|lia|lia|]. rewrite Heven. cbn [Z.eqb]. lia.
Qed.
(** A split on a bin of the upper band, or halfway between two. *)
Lemma half_split r F lo f hi c : (0 < r)%Q -> 0 < F -> F mod 2 = 0 -> (0 <= lo)%Q -> (f * inject_Z F / r == inject_Z c / 2)%Q -> 2 <= c <= F ->
  binForFrequency lo (2 * F) r <= 2 * (c / 2) - 1 ->
  2 * fst (synthesisBins r (FftBand F f hi)) - (snd (synthesisBins r (FftBand (2 * F) lo f)) - 1) = 2.
Proof.
  intros Hr HF HF2 Hlo Ex Hc Hl. pose proof (Z.div_mod c 2 ltac:(lia)) as Hdm. pose proof (Z.mod_pos_bound c 2 ltac:(lia)) as Hmb.
  assert (Ecq : (inject_Z c / 2 == inject_Z (c / 2) + inject_Z (c mod 2) * (1 # 2))%Q) by (rewrite Hdm at 1; rewrite inject_Z_plus, inject_Z_mult; change (inject_Z 2) with 2%Q; field).
  assert (Hmq : (0 <= inject_Z (c mod 2) /\ inject_Z (c mod 2) <= 1)%Q) by (change 0%Q with (inject_Z 0); change 1%Q with (inject_Z 1); rewrite <- !Zle_Qle; lia).
  assert (Ef : Qfloor (f * inject_Z F / r) = c / 2) by (rewrite Ex, Ecq; apply floor_is; lra).
  assert (HF' : F = 2 * (F / 2)) by (apply Z_div_exact_2; lia).
  assert (Hc1 : (1 <= inject_Z (c / 2))%Q) by (change 1%Q with (inject_Z 1); rewrite <- Zle_Qle; apply Z.div_le_lower_bound; lia).
  assert (Hc2 : (inject_Z c <= 2 * inject_Z (F / 2))%Q) by (change 2%Q with (inject_Z 2); rewrite <- inject_Z_mult, <- Zle_Qle; lia).
  pose proof (split_bins r F lo f hi Hr HF HF2 Hlo) as H. cbv zeta in H. rewrite Ef in H. rewrite H; [|rewrite Ex, Ecq; lra| |done].
  - destruct (Qle_bool (1 # 4) _) eqn:E1; [|done]. destruct (Qle_bool (1 # 2) _) eqn:E2; [done|]. exfalso. apply Qle_bool_iff in E1. rewrite Ex, Ecq in E1.
    assert (E3 : ~ ((1 # 2) <= f * inject_Z F / r - inject_Z (c / 2))%Q) by (intros E3; apply Qle_bool_iff in E3; congruence). apply E3. rewrite Ex, Ecq.
    assert (Hm : c mod 2 = 0 \/ c mod 2 = 1) by lia. destruct Hm as [Hm|Hm]; rewrite Hm in E1 |- *; [change (inject_Z 0) with 0%Q in E1; lra|change (inject_Z 1) with 1%Q; lra].
  - rewrite Ex. apply Qle_shift_div_r; lra.
Qed.
Lemma aligned_split r n lo hi c : (0 < r)%Q -> 0 < n -> n mod 4 = 0 -> (0 <= lo)%Q -> 2 <= c <= n / 2 ->
  let f := frequencyForBin c n r in
  (binForFrequency lo (2 * n) r <= 2 * c - 1 -> 2 * fst (synthesisBins r (FftBand n f hi)) - (snd (synthesisBins r (FftBand (2 * n) lo f)) - 1) = 2) /\
  (binForFrequency lo n r <= 2 * (c / 2) - 1 -> 2 * fst (synthesisBins r (FftBand (n / 2) f hi)) - (snd (synthesisBins r (FftBand n lo f)) - 1) = 2).
Proof.
  intros Hr Hn Hn4 Hlo Hc f. assert (Hnq : (0 < inject_Z n)%Q) by (change 0%Q with (inject_Z 0); rewrite <- Zlt_Qlt; lia).
  assert (En4 : n = 4 * (n / 4)) by (apply Z_div_exact_2; lia). assert (Eh : n / 2 = 2 * (n / 4)) by (rewrite En4 at 1; replace (4 * (n / 4)) with (2 * (n / 4) * 2) by lia; apply Z.div_mul; lia).
  assert (Hm1 : n mod 2 = 0) by (rewrite En4; replace (4 * (n / 4)) with (2 * (n / 4) * 2) by lia; apply Z_mod_mult).
  assert (Hm2 : (n / 2) mod 2 = 0) by (rewrite Eh, Z.mul_comm; apply Z_mod_mult).
  split; intros Hl.
  - apply (half_split r n lo f hi (2 * c)); [done|done|done|done| |lia|].
    + unfold f, frequencyForBin. rewrite inject_Z_mult. change (inject_Z 2) with 2%Q. field. split; lra.
    + rewrite (Z.mul_comm 2 c), Z.div_mul by lia. lia.
  - assert (E2 : n = 2 * (n / 2)) by lia. replace (FftBand n lo f) with (FftBand (2 * (n / 2)) lo f) by (by rewrite <- E2). apply (half_split r (n / 2) lo f hi c); [done|lia|done|done| |lia|by rewrite <- E2].
    unfold f, frequencyForBin. assert (Ei : (inject_Z n == 2 * inject_Z (n / 2))%Q) by (rewrite E2 at 1; rewrite inject_Z_mult; reflexivity). rewrite Ei. field.
    assert (0 < inject_Z (n / 2))%Q by lra. split; lra.
Qed.
