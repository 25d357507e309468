(** At time ratio and pitch scale 1 the R2 engine in real time gives back its input. *)
From stdpp Require Import prelude.
From Coq Require Import ZArith QArith Qround Reals Lra Lia Lqa.
From Verif Require Import Base.Arith Faster.Model Faster.Core Faster.Chunks Faster.Stream Faster.OlaSpec Faster.Ola Faster.VocoderSpec Faster.Vocoder Faster.RealTimeRuns Faster.RealTime Faster.RealTimeCalls Faster.RtVocoderSpec Faster.RtVocoder Faster.Hann Faster.UnityModel.
From Verif Require Calculator.Model Calculator.Single.
From stdpp Require Import list.
Local Open Scope Z_scope.

Section Unity.
Context {T C : Type} (look : T -> list R -> T) (next : T -> Z -> bool -> T) (full : T -> bool -> bool) (resynth : T -> nat -> R)
  (curve : C -> list (bool * T) -> Q * bool * C) (w h : Z).
Notation D := (realDsp look next full resynth curve w h).
Hypotheses (Hh : 1 <= h) (Hw : 4 * h <= w).

(** ** The increments *)
Lemma cround_comp a b : (a == b)%Q -> cround a = cround b.
Proof using. intros H. unfold cround. destruct (Qlt_le_dec a 0), (Qlt_le_dec b 0); try lra; [f_equal|]; apply Qfloor_comp; by rewrite H. Qed.

Definition even (c : Calculator.Model.calc) : Prop :=
  Calculator.Model.frameCheckpoint c = (0, 0) /\ (Calculator.Model.outFrameCounter c == inject_Z (Calculator.Model.inFrameCounter c))%Q /\
  (Calculator.Model.justReset c = false -> Calculator.Model.prevRatio c == 1)%Q.
Lemma unity_single c df : even c ->
  exists x c', Calculator.Model.calculateSingle c 1 1 df h w w false = (x, c') /\ Z.abs x = h /\ even c'.
Proof.
  intros (H1 & H2 & H3). unfold Calculator.Model.calculateSingle. rewrite (proj2 (Z.eqb_neq h 0)) by lia.
  assert (Hr : negb (Calculator.Model.justReset c) && negb (Qeq_bool (1 / 1) (Calculator.Model.prevRatio c)) = false).
  { destruct (Calculator.Model.justReset c); [done|]. cbn [negb andb]. apply negb_false_iff, Qeq_bool_iff. rewrite H3 by done. reflexivity. }
  rewrite Hr. unfold Calculator.Model.expectedOutFrame. rewrite H1. cbn [fst snd].
  set (t := Calculator.Model.inFrameCounter c) in *.
  assert (Ed : cround (Calculator.Model.outFrameCounter c + inject_Z (w / 4) * 1) - cround (inject_Z 0 + inject_Z (t + w / 4 - 0) * 1) = 0).
  { rewrite (cround_comp (Calculator.Model.outFrameCounter c + inject_Z (w / 4) * 1) (inject_Z 0 + inject_Z (t + w / 4 - 0) * 1)); [lia|].
    rewrite H2, Z.sub_0_r, inject_Z_plus. ring. }
  rewrite Ed. change (Calculator.Model.far 1000 0) with false. change (Calculator.Model.far 100 0) with false. cbn [negb andb].
  set (tr := (_ && negb (0 <? _))%bool).
  assert (Ei : rint (inject_Z (rint (inject_Z h * (1 / 1))) - inject_Z 0 / 4) = h).
  { assert (E1 : rint (inject_Z h * (1 / 1)) = h) by (rewrite (rint_comp _ (inject_Z h)) by (assert (E11 : (1 / 1 == 1)%Q) by reflexivity; rewrite E11; ring); apply rint_Z).
    rewrite E1. rewrite (rint_comp _ (inject_Z h)) by (unfold Qdiv; change (inject_Z 0) with 0%Q; ring). apply rint_Z. }
  rewrite Ei.
  assert (Hlo : rint (inject_Z h * (1 / 1) * (3 # 10)) <= h).
  { rewrite <- (rint_Z h) at 2. apply rint_le. assert (E11 : (1 / 1 == 1)%Q) by reflexivity. rewrite E11. assert (0 <= inject_Z h)%Q by (change 0%Q with (inject_Z 0); rewrite <- Zle_Qle; lia). lra. }
  assert (Hhi : h <= rint (inject_Z h * (1 / 1) * 2)).
  { rewrite <- (rint_Z h) at 1. apply rint_le. assert (E11 : (1 / 1 == 1)%Q) by reflexivity. rewrite E11. assert (0 <= inject_Z h)%Q by (change 0%Q with (inject_Z 0); rewrite <- Zle_Qle; lia). lra. }
  rewrite (proj2 (Z.ltb_ge h _)) by exact Hlo. rewrite (proj2 (Z.ltb_ge _ h)) by exact Hhi. rewrite (proj2 (Z.ltb_ge h 0)) by lia.
  destruct tr; do 2 eexists; (split; [reflexivity|]); (split; [lia|]); (split; [done|]); cbn [Calculator.Model.outFrameCounter Calculator.Model.inFrameCounter Calculator.Model.justReset Calculator.Model.prevRatio];
    (split; [rewrite H2, inject_Z_plus; ring|]); intros _; reflexivity.
Qed.

Definition steady (k : Calculator.Model.calc * Z * C * Z) : Prop := let '(c, prev, _, _) := k in even c /\ (prev = 0 \/ prev = h).
Lemma unity_increments k ss : steady k -> exists reset k', increments1 curve w h k ss = (h, h, reset, k') /\ steady k'.
Proof.
  destruct k as [[[c prev] d] quiet]. intros [He Hp]. unfold increments1. destruct (curve d ss) as [[df silent] d'].
  destruct (unity_single c df He) as (x & c' & E & Hx & He'). rewrite E, Hx.
  assert ((if prev =? 0 then h else prev) = h) as -> by (destruct Hp as [->| ->]; [done|]; rewrite (proj2 (Z.eqb_neq h 0)) by lia; done).
  do 2 eexists. split; [reflexivity|]. split; [done|by right].
Qed.
Lemma unity_calm : calm D w.
Proof.
  intros [[[c prev] d] quiet] ss. cbn [calculate realDsp]. unfold increments1. destruct (curve d ss) as [[df silent] d'].
  destruct (Calculator.Model.calculateSingle c 1 1 df h w w false) as [x c'] eqn:E.
  assert (Hn : (Calculator.Single.nominal c (Calculator.Model.Call 1 1 df h w w false) == inject_Z h)%Q).
  { unfold Calculator.Single.nominal, Calculator.Spec.overall. cbn. rewrite (proj2 (Z.eqb_neq h 0)) by lia. unfold Qdiv. change (/ 1)%Q with 1%Q. ring. }
  assert (H0 : (0 <= inject_Z h)%Q) by (change 0%Q with (inject_Z 0); rewrite <- Zle_Qle; lia).
  destruct (Calculator.Single.single_range c (Calculator.Model.Call 1 1 df h w w false) x c' E) as [(Hx & _)|(Hx1 & _ & Hx2)].
  - by rewrite Hn.
  - cbn [Calculator.Model.inIncr] in Hx. rewrite (proj2 (Z.eqb_neq h 0)) in Hx by lia. lia.
  - rewrite Hn in Hx2. assert (x < 2 * h + 1); [|lia]. apply inject_Z_inj_lt. rewrite inject_Z_plus, inject_Z_mult. change (inject_Z 2) with 2%Q. change (inject_Z 1) with 1%Q. lra.
Qed.

(** ** The frames *)
Lemma cut_length x : length (cut w x) = length x.
Proof. unfold cut. by rewrite imap_length. Qed.
Lemma unity_sane P : window P = w -> increment P = h -> (pitchScale P == 1)%Q -> after P = false -> sane D P.
Proof.
  intros Ew Eh Hp Haf. constructor; try lia; cbn [analyse modify shape resample realDsp]; try (rewrite Haf; discriminate).
  - rewrite Hp. done.
  - intros s x. unfold lookAt, zlen. cbn. by rewrite cut_length.
  - intros s x p r si. unfold modified, zlen. cbn [fst]. rewrite cut_length. destruct (_ || _); [done|]. by rewrite imap_length.
  - intros si. unfold weight, zlen. rewrite fmap_length, seq_length. lia.
  - intros _. rewrite Hp. done.
Qed.

Definition frameAt (x : list R) (k : nat) : list R := cut w (cut w (take (Z.to_nat w) (drop (Z.to_nat (Z.of_nat k * h)) x))).
Lemma unity_played P k ss x n : window P = w -> increment P = h -> steady k -> Forall (fun s => fst s = true) ss ->
  exists cs k' ss', played D P k ss x n = (cs, k', ss') /\ steady k' /\ Forall (fun s => fst s = true) ss' /\ length ss' = length ss /\
    (fun i => hop i) <$> cs = replicate n h /\
    forall i j c, (i < length ss)%nat -> cs !! j = Some c -> frames c !! i = Some (frameAt (x i) j).
Proof.
  intros Ew Eh Hk Hss. induction n as [|n IH].
  { exists [], k, ss. split_and!; done. }
  destruct IH as (cs & k1 & ss1 & E & Hk1 & Hss1 & Hl1 & Hh1 & Hf1). cbn [played]. rewrite E.
  set (sp := imap _ ss1). cbn [calculate realDsp]. destruct (unity_increments k1 (snd <$> sp) Hk1) as (reset & k2 & E2 & Hk2). rewrite E2.
  assert (Hsp : forall i s, ss1 !! i = Some s -> sp !! i = Some (lookAt look w s (take (Z.to_nat w) (drop (Z.to_nat (Z.of_nat n * h)) (x i))))).
  { intros i s Hs. unfold sp. rewrite list_lookup_imap, Hs. cbn [fmap option_fmap option_map analyse realDsp]. by rewrite Ew, Eh. }
  assert (Hlsp : length sp = length ss1) by (unfold sp; by rewrite imap_length).
  assert (Hmod : forall i s, ss1 !! i = Some s -> exists t, ((fun '(sp, s) => modify D s sp h reset h) <$> sp) !! i = Some (frameAt (x i) n, (true, t))).
  { intros i s Hs. rewrite list_lookup_fmap, (Hsp i s Hs). cbn [fmap option_fmap option_map]. unfold lookAt. cbn [modify realDsp]. unfold modified. cbn [fst snd].
    rewrite Forall_lookup in Hss1. rewrite (Hss1 i s Hs), Z.eqb_refl. cbn [orb andb]. eexists. reflexivity. }
  exists (cs ++ [Chunk (fst <$> ((fun '(sp, s) => modify D s sp h reset h) <$> sp)) h]), k2, (snd <$> ((fun '(sp, s) => modify D s sp h reset h) <$> sp)).
  split; [reflexivity|]. split; [done|]. split.
  { apply Forall_lookup. intros i s Hs. rewrite list_lookup_fmap in Hs. destruct (ss1 !! i) as [s1|] eqn:Es.
    - destruct (Hmod i s1 Es) as [t Ht]. rewrite Ht in Hs. cbn in Hs. injection Hs as <-. done.
    - rewrite lookup_ge_None_2 in Hs; [done|]. rewrite fmap_length, Hlsp. by apply lookup_ge_None_1. }
  split; [by rewrite !fmap_length, Hlsp|]. split.
  { rewrite fmap_app, Hh1. by rewrite replicate_S_end. }
  intros i j c Hi Hc. destruct (decide (j = n)) as [->|Hj].
  - assert (Hlcs : length cs = n) by (apply (f_equal length) in Hh1; by rewrite fmap_length, replicate_length in Hh1).
    rewrite lookup_app_r in Hc by lia. rewrite Hlcs, Nat.sub_diag in Hc. cbn in Hc. injection Hc as <-. cbn [frames].
    destruct (lookup_lt_is_Some_2 ss1 i) as [s Hs]; [lia|]. destruct (Hmod i s Hs) as [t Ht]. etransitivity; [apply list_lookup_fmap|]. exact (f_equal (fmap fst) Ht).
  - assert (Hlcs : length cs = n) by (apply (f_equal length) in Hh1; by rewrite fmap_length, replicate_length in Hh1).
    pose proof (lookup_lt_Some _ _ _ Hc) as Hlt. rewrite app_length in Hlt. cbn in Hlt.
    rewrite lookup_app_l in Hc by lia. by apply Hf1.
Qed.

(** ** The sums *)
Lemma layout_even (g : nat -> list R) n : forall s, layout (Z.of_nat s * h) ((fun k => (g k, h)) <$> seq s n) = (fun k => (Z.of_nat k * h, g k)) <$> seq s n.
Proof using. induction n as [|n IH]; intros s; [done|]. cbn [seq fmap list_fmap layout]. f_equal. rewrite <- IH. f_equal. lia. Qed.
Lemma sum_even (g : nat -> list R) a i n : sumAt Rplus a ((fun k => (Z.of_nat k * h, g k)) <$> seq 0 n) i =
  (a + rsum n (fun k => match getZ (g k) (i - Z.of_nat k * h) with Some v => v | None => 0 end))%R.
Proof using.
  induction n as [|n IH]; [cbn; Lra.lra|]. rewrite seq_S, fmap_app. unfold sumAt in *. rewrite foldl_app, IH. cbn [fmap list_fmap rsum foldl].
  rewrite Nat.add_0_l. destruct (getZ (g n) _); Lra.lra.
Qed.

(** Which of the chunks cover position [i], once there are enough. *)
Lemma rsum_window m (f : Z -> R) i n : w = m * h -> (m - 1) * h <= i < Z.of_nat n * h ->
  rsum n (fun k => if (0 <=? i - Z.of_nat k * h) && (i - Z.of_nat k * h <? w) then f (i - Z.of_nat k * h) else 0%R) =
  rsum (Z.to_nat m) (fun a => f (i mod h + (m - 1 - Z.of_nat a) * h)).
Proof.
  intros Em Hi. pose proof (Z.div_mod i h ltac:(lia)) as Hd. pose proof (Z.mod_pos_bound i h ltac:(lia)) as Hr.
  set (q := i / h) in *. set (r := i mod h) in *.
  assert (Hm : 4 <= m) by nia. assert (Hq : m - 1 <= q < Z.of_nat n) by nia.
  replace n with (Z.to_nat (q - m + 1) + (Z.to_nat m + (n - Z.to_nat (q + 1))))%nat by lia.
  rewrite rsum_add, rsum_zero.
  2: { intros k Hk. assert (w <= i - Z.of_nat k * h) by nia. rewrite (proj2 (Z.ltb_ge (i - _) w)) by lia. by rewrite andb_false_r. }
  rewrite rsum_add, (rsum_zero (n - _)).
  2: { intros k Hk. assert (i - Z.of_nat (Z.to_nat (q - m + 1) + (Z.to_nat m + k)) * h < 0) by nia. rewrite (proj2 (Z.leb_gt 0 (i - _))) by lia. done. }
  rewrite Rplus_0_l, Rplus_0_r. apply rsum_ext. intros a Ha.
  assert (E : i - Z.of_nat (Z.to_nat (q - m + 1) + a) * h = r + (m - 1 - Z.of_nat a) * h).
  { rewrite Nat2Z.inj_add, Z2Nat.id by lia. nia. }
  rewrite E. assert (0 <= r + (m - 1 - Z.of_nat a) * h < w) by nia.
  rewrite (proj2 (Z.leb_le 0 _)), (proj2 (Z.ltb_lt _ w)) by lia. done.
Qed.

Lemma getZ_cut x i : getZ (cut w x) i = (fun v => v * hann w i)%R <$> getZ x i.
Proof using.
  unfold getZ. destruct (Z.leb_spec 0 i); [|done]. unfold cut. rewrite list_lookup_imap. destruct (x !! _); [|done]. cbn. by rewrite Z2Nat.id by lia.
Qed.

Lemma frameAt_get x k i : Z.of_nat k * h + w <= zlen x -> 0 <= i ->
  getZ (frameAt x k) (i - Z.of_nat k * h) =
    if (0 <=? i - Z.of_nat k * h) && (i - Z.of_nat k * h <? w) then (fun v => v * hann w (i - Z.of_nat k * h) * hann w (i - Z.of_nat k * h))%R <$> getZ x i else None.
Proof.
  intros Hx Hi. unfold frameAt. rewrite !getZ_cut. set (j := i - Z.of_nat k * h). unfold getZ, zlen in *.
  destruct (Z.leb_spec 0 j), (Z.ltb_spec j w); cbn [andb]; try done.
  - rewrite lookup_take by lia. rewrite lookup_drop. replace (Z.to_nat (Z.of_nat k * h) + Z.to_nat j)%nat with (Z.to_nat i) by lia.
    rewrite (proj2 (Z.leb_le 0 i)) by done. by destruct (x !! _).
  - rewrite lookup_take_ge by lia. done.
Qed.
Lemma weight_get i k si : getZ (weight w si) (i - Z.of_nat k * h) =
    if (0 <=? i - Z.of_nat k * h) && (i - Z.of_nat k * h <? w) then Some (hann w (i - Z.of_nat k * h) * (area w * (3/2)))%R else None.
Proof.
  set (j := i - Z.of_nat k * h). unfold getZ, weight. destruct (Z.leb_spec 0 j), (Z.ltb_spec j w); cbn [andb]; try done.
  - rewrite list_lookup_fmap, lookup_seq_lt by lia. cbn. by rewrite Z2Nat.id by lia.
  - rewrite list_lookup_fmap, lookup_seq_ge by lia. done.
Qed.

(** What is heard at position [j] is the input there times the ratio of two sums of window values. *)
Definition gain (n : nat) (j : Z) : R :=
  (rsum n (fun k => let o := (j - Z.of_nat k * h)%Z in if ((0 <=? o) && (o <? w))%Z then hann w o * hann w o else 0) /
   ((if (j =? 0)%Z then 1 else 0) + rsum n (fun k => let o := (j - Z.of_nat k * h)%Z in if ((0 <=? o) && (o <? w))%Z then hann w o * (3/4) else 0)))%R.
Lemma unity_heard P k ss x n i j v : window P = w -> increment P = h -> steady k -> Forall (fun s => fst s = true) ss -> (i < length ss)%nat ->
  (0 < n)%nat -> (Z.of_nat n - 1) * h + w <= zlen (x i) -> 0 <= j < Z.of_nat n * h -> getZ (x i) j = Some v ->
  getZ (heard D P k ss x n i) j = Some (v * gain n j)%R.
Proof.
  intros Ew Eh Hk Hss Hi Hn Hx Hj Hv. destruct (unity_played P k ss x n Ew Eh Hk Hss) as (cs & k' & ss' & E & _ & _ & _ & Hhop & Hfr).
  assert (Hlcs : length cs = n) by (apply (f_equal length) in Hhop; by rewrite fmap_length, replicate_length in Hhop).
  assert (Hhops : forall q c, cs !! q = Some c -> hop c = h).
  { intros q c Hc. assert (Hq : ((fun i => hop i) <$> cs) !! q = Some (hop c)) by (by rewrite list_lookup_fmap, Hc).
    rewrite Hhop in Hq. by apply lookup_replicate in Hq as [-> _]. }
  assert (EF : framesOf P i cs = (fun k => (frameAt (x i) k, h)) <$> seq 0 n).
  { apply list_eq. intros q. unfold framesOf. rewrite !list_lookup_fmap. destruct (cs !! q) as [c|] eqn:Hc.
    - rewrite lookup_seq_lt by (rewrite <- Hlcs; by eapply lookup_lt_Some). cbn. rewrite (Hhops q c Hc), (Hfr i q c Hi Hc). cbn. do 2 f_equal.
      apply take_ge. unfold frameAt. rewrite !cut_length, take_length. lia.
    - rewrite lookup_seq_ge; [done|]. rewrite <- Hlcs. by apply lookup_ge_None_1. }
  assert (EW : weightsOf D P cs = (fun _ => (weight w h, h)) <$> seq 0 n).
  { apply list_eq. intros q. unfold weightsOf. rewrite !list_lookup_fmap. destruct (cs !! q) as [c|] eqn:Hc.
    - rewrite lookup_seq_lt by (rewrite <- Hlcs; by eapply lookup_lt_Some). cbn. rewrite (Hhops q c Hc). do 2 f_equal.
      apply take_ge. unfold weight. rewrite fmap_length, seq_length. lia.
    - rewrite lookup_seq_ge; [done|]. rewrite <- Hlcs. by apply lookup_ge_None_1. }
  unfold heard. rewrite E, EF, EW, ola_from.
  assert (Hsp : span ((fun k => (frameAt (x i) k, h)) <$> seq 0 n) = Z.of_nat n * h).
  { clear. unfold span. rewrite <- list_fmap_compose. generalize 0%nat. induction n as [|n IH]; intros s; [done|].
    cbn [seq fmap list_fmap]. change (sumZ (?a :: ?l)) with (a + sumZ l). rewrite IH. cbn. lia. }
  rewrite Hsp, getZ_olaFrom by lia. rewrite Z.add_0_l.
  pose proof (layout_even (fun k => frameAt (x i) k) n 0) as L1. pose proof (layout_even (fun _ => weight w h) n 0) as L2.
  change (Z.of_nat 0 * h) with 0 in L1, L2. rewrite L1, L2. cbn [quot add zero one realDsp]. rewrite !sum_even. f_equal.
  assert (S1 : rsum n (fun k0 => match getZ (frameAt (x i) k0) (j - Z.of_nat k0 * h) with Some v => v | None => 0%R end) =
    (v * rsum n (fun k => let o := (j - Z.of_nat k * h)%Z in if ((0 <=? o) && (o <? w))%Z then hann w o * hann w o else 0))%R).
  { rewrite <- rsum_scale. apply rsum_ext. intros q Hq. rewrite frameAt_get by nia. cbv zeta.
    destruct (_ && _); [|Lra.lra]. rewrite Hv. cbn. Lra.lra. }
  assert (S2 : rsum n (fun k0 => match getZ (weight w h) (j - Z.of_nat k0 * h) with Some v => v | None => 0%R end) =
    rsum n (fun k => let o := (j - Z.of_nat k * h)%Z in if ((0 <=? o) && (o <? w))%Z then hann w o * (3/4) else 0)%R).
  { apply rsum_ext. intros q Hq. rewrite weight_get, area_half by lia. cbv zeta. destruct (_ && _); [|done]. Lra.lra. }
  rewrite S1, S2. unfold gain. rewrite Rplus_0_l. unfold Rdiv. ring.
Qed.

Lemma gain_steady m n j : w = m * h -> (m - 1) * h <= j < Z.of_nat n * h -> gain n j = 1%R.
Proof.
  intros Em Hj. unfold gain. cbv zeta.
  rewrite (rsum_window m (fun o => hann w o * hann w o)%R j n Em Hj), (rsum_window m (fun o => hann w o * (3/4))%R j n Em Hj).
  assert (Hm : 4 <= m) by nia. rewrite (proj2 (Z.eqb_neq j 0)) by nia.
  assert (Hq : rsum (Z.to_nat m) (fun a => hann w (j mod h + (m - 1 - Z.of_nat a) * h) * hann w (j mod h + (m - 1 - Z.of_nat a) * h))%R = (3 * IZR m / 8)%R)
    by (rewrite Em; apply (hann_squares h m Hh); lia).
  assert (Hs : rsum (Z.to_nat m) (fun a => hann w (j mod h + (m - 1 - Z.of_nat a) * h) * (3/4))%R = (3 * IZR m / 8)%R).
  { rewrite (rsum_ext _ _ (fun a => (3/4) * hann w (j mod h + (m - 1 - Z.of_nat a) * h))%R) by (intros; Lra.lra).
    rewrite rsum_scale. rewrite Em. rewrite (hann_sum h m Hh) by lia. Lra.lra. }
  rewrite Hq, Hs. field. apply not_0_IZR. lia.
Qed.
End Unity.
