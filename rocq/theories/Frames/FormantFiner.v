(** Property C81, R3. *)
From stdpp Require Import prelude.
From Coq Require Import ZArith QArith Qround Lia Lqa.
From Verif Require Import Base.Arith Frames.FormantModel Frames.Formant.
From stdpp Require Import list.
Local Open Scope Z_scope.

(** The envelope between bins: on the straight line between the two next to it, 0 below the
    first bin and after the last. *)
Definition onLine (env : list Q) (last : Z) (x y : Q) : Prop :=
  ((x < 0 \/ inject_Z (last + 1) <= x)%Q /\ (y == 0)%Q) \/
  (exists b u, (x == inject_Z b)%Q /\ getZ env b = Some u /\ (y == u)%Q) \/
  (exists b u v, (inject_Z b < x < inject_Z b + 1)%Q /\ b < last /\ getZ env b = Some u /\ getZ env (b + 1) = Some v /\ (y == u + (x - inject_Z b) * (v - u))%Q) \/
  (exists u, (inject_Z last < x < inject_Z last + 1)%Q /\ getZ env last = Some u /\ (y == u)%Q).
(** A number whose floor and ceiling are ints. *)
Definition fits (x : Q) : Prop := (-2147483648 <= x <= 2147483647)%Q.

Lemma toInt_floor x : fits x -> toInt (Qfloor x) = Some (Qfloor x).
Proof.
  intros [H1 H2]. destruct (floor_bounds x) as [F1 F2]. unfold toInt.
  assert (-2147483648 <= Qfloor x). { apply Qfloor_resp_le in H1. change (Qfloor (-2147483648)) with (-2147483648) in H1. done. }
  assert (Qfloor x <= 2147483647). { apply inject_Z_inj_le. change (inject_Z 2147483647) with 2147483647%Q. lra. }
  by rewrite (proj2 (Z.leb_le _ _)), (proj2 (Z.leb_le _ _)) by lia.
Qed.
Lemma toInt_ceil x : fits x -> toInt (Qceiling x) = Some (Qceiling x).
Proof.
  intros [H1 H2]. destruct (ceil_bounds x) as [F1 F2]. unfold cceil in *. unfold toInt.
  assert (Qceiling x <= 2147483647). { apply Qceiling_resp_le in H2. change (Qceiling 2147483647) with 2147483647 in H2. done. }
  assert (-2147483648 <= Qceiling x). { apply inject_Z_inj_le. change (inject_Z (-2147483648)) with (-2147483648)%Q. lra. }
  by rewrite (proj2 (Z.leb_le _ _)), (proj2 (Z.leb_le _ _)) by lia.
Qed.
Lemma ceil_floor x : Qceiling x = Qfloor x /\ (x == inject_Z (Qfloor x))%Q \/ Qceiling x = Qfloor x + 1 /\ (inject_Z (Qfloor x) < x < inject_Z (Qfloor x) + 1)%Q.
Proof.
  destruct (floor_bounds x) as [F1 F2]. destruct (ceil_bounds x) as [C1 C2]. unfold cceil in *. destruct (Qeq_dec x (inject_Z (Qfloor x))) as [E|E].
  - left. split; [|done]. rewrite E at 1. unfold Qceiling. rewrite <- inject_Z_opp, Qfloor_Z. lia.
  - right. assert (inject_Z (Qfloor x) < x)%Q by (apply Qle_lteq in F1 as [?|?]; [done|exfalso; apply E; lra]). split; [|done].
    assert (Qfloor x < Qceiling x) by (apply inject_Z_inj_lt; lra).
    assert (Qceiling x < Qfloor x + 2). { apply inject_Z_inj_lt. rewrite inject_Z_plus. change (inject_Z 2) with 2%Q. lra. } lia.
Qed.
(** In bounds for every bin, and on the line. *)
Lemma envelopeAt_spec env size x : 0 <= size -> zlen env = size / 2 + 1 -> fits x -> exists y, envelopeAt env size x = Some y /\ onLine env (size / 2) x y.
Proof.
  intros Hs Hl Hx. unfold envelopeAt. rewrite toInt_floor, toInt_ceil by done. cbn [mbind option_bind].
  set (last := size / 2) in *. destruct (floor_bounds x) as [F1 F2]. set (b := Qfloor x) in *.
  destruct (Z.ltb_spec b 0) as [Hb|Hb]; cbn [orb].
  { eexists. split; [done|]. left. split; [|done]. left. assert (inject_Z b + 1 <= 0)%Q; [|lra]. change 1%Q with (inject_Z 1). rewrite <- inject_Z_plus. change 0%Q with (inject_Z 0). apply inject_Z_inj_le. lia. }
  destruct (Z.ltb_spec last b) as [Hb2|Hb2].
  { eexists. split; [done|]. left. split; [|done]. right. apply (Qle_trans _ (inject_Z b)); [|done]. apply inject_Z_inj_le. lia. }
  destruct (getZ_is env b) as [u Hu]; [lia|]. destruct (ceil_floor x) as [[-> E]|[-> E]]; fold b in E |- *.
  - rewrite Z.eqb_refl. cbn [orb]. exists u. split; [done|]. right. left. by exists b, u.
  - rewrite (proj2 (Z.eqb_neq (b + 1) b)) by lia. cbn [orb]. destruct (Z.ltb_spec last (b + 1)) as [Hb3|Hb3].
    + exists u. split; [done|]. right. right. right. exists u. assert (b = last) as <- by lia. done.
    + destruct (getZ_is env (b + 1)) as [v Hv]; [lia|]. rewrite Hu, Hv. cbn [mbind option_bind]. eexists. split; [done|]. right. right. left. exists b, u, v. split; [exact E|]. split; [lia|]. split; [done|]. split; [done|]. ring.
Qed.

(** The factor for the magnitude of a bin, from the envelope there and at its source. *)
Definition factor (source target r : Q) : Prop :=
  ((target <= 0)%Q /\ r = 1%Q) \/ ((0 < target)%Q /\ (1 # 60 <= r <= 60)%Q /\ ((1 # 60 <= source / target <= 60)%Q -> r = (source / target)%Q)
    /\ ((source / target < 1 # 60)%Q -> r = (1 # 60)%Q) /\ ((60 < source / target)%Q -> r = 60%Q)).
Lemma loop_spec env size sf tf k : 0 <= size -> zlen env = size / 2 + 1 -> forall mag i, 0 <= i -> i + Z.of_nat k <= zlen mag ->
  (forall j, i <= j < i + Z.of_nat k -> fits (inject_Z j * sf) /\ fits (inject_Z j * tf)) ->
  exists mag', adjustLoop env size sf tf mag i k = Some mag' /\ zlen mag' = zlen mag /\
    forall j m, getZ mag j = Some m -> if inRange i (Z.of_nat k) j
      then exists s t r, onLine env (size / 2) (inject_Z j * sf) s /\ onLine env (size / 2) (inject_Z j * tf) t /\ factor s t r /\ exists m', getZ mag' j = Some m' /\ (m' == m * r)%Q
      else getZ mag' j = Some m.
Proof.
  intros Hs He. induction k as [|k IH]; intros mag i H1 H2 H3; cbn [adjustLoop].
  - exists mag. split; [done|]. split; [done|]. intros j m Hm. destruct (inRange _ _ _) eqn:E; [apply inRange_spec in E; lia|done].
  - destruct (H3 i) as [F1 F2]; [lia|]. destruct (envelopeAt_spec env size _ Hs He F1) as (s & -> & Os). destruct (envelopeAt_spec env size _ Hs He F2) as (t & -> & Ot). cbn [mbind option_bind].
    destruct (getZ_is mag i) as [x Hx]; [lia|].
    assert (K : exists mag1, adjustOne s t mag i = Some mag1 /\
      zlen mag1 = zlen mag /\ (forall j, j <> i -> getZ mag1 j = getZ mag j) /\ exists r, factor s t r /\ exists m', getZ mag1 i = Some m' /\ (m' == x * r)%Q).
    { unfold adjustOne. destruct (ltQ 0 t) eqn:Et.
      - apply ltQ_true in Et. cbv zeta. set (r := if ltQ 60 (if ltQ (s / t) (1 # 60) then (1 # 60)%Q else (s / t)%Q) then 60%Q else if ltQ (s / t) (1 # 60) then (1 # 60)%Q else (s / t)%Q).
        rewrite Hx. cbn [mbind option_bind]. rewrite setZ_is by lia. eexists. split; [done|]. split; [apply zlen_insert|]. split.
        + intros j Hj. rewrite getZ_insert by lia. by rewrite (proj2 (Z.eqb_neq j i)).
        + exists r. split; [|exists (x * r)%Q; split; [|done]; rewrite getZ_insert by lia; by rewrite Z.eqb_refl]. right. split; [done|]. subst r. generalize (s / t)%Q. intros q.
          destruct (ltQ q (1 # 60)) eqn:E1; [apply ltQ_true in E1; change (ltQ 60 (1 # 60)) with false|apply ltQ_false in E1; destruct (ltQ 60 q) eqn:E2; [apply ltQ_true in E2|apply ltQ_false in E2]]; split_and!; try done; intros; lra.
      - apply ltQ_false in Et. exists mag. split; [done|]. split; [done|]. split; [done|]. exists 1%Q. split; [by left|]. exists x. split; [done|]. ring. }
    destruct K as (mag1 & -> & L1 & N1 & r & Fr & m' & Hm' & Em'). cbn [mbind option_bind].
    destruct (IH mag1 (i + 1)) as (mag' & E & L & D); [lia|lia|intros j Hj; apply H3; lia|]. exists mag'. split; [done|]. split; [lia|].
    intros j m Hm. rewrite inRange_step. destruct (Z.eqb_spec j i) as [->|Hne]; cbn [orb].
    + specialize (D i m' Hm'). rewrite inRange_out in D. exists s, t, r. split_and!; try done. exists m'. split; [done|]. rewrite Hx in Hm. by injection Hm as <-.
    + rewrite <- N1 in Hm by done. by specialize (D j m Hm).
Qed.

(** The scales: that asked for, or what undoes the pitch shift. *)
Definition effective (pitch formantScale fs : Q) : Prop := (~ (formantScale == 0)%Q /\ (fs == formantScale)%Q) \/ ((formantScale == 0)%Q /\ (fs == 1 / pitch)%Q).
Lemma onLine_comp env last x x' y : (x == x')%Q -> onLine env last x y -> onLine env last x' y.
Proof.
  intros E [(H & H')|[(b & u & H & H')|[(b & u & v & H & Hb & Hu & Hv & Hy)|(u & H & H')]]]; [left|right; left|right; right; left|right; right; right].
  - split; [|done]. rewrite <- E. done.
  - exists b, u. by rewrite <- E.
  - exists b, u, v. rewrite <- E. done.
  - exists u. by rewrite <- E.
Qed.
Lemma onLine_fun env last x y y' : onLine env last x y -> onLine env last x y' -> zlen env = last + 1 -> (y == y')%Q.
Proof.
  assert (Z1 : forall b u, getZ env b = Some u -> zlen env = last + 1 -> (0 <= inject_Z b /\ inject_Z b <= inject_Z last)%Q).
  { intros b u Hb Hl. apply getZ_some in Hb. split; [change 0%Q with (inject_Z 0)|]; apply inject_Z_inj_le; lia. }
  assert (Z2 : forall b b' z, (inject_Z b <= z < inject_Z b + 1)%Q -> (inject_Z b' <= z < inject_Z b' + 1)%Q -> b = b').
  { intros b b' z H H'. assert (b <= b') by (apply Q_lt_Z; lra). assert (b' <= b) by (apply Q_lt_Z; lra). lia. }
  assert (Zl : (inject_Z (last + 1) == inject_Z last + 1)%Q) by (by rewrite inject_Z_plus).
  intros H H' Hl.
  destruct H as [(H & E)|[(b & u & H & Hu & E)|[(b & u & v & H & Hb & Hu & Hv & E)|(u & H & Hu & E)]]];
  destruct H' as [(H' & E')|[(b' & u' & H' & Hu' & E')|[(b' & u' & v' & H' & Hb' & Hu' & Hv' & E')|(u' & H' & Hu' & E')]]];
  repeat match goal with G : getZ env _ = Some _ |- _ => pose proof (Z1 _ _ G Hl); revert G end; intros; try (rewrite E, E'; reflexivity); try (exfalso; lra).
  all: try (assert (b = b') by (apply (Z2 _ _ x); lra); subst b'; rewrite E, E'; simplify_eq; done).
  all: try (assert (b = last) by (apply (Z2 _ _ x); lra); subst b; rewrite E, E'; simplify_eq; done || lia).
  all: try (assert (b' = last) by (apply (Z2 _ _ x); lra); subst b'; rewrite E, E'; simplify_eq; done || lia).
  all: try (simplify_eq; rewrite E, E'; done).
  all: try (exfalso; assert (b = b') by (apply (Z2 _ _ x); lra); subst b'; lra).
Qed.
Lemma bands_skip rate env size pitch fsc fft mag bands : Forall (fun b => bandSize b <> fft) bands -> adjustBands rate env size pitch fsc fft mag bands = Some mag.
Proof. induction 1 as [|b bands Hb _ IH]; [done|]. cbn [adjustBands]. rewrite (proj2 (Z.eqb_neq _ _) Hb). done. Qed.
Lemma bands_app rate env size pitch fsc fft mag l l' : Forall (fun b => bandSize b <> fft) l -> adjustBands rate env size pitch fsc fft mag (l ++ l') = adjustBands rate env size pitch fsc fft mag l'.
Proof. induction 1 as [|b bands Hb _ IH]; [done|]. cbn [adjustBands app]. rewrite (proj2 (Z.eqb_neq _ _) Hb). done. Qed.

(** C81, R3.  In a scale with one band, no access is out of bounds, each bin of the band below
    10 kHz is multiplied by the envelope at its source over the envelope there, within 1/60 and
    60, and all others are left alone; for rates, pitches and sizes that keep the bins ints. *)
Theorem C81_finer_partial rate env size pitch fsc fs fft mag l b l' :
  (0 < rate)%Q -> 0 < size -> 0 < fft -> zlen env = size / 2 + 1 -> effective pitch fsc fs ->
  bandSize b = fft -> Forall (fun b => bandSize b <> fft) (l ++ l') -> 0 <= b0min b <= b1max b -> b1max b <= zlen mag ->
  (forall i, b0min b <= i < b1max b -> fits (inject_Z i * (inject_Z size / inject_Z fft) / fs) /\ fits (inject_Z i * (inject_Z size / inject_Z fft))) ->
  exists mag', adjustBands rate env size pitch fsc fft mag (l ++ b :: l') = Some mag' /\
    forall i m, getZ mag i = Some m -> exists m', getZ mag' i = Some m' /\
      let adjusted := b0min b <= i < b1max b /\ (inject_Z (i + 1) * rate <= inject_Z fft * 10000)%Q in
      (adjusted -> exists s t r, onLine env (size / 2) (inject_Z i * (inject_Z size / inject_Z fft) / fs) s /\ onLine env (size / 2) (inject_Z i * (inject_Z size / inject_Z fft)) t /\ factor s t r /\ (m' == m * r)%Q) /\
      (~ adjusted -> m' = m).
Proof.
  intros Hr Hs Hf He Hfs Hb Hl Hb0 Hb1 Hfit. apply Forall_app in Hl as [Hl Hl']. rewrite bands_app by done. cbn [adjustBands]. rewrite Hb, Z.eqb_refl. cbv zeta.
  set (fs' := if Qeq_bool fsc 0 then (1 / pitch)%Q else fsc). assert (Ef : (fs' == fs)%Q).
  { subst fs'. destruct Hfs as [[Hn E]|[Hz E]]; [destruct (Qeq_bool fsc 0) eqn:Eb; [by apply Qeq_bool_eq in Eb|by rewrite E]|by rewrite (proj2 (Qeq_bool_iff _ _) Hz), E]. }
  set (hb := Qfloor (inject_Z fft * 10000 / rate)). set (tf := (inject_Z size / inject_Z fft)%Q) in *. set (k := Z.to_nat (Z.min (b1max b) hb - b0min b)).
  assert (Esf : forall i, (inject_Z i * (tf / fs') == inject_Z i * tf / fs)%Q) by (intros i; rewrite Ef; unfold Qdiv; ring).
  destruct (loop_spec env size (tf / fs')%Q tf k ltac:(lia) He mag (b0min b)) as (mag' & -> & L & D); [lia|lia| |].
  { intros j Hj. destruct (Hfit j) as [F1 F2]; [lia|]. split; [|done]. unfold fits in *. by rewrite Esf. }
  cbn [mbind option_bind]. rewrite bands_skip by done. exists mag'. split; [done|]. intros i m Hm. specialize (D i m Hm).
  assert (Ehb : i < hb <-> (inject_Z (i + 1) * rate <= inject_Z fft * 10000)%Q).
  { subst hb. destruct (floor_bounds (inject_Z fft * 10000 / rate)) as [F1 F2]. set (q := (inject_Z fft * 10000 / rate)%Q) in *. assert (Eq : (q * rate == inject_Z fft * 10000)%Q) by (subst q; field; lra). rewrite <- Eq. split; intros H.
    - assert (inject_Z (i + 1) <= inject_Z (Qfloor q))%Q by (apply inject_Z_inj_le; lia). nra.
    - assert (inject_Z (i + 1) <= q)%Q by nra. apply Qfloor_resp_le in H0. rewrite Qfloor_Z in H0. lia. }
  destruct (inRange (b0min b) (Z.of_nat k) i) eqn:E.
  - apply inRange_spec in E. destruct D as (s & t & r & O1 & O2 & Fr & m' & Hm' & Em'). exists m'. split; [done|]. split; [|intros []; split; [lia|apply Ehb; lia]].
    intros _. exists s, t, r. split; [by apply (onLine_comp _ _ _ _ _ (Esf i))|]. done.
  - exists m. split; [done|]. split; [|done]. intros [H1 H2]. apply Ehb in H2. apply not_true_iff_false in E. exfalso. apply E, inRange_spec. lia.
Qed.
Print Assumptions C81_finer_partial.

(** With the envelope left where it is, the magnitudes are. *)
Theorem C81_finer_unity rate env size pitch fsc fft mag l b l' :
  (0 < rate)%Q -> 0 < size -> 0 < fft -> zlen env = size / 2 + 1 -> (fsc == 1)%Q \/ ((fsc == 0)%Q /\ (pitch == 1)%Q) ->
  bandSize b = fft -> Forall (fun b => bandSize b <> fft) (l ++ l') -> 0 <= b0min b <= b1max b -> b1max b <= zlen mag ->
  (forall i, b0min b <= i < b1max b -> fits (inject_Z i * (inject_Z size / inject_Z fft))) ->
  exists mag', adjustBands rate env size pitch fsc fft mag (l ++ b :: l') = Some mag' /\
    forall i m, getZ mag i = Some m -> exists m', getZ mag' i = Some m' /\ (m' == m)%Q.
Proof.
  intros Hr Hs Hf He Hu Hb Hl Hb0 Hb1 Hfit.
  assert (E1 : effective pitch fsc 1). { destruct Hu as [Hu|[Hu Hp]]; [left|right]; (split; [lra|]); rewrite ?Hu, ?Hp; reflexivity. }
  destruct (C81_finer_partial rate env size pitch fsc 1 fft mag l b l') as (mag' & E & D); try done.
  { intros i Hi. specialize (Hfit i Hi). split; [|done]. unfold fits in *. unfold Qdiv at 1 3. change (/ 1)%Q with 1%Q. by rewrite Qmult_1_r. }
  exists mag'. split; [done|]. intros i m Hm. destruct (D i m Hm) as (m' & Hm' & H & H'). exists m'. split; [done|].
  destruct (decide (b0min b <= i < b1max b)) as [Hi|Hi]; [|rewrite H' by (by intros [? _]); done]. destruct (Qlt_le_dec (inject_Z fft * 10000) (inject_Z (i + 1) * rate)) as [Hq|Hq]; [rewrite H' by (intros [_ ?]; lra); done|].
  destruct (H (conj Hi Hq)) as (s & t & r & O1 & O2 & Fr & Em). assert (Est : (s == t)%Q).
  { apply (onLine_comp _ _ _ (inject_Z i * (inject_Z size / inject_Z fft))%Q) in O1; [|field; intros Hz; assert (fft = 0) by (by apply inject_Z_injective); lia].
    eapply onLine_fun; [exact O1|exact O2|done]. }
  rewrite Em. destruct Fr as [[_ ->]|(Ht & _ & Fr & _)]; [ring|]. assert (Eq : (s / t == 1)%Q) by (rewrite Est; field; lra). rewrite Fr; rewrite Eq; [ring|lra].
Qed.
Print Assumptions C81_finer_unity.

(** Nothing checks the formant scale: with a very small one a bin is no int any more. *)
Theorem C81_finer_refuted : exists fsc env mag, (0 < fsc)%Q /\ zlen env = 3 /\ zlen mag = 3 /\
  adjustBands 8000 env 4 1 fsc 4 mag [Band 4 0 2] = None /\ exists mag', adjustBands 8000 env 4 1 (1 # 2) 4 mag [Band 4 0 2] = Some mag'.
Proof. exists (1 # 10000000000)%Q, [1; 1; 1]%Q, [1; 1; 1]%Q. do 3 (split; [done|]). split; [vm_compute; reflexivity|]. eexists. vm_compute. reflexivity. Qed.
Print Assumptions C81_finer_refuted.
(** 8 kHz, formants from a transform of 8, a scale of 16, an octave up: bin 4 gets the envelope of
    the last bin, bin 5 the least there is. *)
Example C81_finer_case : adjustBands 8000 [8; 4; 2; 1; 100]%Q 8 2 0 16 [3; 3; 3; 3; 3; 3; 3; 3; 3]%Q [Band 8 0 4; Band 16 2 6]
    = Some [3; 3; 6 # 4; 768 # 768; 300 # 2; 3 # 60; 3; 3; 3]%Q /\
  (forall i, 2 <= i < 6 -> fits (inject_Z i * (8 / 16) / (1 # 2)) /\ fits (inject_Z i * (8 / 16))).
Proof.
  split; [by vm_compute|]. intros i Hi. unfold fits. assert (inject_Z 2 <= inject_Z i <= inject_Z 6)%Q by (split; apply inject_Z_inj_le; lia).
  change (inject_Z 2) with 2%Q in *. change (inject_Z 6) with 6%Q in *. assert (E : (inject_Z i * (8 / 16) / (1 # 2) == inject_Z i)%Q) by field. rewrite E.
  assert (E' : (inject_Z i * (8 / 16) == inject_Z i * (1 # 2))%Q) by field. rewrite E'. lra.
Qed.
