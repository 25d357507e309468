(** The guide's bands are such as the phase advance can deal with. *)
From stdpp Require Import prelude list numbers.
From Coq Require Import ZArith QArith Qround Lia Lqa.
From Verif Require Import Base.Arith Finer.PeakModel Finer.SegmenterModel Finer.GuideModel Finer.GuideSpec Finer.GuideProofs Finer.PhaseModel Finer.PhaseSpec.
From stdpp Require Import list numbers.
Local Open Scope Z_scope.
Definition lockInv (s : guidance) : Prop := Forall (fun b => 0 <= lp b /\ (0 <= lf0 b)%Q) [lock0 s; lock1 s; lock2 s; lock3 s].
Definition sized (g : guide) (s : guidance) : Prop :=
  3 <= lockCount s <= 4 /\ if singleWindow g then fftSize (band0 s) = cfft g else fftSize (band0 s) = longest g /\ fftSize (band1 s) = cfft g /\ fftSize (band2 s) = shortest g.
Lemma prepare_inv g q h s : (0 <= rate g)%Q -> lockInv s -> lockInv (prepare g q h s) /\ sized g (prepare g q h s).
Proof.
  intros Hr H. assert (Hh : (0 <= rate g / 2)%Q) by (apply Qle_shift_div_l; lra). unfold prepare, sized. destruct (singleWindow g) eqn:E; cbn [lockCount band0 band1 band2 fftSize].
  - split; [|split; [lia|done]]. unfold lockInv in *. cbn [lock0 lock1 lock2 lock3]. apply Forall_cons_1 in H as [_ H]. apply Forall_cons_1 in H as [_ H]. apply Forall_cons_1 in H as [_ H]. apply Forall_cons_1 in H as [H _].
    assert (K : forall p b x y, 0 <= p -> (0 <= x)%Q -> 0 <= lp (clampLock (rate g / 2) (LockBand p b x y)) /\ (0 <= lf0 (clampLock (rate g / 2) (LockBand p b x y)))%Q).
    { intros p b x y Hp Hx. cbn. split; [done|]. by destruct (ltq _ _). }
    apply Forall_cons_2; [apply K; [lia|lra]|]. apply Forall_cons_2; [apply K; [lia|lra]|]. apply Forall_cons_2; [apply K; [by destruct (256 <? h)|lra]|]. apply Forall_cons_2; [done|]. constructor.
  - split; [|split; [lia|done]]. unfold lockInv in *. cbn [lock0 lock1 lock2 lock3]. apply Forall_cons_1 in H as [H0 H]. apply Forall_cons_1 in H as [H1 H]. apply Forall_cons_1 in H as [H2 H]. apply Forall_cons_1 in H as [H3 _]. repeat (apply Forall_cons_2; [done|]). constructor.
Qed.
Lemma choose_inv g q h m s s' : (0 <= minLower g)%Q -> (0 <= minHigher g)%Q -> (0 <= defaultLower g)%Q -> (0 <= defaultHigher g)%Q -> chooseBands g q h m s = Some s' -> sized g s -> lockInv s' /\ sized g s'.
Proof.
  intros H1 H2 H3 H4 E Hs. unfold chooseBands in E. apply bind_Some in E as (lw & _ & E). apply bind_Some in E as (hg & _ & E). cbv zeta in E. apply (inj Some) in E. subst s'. split; [|exact Hs].
  assert (N : forall x mx mn d, (0 <= mn)%Q -> (0 <= d)%Q -> (0 <= (if ltq mx x || ltq x mn then d else x))%Q).
  { intros x mx mn d Hmn Hd. destruct (ltq mx x); cbn [orb]; [done|]. destruct (ltq x mn) eqn:E; [done|]. apply ltq_false in E. lra. }
  unfold lockInv, withLocks. cbn [lock0 lock1 lock2 lock3].
  apply Forall_cons_2; [split; [cbn; lia|cbn; lra]|]. apply Forall_cons_2; [split; [cbn; lia|]; by apply N|]. apply Forall_cons_2.
  { split; [cbn; lia|]. cbn [lf0]. unfold maxq. destruct (ltq _ 1600); [lra|]. by apply N. }
  apply Forall_cons_2; [split; [cbn; by destruct (256 <? h)|]; by apply N|]. constructor.
Qed.
Lemma update_inv g a s s' : (0 <= rate g)%Q -> (singleWindow g = false -> (0 <= minLower g)%Q /\ (0 <= minHigher g)%Q /\ (0 <= defaultLower g)%Q /\ (0 <= defaultHigher g)%Q) ->
  updateGuidance g a s = Some s' -> lockInv s -> lockInv s' /\ sized g s'.
Proof.
  intros Hr Hd E Hs. unfold updateGuidance in E. cbv zeta in E.
  set (s1 := withRanges s _ _ _ _ _) in E. assert (H1 : lockInv s1) by exact Hs. destruct (prepare_inv g (ratio a) (GuideModel.outhop a) s1 Hr H1) as [P1 P2]. set (s2 := prepare g (ratio a) (GuideModel.outhop a) s1) in *. clearbody s2.
  destruct (resetOnSilence a && _). { apply (inj Some) in E. subst s'. unfold updateForSilence. destruct (singleWindow g) eqn:Es; split; try done; (destruct P2; split; [done|]; by rewrite Es in *). }
  destruct (0 <? unityCount a). { apply (inj Some) in E. subst s'. unfold updateForUnity, updateForSilence. unfold sized in *. destruct (realtime a), (present (phaseReset s)), (singleWindow g) eqn:Es; split; done. }
  apply bind_Some in E as ([k fk] & _ & E). set (s3 := withRanges s2 _ _ _ _ _) in E. assert (Q : lockInv s3 /\ sized g s3) by done. clearbody s3.
  apply bind_Some in E as (s4 & E4 & E).
  assert (Q4 : lockInv s4 /\ sized g s4). { destruct (singleWindow g) eqn:Es; [apply (inj Some) in E4; by subst s4|]. destruct (Hd eq_refl) as (D1 & D2 & D3 & D4). exact (choose_inv g _ _ _ s3 s4 D1 D2 D3 D4 E4 (proj2 Q)). }
  destruct (ltq 2 (ratio a)); apply (inj Some) in E; subst s'; [|done]. exact Q4.
Qed.
Lemma run_inv g frames : (0 <= rate g)%Q -> (singleWindow g = false -> (0 <= minLower g)%Q /\ (0 <= minHigher g)%Q /\ (0 <= defaultLower g)%Q /\ (0 <= defaultHigher g)%Q) ->
  forall s gs, guideRun g s frames = Some gs -> lockInv s -> Forall (fun s => lockInv s /\ sized g s) gs.
Proof.
  intros Hr Hd. induction frames as [|a frames IH]; intros s gs E Hs; cbn [guideRun] in E; [apply (inj Some) in E; subst gs; constructor|].
  apply bind_Some in E as (s' & E1 & E). apply bind_Some in E as (r & E2 & E). apply (inj Some) in E. subst gs. pose proof (update_inv g a s s' Hr Hd E1 Hs) as [U1 U2]. apply Forall_cons_2; [done|]. by apply (IH s').
Qed.
Lemma inv_locksOk g s : lockInv s -> sized g s -> locksOk s.
Proof.
  intros H [Hc _]. unfold locksOk, lockBands. unfold lockInv in H. assert (lockCount s = 3 \/ lockCount s = 4) as [->| ->] by lia.
  - change (Z.to_nat 3) with 3%nat. cbn [take]. split; [done|]. apply Forall_cons_1 in H as [H0 H]. apply Forall_cons_1 in H as [H1 H]. apply Forall_cons_1 in H as [H2 H]. repeat (apply Forall_cons_2; [done|]). constructor.
  - change (Z.to_nat 4) with 4%nat. cbn [take]. done.
Qed.
Lemma guided rate single frames g gs s l : (8000 <= rate)%Q -> (rate <= 192000)%Q -> newGuide rate single = Some g -> guideRun g guidance0 frames = Some gs -> s ∈ gs -> l ∈ bandLimit g ->
  let su := Setup (lfft l) rate (bandLimit g) in setupOk su (b0min l) (b1max l) /\ locksOk s /\ myBins su s = Some (b0min l, b1max l).
Proof.
  intros H1 H2 Eg Er Hs Hl. pose proof (limits_fit rate single g H1 H2 Eg) as HF. destruct (guide_sizes rate single H1 H2) as (g' & n & E & Hn & Hn4 & _ & Erate & Es & En & Hsz). assert (g' = g) as -> by congruence.
  assert (HI : Forall (fun s => lockInv s /\ sized g s) gs).
  { apply (run_inv g frames) with guidance0; [rewrite Erate; lra| |done|].
    - intros Hx. rewrite Es in Hx. rewrite Hx in Hsz. destruct Hsz as (_ & _ & _ & -> & -> & -> & -> & _). repeat split; lra.
    - unfold lockInv. cbn. repeat (apply Forall_cons_2; [cbn; split; [lia|lra]|]). constructor. }
  rewrite Forall_forall in HI. destruct (HI s (proj1 (elem_of_list_In _ _) Hs)) as [I1 I2]. cbn zeta.
  assert (Hfit : 0 <= b0min l /\ b0min l <= b1max l /\ b1max l <= lfft l / 2) by (rewrite Forall_forall in HF; apply HF; by apply elem_of_list_In).
  assert (Hpos : 0 < lfft l).
  { assert (512 <= n / 2) by (apply Z.div_le_lower_bound; lia).
  destruct single; [destruct Hsz as (_ & _ & Eb)|destruct Hsz as (_ & _ & Eb & _)]; rewrite Eb in Hl; repeat (apply elem_of_cons in Hl as [->|Hl]; [cbn [lfft bandLimits]; lia|]); by apply elem_of_nil in Hl. }
  split; [|split; [by eapply inv_locksOk|]].
  - constructor; cbn [pfft prate]; [done|lra|lia|lia|unfold binCount; cbn; lia].
  - destruct I2 as [_ I2]. rewrite Es in I2. unfold myBins, myBand. cbn [plimits pfft]. destruct single.
    + destruct Hsz as (Z1 & Z2 & Eb). rewrite Eb in *. apply elem_of_list_singleton in Hl as ->. rewrite I2, En. cbn [lfft bandLimits]. rewrite Z.eqb_refl. done.
    + destruct Hsz as (Z1 & Z2 & Eb & _). rewrite Eb in *. destruct I2 as (I2 & I3 & I4). rewrite I2, I3, I4, Z1, Z2, En. assert (n / 2 < n) by (apply Z.div_lt_upper_bound; lia). assert (n / 2 < n) by lia.
      apply elem_of_cons in Hl as [->|Hl]; [cbn [lfft bandLimits]; by rewrite Z.eqb_refl|]. apply elem_of_cons in Hl as [->|Hl]; [cbn [lfft bandLimits]; rewrite (proj2 (Z.eqb_neq (n * 2) n)), Z.eqb_refl by lia; done|].
      apply elem_of_list_singleton in Hl as ->. cbn [lfft bandLimits]. rewrite (proj2 (Z.eqb_neq (n * 2) (n / 2))), (proj2 (Z.eqb_neq n (n / 2))), Z.eqb_refl by lia. done.
Qed.
