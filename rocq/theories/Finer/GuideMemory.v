(** C89: what the guide of the finer engine remembers. *)
From stdpp Require Import prelude list numbers.
From Coq Require Import ZArith QArith Qround Lia Lqa.
From Verif Require Import Base.Arith Finer.SegmenterModel Finer.GuideModel Finer.GuideSpec Finer.GuideProofs.
From stdpp Require Import list.
Local Open Scope Z_scope.

(** ** Model: a channel's guidance in the course of a session. R3Stretcher.h:254-268, called by
    R3Stretcher::reset (R3Stretcher.cpp:579-581) and R3LiveShifter::reset (R3LiveShifter.cpp:313-315),
    resets all of the channel's data except its guidance. *)
Inductive event := Play (a : frame) | Reset_.
Fixpoint session (g : guide) (s : guidance) (l : list event) : option guidance :=
  match l with
  | [] => Some s
  | Play a :: l => s ← updateGuidance g a s; session g s l
  | Reset_ :: l => session g s l
  end.
(** R3LiveShifter.cpp:109-111: a new live shifter's channels begin with a phase reset over all frequencies. *)
Definition liveGuidance (g : guide) : guidance := withReset guidance0 (Range true 0 (rate g / 2)).

(** ** Spec: what of a guidance has an effect. *)
Definition shown (r : range) : option (Q * Q) := if present r then Some (rf0 r, rf1 r) else None.
Definition bands (s : guidance) : list fftBand := take (Z.to_nat (fftBandCount s)) [band0 s; band1 s; band2 s].
Definition locks (s : guidance) : list lockBand := take (Z.to_nat (lockCount s)) [lock0 s; lock1 s; lock2 s; lock3 s].
Definition view (s : guidance) := (bands s, (shown (kick s), shown (preKick s), shown (highUnlocked s), shown (phaseReset s), shown (channelLock s))).
(** A frame that is silent in a channel that minds; one at ratio 1; an ordinary one. *)
Definition silent (a : frame) : bool := resetOnSilence a && ltq (meanMagnitude a) (1 # 1000000).
Definition atUnity (a : frame) : bool := negb (silent a) && (0 <? unityCount a).
Definition ordinary (a : frame) : bool := negb (silent a) && negb (0 <? unityCount a).
Definition forgets (g : guide) (a : frame) : bool :=
  silent a || (atUnity a && negb (realtime a)) || (singleWindow g && ordinary a).

(** ** Proofs *)
(** Two guidances from which the same follows *)
Definition alike (g : guide) (s t : guidance) : Prop :=
  shown (phaseReset s) = shown (phaseReset t) /\
  (singleWindow g = false -> f0 (band0 s) = f0 (band0 t) /\ f1 (band0 s) = f1 (band0 t) /\
     f0 (band1 s) = f0 (band1 t) /\ f1 (band1 s) = f1 (band1 t) /\ f0 (band2 s) = f0 (band2 t) /\ f1 (band2 s) = f1 (band2 t)).

Ltac keep H H4 H5 := split; [|done]; unfold locks in H |- *; rewrite H4, H5 in H; change (Z.to_nat 4) with 4%nat in H; cbn [take] in H;
  let L0 := fresh "L" in let L1 := fresh "L" in let L2 := fresh "L" in let L3 := fresh "L" in injection H as L0 L1 L2 L3;
  cbn [lockCount withReset withRanges withBands]; change (Z.to_nat 4) with 4%nat; cbn [take lock0 lock1 lock2 lock3 withReset withRanges withBands];
  rewrite L0, L1, L2, L3; reflexivity.

Lemma alike_step g a s t s' : alike g s t \/ forgets g a = true -> updateGuidance g a s = Some s' ->
  exists t', updateGuidance g a t = Some t' /\ alike g s' t' /\ view s' = view t' /\
    (ordinary a = true \/ singleWindow g = true \/ locks s = locks t /\ lockCount s = 4 /\ lockCount t = 4 -> locks s' = locks t' /\ lockCount s' = lockCount t') /\
    (singleWindow g = false -> lockCount s' = 4 /\ lockCount t' = 4).
Proof.
  destruct g as [gr gs gl gsh gc gb m1 m2 d1 d2 x1 x2]; destruct gs.
  - (* single window *)
    intros H. unfold updateGuidance, prepare, updateForUnity, updateForSilence, forgets, atUnity, ordinary, silent in *. cbn [singleWindow rate] in *.
    destruct (resetOnSilence a && ltq (meanMagnitude a) (1 # 1000000)); cbn [negb orb andb] in *.
    { intros [= <-]. eexists. split; [reflexivity|]. split_and!; try done. }
    destruct (0 <? unityCount a); cbn [negb orb andb] in *.
    { destruct (realtime a); cbn [negb orb andb] in *.
      - destruct H as [[H _]|H]; [|discriminate]. unfold shown in H.
        destruct (present (phaseReset s)), (present (phaseReset t)); try discriminate; cbn [negb].
        + injection H as H1 H2. intros [= <-]. eexists. split; [reflexivity|]. cbn. rewrite H1, H2. split_and!; try done.
        + intros [= <-]. eexists. split; [reflexivity|]. split_and!; try done.
      - intros [= <-]. eexists. split; [reflexivity|]. split_and!; try done. }
    clear H. cbn [mbind option_bind]. intros E. cbn in E.
    assert (A : exists p, p = (ltq (percussiveAbove (segm a) + 4000) (residualAbove (segm a)) && ltq (residualAbove (prevSegm a)) (percussiveAbove (prevSegm a) + 4000))) by eauto.
    destruct A as [p Ep]. cbn. rewrite <- Ep in *.
    destruct p, (ltq (percussiveAbove (segm a)) (residualAbove (segm a))), (ltq 2 (ratio a)); cbn in *; injection E as <-; eexists; (split; [reflexivity|]); split_and!; done.
  - (* three windows *)
    intros H. unfold updateGuidance, prepare, updateForUnity, updateForSilence, forgets, atUnity, ordinary, silent in *. cbn [singleWindow rate] in *.
    destruct (resetOnSilence a && ltq (meanMagnitude a) (1 # 1000000)); cbn [negb orb andb] in *.
    { clear H. intros [= <-]. eexists. split; [reflexivity|]. split_and!; try done.
      intros [?|[?|(H & H4 & H5)]]; [done..|]. keep H H4 H5. }
    destruct (0 <? unityCount a); cbn [negb orb andb] in *.
    { destruct (realtime a); cbn [negb orb andb] in *.
      - destruct H as [[H _]|H]; [|discriminate]. unfold shown in H.
        destruct (present (phaseReset s)), (present (phaseReset t)); try discriminate; cbn [negb].
        + injection H as H1 H2. intros [= <-]. eexists. split; [reflexivity|]. cbn. rewrite H1, H2. split_and!; try done.
          intros [?|[?|(H & H4 & H5)]]; [done..|]. keep H H4 H5.
        + intros [= <-]. eexists. split; [reflexivity|]. split_and!; try done.
          intros [?|[?|(H' & H4 & H5)]]; [done..|]. keep H' H4 H5.
      - intros [= <-]. eexists. split; [reflexivity|]. split_and!; try done.
        intros [?|[?|(H' & H4 & H5)]]; [done..|]. keep H' H4 H5. }
    destruct H as [[H HB]|H]; [|discriminate]. specialize (HB eq_refl) as (B1 & B2 & B3 & B4 & B5 & B6).
    set (G := Guide _ _ _ _ _ _ _ _ _ _ _ _).
    destruct (detectKicks G _ _ _ _ _ _) as [[k fk]|]; [|done]. cbn [mbind option_bind].
    unfold chooseBands. cbn. rewrite <- B2, <- B4.
    destruct (descendToValley G (f1 (band0 s)) (magnitudes a)) as [lower|]; [|done]. cbn [mbind option_bind].
    destruct (descendToValley G (f1 (band1 s)) (magnitudes a)) as [higher|]; [|done]. cbn [mbind option_bind]. cbn.
    destruct k, fk, (ltq (percussiveAbove (segm a) + 4000) (residualAbove (segm a)) && ltq (residualAbove (prevSegm a)) (percussiveAbove (prevSegm a) + 4000)),
      (ltq (percussiveAbove (segm a)) (residualAbove (segm a))), (ltq 2 (ratio a)); cbn; intros [= <-]; eexists; (split; [reflexivity|]);
      (split; [split; [reflexivity|intros _; split_and!; reflexivity]|]); (split; [reflexivity|]); (split; [intros _; split; reflexivity|intros _; split; reflexivity]).
Qed.
