(** Nothing is given back without readahead. *)
From stdpp Require Import prelude list numbers.
From Coq Require Import ZArith QArith Qround Lia Lqa.
From Verif Require Import Base.Arith MathMisc.Model MathMisc.Proofs Finer.PeakModel Finer.SegmenterModel Finer.GuideModel Finer.GuideSpec Finer.GuideProofs
  Finer.KickModel Finer.KickSpec Finer.KickProofs Finer.FarModel.
From stdpp Require Import list.
Local Open Scope Z_scope.

Lemma no_kick_of_itself g m b : checkPotentialKick g m m = Some b -> b = false.
Proof.
  unfold checkPotentialKick. cbv zeta. destruct (sumBins m (seqZ 1 (binForFrequency 200 (cfft g) (rate g))) 0) as [x|]; [|discriminate].
  bindsome. intros H. apply (inj Some) in H. subst b. destruct (ltq (10 # 1000) x) eqn:E1; [|reflexivity]. cbn [andb].
  apply ltq_true in E1. destruct (ltq (x * (14 # 10)) x) eqn:E2; [|reflexivity]. apply ltq_true in E2. exfalso. lra.
Qed.

Definition farFrame (g : guide) (s : kstate) (a : kframe) : frame :=
  Frame (kratio a) (kprevOuthop a) (classifyPrev s) (classifyPrev s) (scaleBy (cfft g) (rawNow a)) (segNext s) (segNow s) (newSegm a) (meanOf (cfft g) (scaleBy (cfft g) (rawNow a))) (kunity a) false false true.
Lemma far_ok r g n s a : setup r false g n -> kgood g s -> kframe_ok g a -> exists s' m, kstepFar g s a = Some (s', m) /\ kgood g s' /\
  present (kick (guid s')) = false /\
  every_bin (fun i x d y e => 0 <= y /\ 0 <= e /\ (y == x /\ e = d \/ present (preKick (guid s')) = true /\ y < x /\ lost x y e))%Q (incoming g a) (pendingKick s) m (pendingKick s').
Proof.
  intros St [Kc Klo Khi Ka Kp Kl Kd] (F1 & F2 & F3 & F4 & F5). pose proof St as [Hr1 Hr2 Hn Hn4 Er Es En Hsz]. destruct Hsz as (Hlg & _).
  assert (Hnow : full (cfft g) (scaleBy (cfft g) (rawNow a))) by (apply scaleBy_full; [lia|done]).
  assert (Hin : full (longest g) (incoming g a)) by (apply scaleBy_full; [lia|done]).
  destruct (update_good r false g n (farFrame g s a) (guid s) St Kc) as (gd & Eg & Gg). { split_and!; cbn; [apply Kp|apply Kp|apply Hnow]. }
  destruct (update_kicks g (farFrame g s a) (guid s) gd Es Eg) as (HF & HK).
  assert (Hkp : present (kick gd) = false /\ rf0 (preKick gd) = 0%Q /\ (0 <= rf1 (preKick gd) /\ rf1 (preKick gd) <= rate g / 2)%Q).
  { destruct HK as [(_ & -> & ->)|(_ & k & f & Ek & -> & ->)]; [by cbn|].
    assert (k = false) as ->.
    { unfold detectKicks in Ek. cbn [magnitudes prevMagnitudes nextMagnitudes segm prevSegm nextSegm farFrame] in Ek.
      destruct (ltq 40 (percussiveBelow (segNext s)) && ltq (percussiveBelow (segNow s)) 40).
      - destruct (checkPotentialKick g (classifyPrev s) (classifyPrev s)) as [b|] eqn:Eb; [|discriminate Ek]. apply no_kick_of_itself in Eb. subst b.
        cbn [mbind option_bind negb andb] in Ek. destruct (if _ && _ then _ else _) as [f'|]; [|discriminate Ek]. cbn in Ek. congruence.
      - cbn [mbind option_bind negb andb] in Ek. destruct (if _ && _ then _ else _) as [f'|]; [|discriminate Ek]. cbn in Ek. congruence. }
    split; [reflexivity|]. destruct f; by cbn. }
  destruct Hkp as (K0 & P0 & P1 & P2).
  destruct (adjust_ok r g n gd (incoming g a) (longPrev s) (pendingKick s) St HF P0 P1 P2 Hin Kl Kd) as (m & p & Ea & L3 & L4 & L5 & Hall).
  eexists _, m. split.
  { unfold kstepFar. cbv zeta. fold (farFrame g s a). rewrite Eg. bindsome. change (scaleBy (longest g) (rawLong a)) with (incoming g a). rewrite Ea. bindsome. reflexivity. }
  cbn [guid segNext segNow readaheadMag haveReadahead classifyPrev pendingKick longPrev]. rewrite K0 in Hall.
  assert (Hpt : forall i, 0 <= i < Z.of_nat (length (incoming g a)) -> exists u v, at_ m i = Some u /\ at_ p i = Some v /\ (0 <= u /\ 0 <= v)%Q).
  { intros i Hi. destruct (at_some (incoming g a) i Hi) as [x Hx]. destruct (at_some (pendingKick s) i) as [d Hd]; [lia|]. destruct (Hall i x d Hx Hd) as (u & v & ? & ? & ? & ? & _). eauto 8. }
  split.
  { destruct Hin as [Hin _]. constructor; cbn [guid segNext segNow readaheadMag haveReadahead classifyPrev pendingKick longPrev]; try done.
    - apply Gg.
    - apply full_by; [lia|]. intros i x Hx. destruct (Hpt i) as (u & v & Hu & Hv & ? & ?); [apply at_lt in Hx; lia|]. congruence.
    - apply full_by; [lia|]. intros i x Hx. destruct (Hpt i) as (u & v & Hu & Hv & ? & ?); [apply at_lt in Hx; lia|]. congruence. }
  split; [exact K0|]. split; [exact L3|]. split; [exact L4|]. split; [exact L5|]. intros i x d Hx Hd.
  destruct (Hall i x d Hx Hd) as (u & v & Eu & Ev & U0 & V0 & H). exists u, v. split; [exact Eu|]. split; [exact Ev|]. split; [exact U0|]. split; [exact V0|].
  destruct (present (preKick gd)).
  - destruct H as [[H1 H2]|(H1 & H2 & _)]; [left|right].
    + unfold kept in H1. rewrite H2 in H1. split; [lra|exact H2].
    + unfold lost in *. split; [reflexivity|]. split; [lra|exact H1].
  - left. destruct H as [-> ->]. split; [reflexivity|reflexivity].
Qed.

Lemma anew_good g s : kgood g s -> kgood g (anew s).
Proof. intros [? ? ? ? ? ? ?]. constructor; assumption. Qed.
Lemma any_ok r g n lim prev s h a : setup r false g n -> kgood g s -> kframe_ok g a -> exists s' m, kstepAny g lim prev s h a = Some (s', m) /\ kgood g s'.
Proof.
  intros St Hg Ha. unfold kstepAny. destruct (h <? lim).
  - destruct (kstep_ok r g n (if h =? prev then s else anew s) a St) as (s' & m & E & G & _); [destruct (h =? prev); [exact Hg|by apply anew_good]|exact Ha|]. eauto.
  - destruct (far_ok r g n s a St Hg Ha) as (s' & m & E & G & _). eauto.
Qed.
Lemma anys_ok r g n lim l : setup r false g n -> forall prev s, kgood g s -> Forall (fun x => kframe_ok g x.2) l -> exists p s' ms, krunAny g lim prev s l = Some (p, s', ms) /\ kgood g s'.
Proof.
  intros St. induction l as [|[h a] l IH]; intros prev s Hg Hl; cbn [krunAny]; [eauto|]. apply Forall_cons_1 in Hl as [Ha Hl]. cbn [snd] in Ha.
  destruct (any_ok r g n lim prev s h a St Hg Ha) as (s1 & m & E1 & G1). rewrite E1. bindsome. destruct (IH h s1 G1 Hl) as (p & s2 & ms & E2 & G2). rewrite E2. bindsome. eauto.
Qed.

Lemma never_released r : (8000 <= r)%Q -> (r <= 192000)%Q -> exists g, newGuide r false = Some g /\ forall lim h0 l h a,
  Forall (fun x => kframe_ok g x.2) l -> kframe_ok g a -> lim <= h ->
  exists p s ms s' m, krunAny g lim h0 (kstate0 g) l = Some (p, s, ms) /\ kstepAny g lim p s h a = Some (s', m) /\
    every_bin (fun i x d y e => 0 <= y /\ 0 <= e /\ (y == x /\ e = d \/ present (preKick (guid s')) = true /\ y < x /\ lost x y e))%Q (incoming g a) (pendingKick s) m (pendingKick s').
Proof.
  intros H1 H2. destruct (multi_setup r H1 H2) as (g & n & E & St). exists g. split; [exact E|]. intros lim h0 l h a Hl Ha Hh.
  destruct (anys_ok r g n lim l St h0 (kstate0 g) (kstate0_good r g n St) Hl) as (p & s & ms & Er & Gs).
  destruct (far_ok r g n s a St Gs Ha) as (s' & m & Ek & _ & _ & HH). exists p, s, ms, s', m. split; [exact Er|].
  split; [|exact HH]. unfold kstepAny. destruct (Z.ltb_spec h lim); [lia|exact Ek].
Qed.
