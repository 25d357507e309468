(** Property C89: what an earlier sound leaves behind in the guide of the finer engine. *)
From stdpp Require Import prelude list numbers.
From Coq Require Import ZArith QArith Qround Lia Lqa.
From Verif Require Import Base.Arith Finer.SegmenterModel Finer.GuideModel Finer.GuideSpec Finer.GuideProofs Finer.GuideMemory.
From stdpp Require Import list.
Local Open Scope Z_scope.

Lemma alike_run g : forall l s t gs, alike g s t -> guideRun g s l = Some gs ->
  exists gt, guideRun g t l = Some gt /\ view <$> gs = view <$> gt /\
    forall l1 b l2, l = l1 ++ b :: l2 -> ordinary b = true \/ singleWindow g = true -> locks <$> drop (length l1) gs = locks <$> drop (length l1) gt.
Proof.
  assert (L4 : forall l s t gs, alike g s t -> locks s = locks t -> lockCount s = 4 -> lockCount t = 4 -> singleWindow g = false ->
    guideRun g s l = Some gs -> exists gt, guideRun g t l = Some gt /\ locks <$> gs = locks <$> gt).
  { induction l as [|a l IH]; intros s t gs A L C1 C2 W E; cbn [guideRun] in *.
    - injection E as <-. exists []. done.
    - destruct (updateGuidance g a s) as [s'|] eqn:Es; [|done]. cbn [mbind option_bind] in *.
      destruct (guideRun g s' l) as [r|] eqn:Er; [|done]. cbn [mbind option_bind] in *. injection E as <-.
      destruct (alike_step g a s t s' (or_introl A) Es) as (t' & Et & A' & V & K & C). rewrite Et. cbn [mbind option_bind].
      destruct (K ltac:(tauto)) as [K1 K2]. destruct (C W) as [D1 D2].
      destruct (IH s' t' r A' K1 D1 D2 W Er) as (gt & Egt & Eq). rewrite Egt. cbn [mbind option_bind].
      eexists. split; [reflexivity|]. rewrite !fmap_cons, K1, Eq. done. }
  assert (L1 : forall l s t gs, alike g s t -> singleWindow g = true -> guideRun g s l = Some gs ->
    exists gt, guideRun g t l = Some gt /\ locks <$> gs = locks <$> gt).
  { induction l as [|a l IH]; intros s t gs A W E; cbn [guideRun] in *.
    - injection E as <-. exists []. done.
    - destruct (updateGuidance g a s) as [s'|] eqn:Es; [|done]. cbn [mbind option_bind] in *.
      destruct (guideRun g s' l) as [r|] eqn:Er; [|done]. cbn [mbind option_bind] in *. injection E as <-.
      destruct (alike_step g a s t s' (or_introl A) Es) as (t' & Et & A' & V & K & C). rewrite Et. cbn [mbind option_bind].
      destruct (K ltac:(tauto)) as [K1 K2].
      destruct (IH s' t' r A' W Er) as (gt & Egt & Eq). rewrite Egt. cbn [mbind option_bind].
      eexists. split; [reflexivity|]. rewrite !fmap_cons, K1, Eq. done. }
  induction l as [|a l IH]; intros s t gs A E; cbn [guideRun] in *.
  - injection E as <-. exists []. split_and!; try done.
  - destruct (updateGuidance g a s) as [s'|] eqn:Es; [|done]. cbn [mbind option_bind] in *.
    destruct (guideRun g s' l) as [r|] eqn:Er; [|done]. cbn [mbind option_bind] in *. injection E as <-.
    destruct (alike_step g a s t s' (or_introl A) Es) as (t' & Et & A' & V & K & C). rewrite Et. cbn [mbind option_bind].
    destruct (IH s' t' r A' Er) as (gt & Egt & EV & EL). rewrite Egt. cbn [mbind option_bind].
    eexists. split; [reflexivity|]. split; [rewrite !fmap_cons, V, EV; done|].
    intros [|c l1] b l2 H Hb; cbn [app] in H; injection H as -> ->; cbn [length drop].
    + destruct (K ltac:(tauto)) as [K1 K2]. rewrite !fmap_cons, K1. f_equal.
      destruct (singleWindow g) eqn:W.
      * destruct (L1 l2 s' t' r A' eq_refl Er) as (gt' & Egt' & ?). congruence.
      * destruct (C eq_refl) as [D1 D2]. destruct (L4 l2 s' t' r A' K1 D1 D2 eq_refl Er) as (gt' & Egt' & ?). congruence.
    + by eapply EL.
Qed.

(** A silent frame, a frame at ratio 1 offline, or with single windows any frame but one at ratio 1 in
    real time: from it on the bands and ranges do not depend on anything that came before; and the
    phase-lock bands do not from the next ordinary frame on. *)
Theorem C89_forgets g a l s t gs : forgets g a = true -> guideRun g s (a :: l) = Some gs ->
  exists gt, guideRun g t (a :: l) = Some gt /\ view <$> gs = view <$> gt /\
    forall l1 b l2, l = l1 ++ b :: l2 -> ordinary b = true \/ singleWindow g = true ->
      locks <$> drop (S (length l1)) gs = locks <$> drop (S (length l1)) gt.
Proof.
  intros F E. cbn [guideRun] in *.
  destruct (updateGuidance g a s) as [s'|] eqn:Es; [|done]. cbn [mbind option_bind] in *.
  destruct (guideRun g s' l) as [r|] eqn:Er; [|done]. cbn [mbind option_bind] in *. injection E as <-.
  destruct (alike_step g a s t s' (or_intror F) Es) as (t' & Et & A' & V & K & C). rewrite Et. cbn [mbind option_bind].
  destruct (alike_run g l s' t' r A' Er) as (gt & Egt & EV & EL). rewrite Egt. cbn [mbind option_bind].
  eexists. split; [reflexivity|]. split; [rewrite !fmap_cons, V, EV; done|].
  intros l1 b l2 H Hb. cbn [drop]. by eapply EL.
Qed.
Print Assumptions C89_forgets.

(** ** At ratio 1 in real time *)
Definition sane (g : guide) (a : frame) : Prop :=
  (0 <= percussiveAbove (segm a) <= rate g / 2 /\ 0 <= residualAbove (segm a) /\
   0 <= percussiveAbove (nextSegm a) /\ 0 <= residualAbove (nextSegm a))%Q.
(** A phase reset range is not above 96000 Hz and reaches 4000 Hz *)
Definition inv (s : guidance) : Prop := present (phaseReset s) = true -> (0 <= rf0 (phaseReset s) <= 96000 /\ 4000 <= rf1 (phaseReset s))%Q.

Lemma minq_le a b : (minq a b <= a /\ minq a b <= b /\ (minq a b = a \/ minq a b = b))%Q.
Proof. unfold minq. destruct (ltq b a) eqn:E; [apply ltq_true in E|apply ltq_false in E]; split_and!; try lra; tauto. Qed.
Lemma maxq_ge a b : (a <= maxq a b /\ b <= maxq a b)%Q.
Proof. unfold maxq. destruct (ltq a b) eqn:E; [apply ltq_true in E|apply ltq_false in E]; lra. Qed.

Lemma inv_step g a s s' : (8000 <= rate g <= 192000)%Q -> sane g a -> inv s -> updateGuidance g a s = Some s' -> inv s'.
Proof.
  intros Hr (S1 & S2 & S3 & S4) I. unfold updateGuidance.
  assert (N : (4000 <= rate g / 2 <= 96000)%Q) by (split; [apply Qle_shift_div_l|apply Qle_shift_div_r]; lra).
  set (nyq := (rate g / 2)%Q) in *.
  assert (PP : forall q h x, phaseReset (prepare g q h x) = phaseReset x) by (intros; unfold prepare; by destruct (singleWindow g)).
  assert (SIL : forall x, inv (updateForSilence g x)).
  { intros x _. unfold updateForSilence. destruct (singleWindow g); cbn; fold nyq; lra. }
  destruct (resetOnSilence a && _); [intros [= <-]; apply SIL|].
  destruct (0 <? unityCount a).
  { unfold updateForUnity. destruct (realtime a); cbn [negb]; [|intros [= <-]; apply SIL].
    set (x := prepare g _ _ _). assert (Ex : rf0 (phaseReset x) = rf0 (phaseReset s) /\ rf1 (phaseReset x) = rf1 (phaseReset s)) by (unfold x; rewrite PP; done).
    clearbody x. destruct Ex as [Ex0 Ex1]. fold nyq.
    destruct (present (phaseReset s)) eqn:Ep; cbn [negb].
    - specialize (I Ep).
      assert (G : forall y, rf0 (phaseReset y) = rf0 (phaseReset s) -> rf1 (phaseReset y) = rf1 (phaseReset s) ->
        inv (withReset y (Range true (if ltq (if ltq (rf0 (phaseReset y) * (9 # 10)) (residualAbove (segm a)) then minq (rf0 (phaseReset y) * (9 # 10)) (percussiveAbove (segm a)) else rf0 (phaseReset y) * (9 # 10)) 100 then 0%Q else
           (if ltq (rf0 (phaseReset y) * (9 # 10)) (residualAbove (segm a)) then minq (rf0 (phaseReset y) * (9 # 10)) (percussiveAbove (segm a)) else rf0 (phaseReset y) * (9 # 10)))
           (if ltq 16000 (rf1 (phaseReset y) * (11 # 10)) then nyq else rf1 (phaseReset y) * (11 # 10))))).
      { intros y -> ->. intros _. cbn [phaseReset withReset withRanges rf0 rf1].
        set (lo := (rf0 (phaseReset s) * (9 # 10))%Q). pose proof (minq_le lo (percussiveAbove (segm a))) as (M1 & M2 & M3).
        assert (L : (0 <= (if ltq lo (residualAbove (segm a)) then minq lo (percussiveAbove (segm a)) else lo) <= 96000)%Q).
        { destruct (ltq lo _); [destruct M3 as [-> | ->]|]; unfold lo in *; lra. }
        split.
        - destruct (ltq _ 100); [lra|exact L].
        - destruct (ltq 16000 _); lra. }
      destruct (singleWindow g); intros E; injection E as <-; match goal with |- _ (withReset ?y _) => exact (G y Ex0 Ex1) end.
    - destruct (singleWindow g); intros [= <-] _; cbn; lra. }
  match goal with |- context [if singleWindow g then Some (false, false) else ?d] => destruct (if singleWindow g then Some (false, false) else d) as [[k fk]|]; [|done] end.
  cbn [mbind option_bind]. set (x := prepare g _ _ _).
  assert (Ex : present (phaseReset x) = false) by (unfold x; rewrite PP; done). clearbody x.
  set (c := ltq (percussiveAbove (segm a) + 4000) (residualAbove (segm a)) && ltq (residualAbove (prevSegm a)) (percussiveAbove (prevSegm a) + 4000)).
  set (rst := if c then _ else _).
  assert (IR : present rst = true -> (0 <= rf0 rst <= 96000 /\ 4000 <= rf1 rst)%Q).
  { unfold rst. destruct c eqn:Ec; [|congruence]. intros _. cbn [rf0 rf1].
    apply andb_true_iff in Ec as [Ec _]. apply ltq_true in Ec.
    pose proof (minq_le (percussiveAbove (segm a)) (percussiveAbove (nextSegm a))) as (M1 & M2 & M3).
    pose proof (maxq_ge (residualAbove (segm a)) (residualAbove (nextSegm a))) as [X1 X2].
    split; [|lra]. destruct (ltq _ 200); [lra|]. split; [destruct M3 as [-> | ->]; lra|lra]. }
  assert (CH : forall y z, (if singleWindow g then Some y else chooseBands g (ratio a) (outhop a) (magnitudes a) y) = Some z -> phaseReset z = phaseReset y).
  { intros y z. destruct (singleWindow g); [intros [= <-]; done|]. unfold chooseBands.
    destruct (descendToValley g (f1 (band0 y)) _); [|done]. cbn [mbind option_bind].
    destruct (descendToValley g (f1 (band1 y)) _); [|done]. cbn [mbind option_bind]. intros [= <-]. done. }
  match goal with |- context [if singleWindow g then Some ?y else _] => destruct (if singleWindow g then Some y else chooseBands g (ratio a) (outhop a) (magnitudes a) y) as [z|] eqn:Ez; [|done]; apply CH in Ez end.
  cbn [mbind option_bind]. cbn in Ez. destruct (ltq 2 (ratio a)); intros [= <-]; unfold inv; cbn [phaseReset withRanges]; rewrite Ez; exact IR.
Qed.

Definition pow (q : Q) (n : nat) : Q := Nat.iter n (Qmult q) 1%Q.
Definition covers (g : guide) (s : guidance) : Prop := present (phaseReset s) = true /\ (rf0 (phaseReset s) == 0)%Q /\ (rate g / 2 <= rf1 (phaseReset s))%Q.
(** After [n] frames at ratio 1 *)
Definition late (g : guide) (n : nat) (s : guidance) : Prop :=
  present (phaseReset s) = true /\ (0 <= rf0 (phaseReset s))%Q /\
  (rf0 (phaseReset s) == 0 \/ 100 <= rf0 (phaseReset s) <= 96000 * pow (9 # 10) n)%Q /\
  (rate g / 2 <= rf1 (phaseReset s) \/ 4000 * pow (11 # 10) n <= rf1 (phaseReset s) <= 16000)%Q.

Definition soon (g : guide) (n : nat) (s : guidance) : Prop :=
  (0 <= rf0 (phaseReset s) <= 96000 * pow (9 # 10) n)%Q /\ (rate g / 2 <= rf1 (phaseReset s) \/ 4000 * pow (11 # 10) n <= rf1 (phaseReset s))%Q.
Lemma pow_pos q n : (0 < q)%Q -> (0 < pow q n)%Q.
Proof. intros H. induction n as [|n IH]; [done|]. change (pow q (S n)) with (q * pow q n)%Q. apply Qmult_lt_0_compat; done. Qed.
Lemma pow_down n k : (pow (9 # 10) (k + n) <= pow (9 # 10) n)%Q.
Proof. induction k as [|k IH]; [cbn [Nat.add]; lra|]. change (pow (9 # 10) (S k + n)) with ((9 # 10) * pow (9 # 10) (k + n))%Q. pose proof (pow_pos (9 # 10) (k + n) ltac:(done)). lra. Qed.
Lemma pow_up n k : (pow (11 # 10) n <= pow (11 # 10) (k + n))%Q.
Proof. induction k as [|k IH]; [apply Qle_refl|]. change (pow (11 # 10) (S k + n)) with ((11 # 10) * pow (11 # 10) (k + n))%Q. pose proof (pow_pos (11 # 10) (k + n) ltac:(done)). lra. Qed.
Lemma late_soon g n s : late g n s -> soon g n s.
Proof. intros (_ & P0 & L & H). pose proof (pow_pos (9 # 10) n ltac:(done)). split; [lra|]. destruct H as [H|H]; [left; lra|right; lra]. Qed.
Lemma late_covers g n s : late g n s -> (66 <= n)%nat -> covers g s.
Proof.
  intros (P & P0 & L & H) Hn. split_and!; [exact P| |].
  - destruct L as [L|L]; [exact L|]. exfalso. pose proof (pow_down 66 (n - 66)) as D. replace (n - 66 + 66)%nat with n in D by lia.
    assert (96000 * pow (9 # 10) 66 < 100)%Q by (vm_compute; reflexivity). lra.
  - destruct H as [H|H]; [exact H|]. exfalso. pose proof (pow_up 15 (n - 15)) as D. replace (n - 15 + 15)%nat with n in D by lia.
    assert (16000 < 4000 * pow (11 # 10) 15)%Q by (vm_compute; reflexivity). lra.
Qed.

Lemma late_step g a s s' n : (8000 <= rate g <= 192000)%Q -> sane g a -> realtime a = true -> 0 < unityCount a ->
  (present (phaseReset s) = true /\ soon g n s \/ present (phaseReset s) = false /\ n = O) -> updateGuidance g a s = Some s' -> late g (S n) s'.
Proof.
  intros Hr (S1 & S2 & S3 & S4) Rt U D. unfold updateGuidance.
  assert (N : (4000 <= rate g / 2 <= 96000)%Q) by (split; [apply Qle_shift_div_l|apply Qle_shift_div_r]; lra).
  set (nyq := (rate g / 2)%Q) in *.
  assert (PP : forall q h x, phaseReset (prepare g q h x) = phaseReset x) by (intros; unfold prepare; by destruct (singleWindow g)).
  destruct (resetOnSilence a && _).
  { intros [= <-]. unfold late, updateForSilence. destruct (singleWindow g); cbn; fold nyq; split_and!; try done; try lra; left; lra. }
  destruct (Z.ltb_spec 0 (unityCount a)) as [_|]; [|lia]. unfold updateForUnity. rewrite Rt. cbn [negb].
  set (x := prepare g _ _ _). assert (Ex : rf0 (phaseReset x) = rf0 (phaseReset s) /\ rf1 (phaseReset x) = rf1 (phaseReset s)) by (unfold x; rewrite PP; done).
  clearbody x. destruct Ex as [Ex0 Ex1]. fold nyq.
  destruct D as [(P & L & H)|[P ->]]; rewrite P; cbn [negb].
  2:{ destruct (singleWindow g); intros E; injection E as <-; unfold late; cbn [phaseReset withReset withRanges withBands present rf0 rf1]; fold nyq;
      (split; [done|]); (split; [lra|]); (split; [right; split; vm_compute; discriminate|left; lra]). }
  assert (G : forall y, rf0 (phaseReset y) = rf0 (phaseReset s) -> rf1 (phaseReset y) = rf1 (phaseReset s) ->
        late g (S n) (withReset y (Range true (if ltq (if ltq (rf0 (phaseReset y) * (9 # 10)) (residualAbove (segm a)) then minq (rf0 (phaseReset y) * (9 # 10)) (percussiveAbove (segm a)) else rf0 (phaseReset y) * (9 # 10)) 100 then 0%Q else
           (if ltq (rf0 (phaseReset y) * (9 # 10)) (residualAbove (segm a)) then minq (rf0 (phaseReset y) * (9 # 10)) (percussiveAbove (segm a)) else rf0 (phaseReset y) * (9 # 10)))
           (if ltq 16000 (rf1 (phaseReset y) * (11 # 10)) then nyq else rf1 (phaseReset y) * (11 # 10))))).
  { intros y -> ->. unfold late. cbn [phaseReset withReset withRanges rf0 rf1 present].
    set (lo := (rf0 (phaseReset s) * (9 # 10))%Q). pose proof (minq_le lo (percussiveAbove (segm a))) as (M1 & M2 & M3).
    set (lo' := if ltq lo (residualAbove (segm a)) then minq lo (percussiveAbove (segm a)) else lo).
    assert (L' : (0 <= lo' <= lo)%Q).
    { unfold lo'. destruct (ltq lo _); [destruct M3 as [M3|M3]; rewrite M3 in *|]; unfold lo in *; lra. }
    change (pow (9 # 10) (S n)) with ((9 # 10) * pow (9 # 10) n)%Q. change (pow (11 # 10) (S n)) with ((11 # 10) * pow (11 # 10) n)%Q.
    fold nyq. split_and!; [done| | |].
    - destruct (ltq lo' 100); lra.
    - destruct (ltq lo' 100) eqn:E; [left; lra|]. apply ltq_false in E. right. unfold lo in *. lra.
    - destruct (ltq 16000 _) eqn:E; [left; lra|]. apply ltq_false in E. fold nyq in H. destruct H as [H|H]; [left; lra|right; lra]. }
  destruct (singleWindow g); intros E; injection E as <-; match goal with |- _ (withReset ?y _) => exact (G y Ex0 Ex1) end.
Qed.

Lemma late_run g : (8000 <= rate g <= 192000)%Q -> forall l s gs n, Forall (fun a => sane g a /\ realtime a = true /\ 0 < unityCount a) l ->
  (present (phaseReset s) = true /\ soon g n s \/ present (phaseReset s) = false /\ n = O) ->
  guideRun g s l = Some gs -> forall i t, gs !! i = Some t -> late g (n + S i) t.
Proof.
  intros Hr. induction l as [|a l IH]; intros s gs n F D E i t Hi; cbn [guideRun] in E.
  - injection E as <-. discriminate.
  - inversion F as [|? ? (Sa & Ra & Ua) F']; subst.
    destruct (updateGuidance g a s) as [s'|] eqn:Es; [|done]. cbn [mbind option_bind] in *.
    destruct (guideRun g s' l) as [r|] eqn:Er; [|done]. cbn [mbind option_bind] in *. injection E as <-.
    pose proof (late_step g a s s' n Hr Sa Ra Ua D Es) as L. destruct i as [|i]; cbn in Hi.
    + injection Hi as <-. replace (n + 1)%nat with (S n) by lia. exact L.
    + replace (n + S (S i))%nat with (S n + S i)%nat by lia. eapply IH; [exact F'| |exact Er|exact Hi].
      left. split; [apply L|by apply late_soon].
Qed.

(** Whatever was played before, from the 66th frame at ratio 1 in real time on, the phases of all
    frequencies are taken from the input. *)
Theorem C89_unity g : (8000 <= rate g <= 192000)%Q -> forall before after s gs, Forall (sane g) before ->
  session g guidance0 (Play <$> before) = Some s ->
  Forall (fun a => sane g a /\ realtime a = true /\ 0 < unityCount a) after ->
  guideRun g s after = Some gs -> forall i t, gs !! i = Some t -> (65 <= i)%nat -> covers g t.
Proof.
  intros Hr before after s gs Fb Es Fa Er i t Hi Hn.
  assert (I : inv s).
  { assert (I0 : inv guidance0) by (intros ?; discriminate). revert I0 Es. generalize guidance0 as s0.
    induction Fb as [|a l Ha _ IH]; intros s0 I0 E; cbn in E.
    - injection E as <-. exact I0.
    - destruct (updateGuidance g a s0) as [s1|] eqn:E1; [|done]. cbn [mbind option_bind] in E.
      eapply IH; [|exact E]. eapply inv_step; eauto. }
  eapply (late_covers g (0 + S i)); [|lia]. eapply late_run; [exact Hr|exact Fa| |exact Er|exact Hi].
  destruct (present (phaseReset s)) eqn:P; [left|right; done]. split; [done|]. specialize (I P).
  split; [change (pow (9 # 10) 0) with 1%Q; lra|right; change (pow (11 # 10) 0) with 1%Q; lra].
Qed.
Print Assumptions C89_unity.

(** ** Cases and findings *)
Definition calm : segmentation := Segmentation 0 22000 22000.
Definition ramp (v : Z) : list Q := map (fun i => inject_Z (Z.min 12 (Z.abs (Z.of_nat i - v)) + 1)) (seq 0 1025).
(** valleys at bins 33 and 45 *)
Definition twoValleys : list Q := map (fun i => inject_Z (Z.min 12 (Z.min (Z.abs (Z.of_nat i - 33)) (Z.abs (Z.of_nat i - 45))) + 1)) (seq 0 1025).
Definition still (m : list Q) : frame := Frame (3 # 2) 200 m m m calm calm calm 1 0 true false true.
Definition unityFrame : frame := Frame 1 256 (ramp 33) (ramp 33) (ramp 33) calm calm calm 1 1 true false true.
Definition silentFrame : frame := Frame (3 # 2) 200 (ramp 33) (ramp 33) (ramp 33) calm calm calm 0 0 true false true.
Definition g44 : guide := match newGuide 44100 false with Some g => g | None => Guide 0 false 0 0 0 [] 0 0 0 0 0 0 end.

Example C89_forgets_example : newGuide 44100 false = Some g44 /\ forgets g44 silentFrame = true /\
  match session g44 guidance0 (Play <$> replicate 6 (still (ramp 45))) with
  | Some s => (exists gs, guideRun g44 s [silentFrame; still twoValleys; still twoValleys] = Some gs) /\ view s <> view guidance0
  | None => False
  end.
Proof.
  split; [vm_compute; reflexivity|]. split; [vm_compute; reflexivity|].
  vm_compute. split; [eexists; reflexivity|]. discriminate.
Qed.
Example C89_unity_example : sane g44 unityFrame /\ sane g44 (still (ramp 45)) /\ (8000 <= rate g44 <= 192000)%Q /\
  match guideRun g44 guidance0 (replicate 66 unityFrame) with Some gs => match last gs with Some t => covers g44 t | None => False end | None => False end.
Proof.
  split; [split_and!; vm_compute; discriminate|]. split; [split_and!; vm_compute; discriminate|]. split; [split; vm_compute; discriminate|].
  vm_compute. split; [done|]. split; [done|discriminate].
Qed.

(** A reset stretcher is not guided as a new one: after a sound with a valley at bin 45 and reset(),
    the lower band ends there for as long as the sound that follows lasts; in a new stretcher, given the
    same frames, it ends at bin 33. *)
Theorem C89_reset_refuted : exists g before a, newGuide 44100 false = Some g /\ Forall (frame_ok g) (a :: before) /\
  forall n, exists s t, session g guidance0 ((Play <$> before) ++ Reset_ :: (Play <$> replicate (S (S n)) a)) = Some s /\
    session g guidance0 (Play <$> replicate (S (S n)) a) = Some t /\ bands s <> bands t.
Proof.
  exists g44, (replicate 6 (still (ramp 45))), (still twoValleys).
  split; [vm_compute; reflexivity|].
  split; [repeat (apply Forall_cons_2; [vm_compute; split_and!; reflexivity|]); apply Forall_nil_2|].
  assert (A : exists s0 s, session g44 guidance0 (Play <$> replicate 6 (still (ramp 45))) = Some s0 /\
    updateGuidance g44 (still twoValleys) s0 = Some s /\ updateGuidance g44 (still twoValleys) s = Some s /\
    exists t0 t, updateGuidance g44 (still twoValleys) guidance0 = Some t0 /\ updateGuidance g44 (still twoValleys) t0 = Some t /\
     updateGuidance g44 (still twoValleys) t = Some t /\ bands s <> bands t).
  { eexists _, _. split; [vm_compute; reflexivity|]. split; [vm_compute; reflexivity|]. split; [vm_compute; reflexivity|].
    eexists _, _. split; [vm_compute; reflexivity|]. split; [vm_compute; reflexivity|]. split; [vm_compute; reflexivity|]. vm_compute. discriminate. }
  destruct A as (s0 & s & E0 & E1 & E2 & t0 & t & T0 & T1 & T2 & N). clear -E0 E1 E2 T0 T1 T2 N.
  assert (SA : forall l1 l2 s, session g44 s (l1 ++ l2) = session g44 s l1 ≫= (fun s => session g44 s l2)).
  { clear. induction l1 as [|[a|] l1 IH]; intros l2 s; cbn [app session]; [done| |apply IH]. destruct (updateGuidance g44 a s); [apply IH|done]. }
  assert (FIX : forall x n, updateGuidance g44 (still twoValleys) x = Some x -> session g44 x (Play <$> replicate n (still twoValleys)) = Some x).
  { clear. intros x n E. induction n as [|n IH]; [done|]. cbn [replicate]. rewrite fmap_cons. cbn [session]. rewrite E. cbn [mbind option_bind]. exact IH. }
  intros n. exists s, t. split; [|split; [|exact N]].
  - rewrite SA, E0. cbn [mbind option_bind session]. cbn [replicate]. rewrite !fmap_cons. cbn [session]. rewrite E1. cbn [mbind option_bind].
    rewrite E2. cbn [mbind option_bind]. apply FIX. exact E2.
  - cbn [replicate]. rewrite !fmap_cons. cbn [session]. rewrite T0. cbn [mbind option_bind]. rewrite T1. cbn [mbind option_bind]. apply FIX. exact T2.
Qed.
Print Assumptions C89_reset_refuted.

(** A live shifter at scale 1: new, it takes all phases from the input at once; after reset() it
    takes fifty frames until it does. *)
Theorem C89_live_refuted : exists g before a, newGuide 44100 false = Some g /\ Forall (frame_ok g) [before; a] /\
  (exists t, session g (liveGuidance g) [Play a] = Some t /\ covers g t) /\
  exists s, session g (liveGuidance g) (Play before :: Reset_ :: (Play <$> replicate 49 a)) = Some s /\ ~ covers g s.
Proof.
  exists g44, (still (ramp 33)), unityFrame. split; [vm_compute; reflexivity|].
  split; [repeat (apply Forall_cons_2; [vm_compute; split_and!; reflexivity|]); apply Forall_nil_2|].
  split.
  - eexists. split; [vm_compute; reflexivity|]. unfold covers. vm_compute. split; [done|]. split; [done|discriminate].
  - eexists. split; [vm_compute; reflexivity|]. unfold covers. intros (_ & H & _). vm_compute in H. discriminate.
Qed.
Print Assumptions C89_live_refuted.
