(** The life cycle of an offline stretcher over every sequence of calls. *)
From stdpp Require Import prelude.
From Coq Require Import ZArith QArith Qround Lia Lqa.
From Verif Require Import Base.Arith Faster.Sizes Faster.Model Offline.Model Offline.LifeSpec.
From Verif Require Calculator.Model.
Local Open Scope Z_scope.

Section Life.
Context {A S R K KS : Type} (D : dsp A S R K) (X : outside A S R KS).
Notation chan := (channel A S R).
Notation engine := (engine A S R KS).
Implicit Types (e : engine) (c d : chan).

Definition phaseOf e : phase :=
  match emode e with JustCreated => Idle | Studying => Learning | Processing => Running | Finished => Over end.

(** What no call but the setters changes. *)
Record steady e e' : Prop := Steady { se_mode : emode e' = emode e; se_time : (time e' == time e)%Q; se_pitch : (pitch e' == pitch e)%Q }.
Definition positive e : Prop := (0 < time e)%Q /\ (0 < pitch e)%Q.

Lemma sizes_ratios g s : calculateSizes g = Some s ->
  timeRatio' s = (if ltQ 0 (Sizes.timeRatio g) then Sizes.timeRatio g else 1%Q) /\ pitchScale' s = (if ltQ 0 (Sizes.pitchScale g) then Sizes.pitchScale g else 1%Q).
Proof.
  intros E. unfold calculateSizes in E. cbv zeta in E.
  match type of E with (?x ≫= _) = _ => destruct x as [[inc win]|]; [|discriminate] end.
  change (Some ?x ≫= ?f) with (f x) in E. cbv beta iota in E.
  match type of E with (?x ≫= _) = _ => destruct x as [inc'|]; [|discriminate] end.
  change (Some ?x ≫= ?f) with (f x) in E. cbv beta zeta in E. injection E as <-. done.
Qed.
Lemma ltQ_sensible q : (if ltQ 0 q then q else 1%Q) = sensible q.
Proof. unfold ltQ, sensible. by destruct (Qle_bool q 0). Qed.
Lemma sensible_pos q : (0 < sensible q)%Q.
Proof. unfold sensible. destruct (Qle_bool q 0) eqn:E; [done|]. apply Qnot_le_lt. intros H. apply Qle_bool_iff in H. congruence. Qed.
Lemma sensible_id q : (0 < q)%Q -> sensible q = q.
Proof. intros H. unfold sensible. destruct (Qle_bool q 0) eqn:E; [|done]. apply Qle_bool_iff in E. lra. Qed.
Lemma sensible_comp q q' : (q == q')%Q -> (0 < q)%Q -> sensible q' = q'.
Proof. intros H Hq. apply sensible_id. by rewrite <- H. Qed.

Lemma configure_ratios prev e e' : configure D X prev e = Some e' ->
  emode e' = emode e /\ time e' = sensible (time e) /\ pitch e' = sensible (pitch e).
Proof.
  unfold configure. intros E. destruct (calculateSizes (configOf e)) as [s|] eqn:Es; [|discriminate].
  change (Some ?x ≫= ?f) with (f x) in E. cbv beta zeta in E. injection E as <-.
  apply sizes_ratios in Es as [H1 H2]. cbn [Sizes.timeRatio Sizes.pitchScale configOf] in H1, H2. rewrite ltQ_sensible in H1, H2. done.
Qed.
Lemma calculateStretch_steady e e' : calculateStretch e = Some e' -> emode e' = emode e /\ time e' = time e /\ pitch e' = pitch e.
Proof.
  unfold calculateStretch. intros E. destruct (Calculator.Model.calculate _ _ _) as [l|]; [|discriminate].
  change (Some ?x ≫= ?f) with (f x) in E. cbv beta in E. injection E as <-. done.
Qed.
Lemma reconfigure_ratios e e' : reconfigure D X e = Some e' ->
  emode e' = emode e /\ time e' = sensible (time e) /\ pitch e' = sensible (pitch e).
Proof.
  unfold reconfigure. intros E.
  match type of E with (?x ≫= _) = _ => destruct x as [e1|] eqn:E1; [|discriminate] end.
  change (Some ?x ≫= ?f) with (f x) in E. cbv beta in E.
  assert (H1 : emode e1 = emode e /\ time e1 = time e /\ pitch e1 = pitch e).
  { destruct (emode e) eqn:Em; try (injection E1 as <-; done).
    destruct (calculateStretch e) as [e2|] eqn:E2; [|discriminate]. change (Some ?x ≫= ?f) with (f x) in E1. cbv beta in E1. injection E1 as <-.
    apply calculateStretch_steady in E2 as (? & ? & ?). cbn. rewrite Em in *. done. }
  match type of E with (?x ≫= _) = _ => destruct x as [e2|] eqn:E2; [|discriminate] end.
  change (Some ?x ≫= ?f) with (f x) in E. cbv beta in E.
  apply configure_ratios in E2. destruct (calculateSizes (configOf e2)) as [s|]; [|discriminate].
  change (Some ?x ≫= ?f) with (f x) in E. cbv beta in E. destruct (_ && _); [|discriminate]. injection E as <-.
  destruct H1 as (H1 & H2 & H3), E2 as (H4 & H5 & H6). rewrite H4, H5, H6, H1, H2, H3. done.
Qed.

Lemma study_steady e bs final e' : study X e bs final = Some e' ->
  time e' = time e /\ pitch e' = pitch e /\ phaseOf e' = next (phaseOf e) (Study bs final).
Proof.
  unfold study, phaseOf. intros E.
  assert (G : forall e1, emode e1 = Studying -> time e1 = time e -> pitch e1 = pitch e ->
    match chans e1 with [] => Some e1 | c :: cs =>
      let m := mixdown X e1 bs final in
      x ← studyLoop X (Datatypes.S (Z.to_nat (zlen m))) e1 c m final (dfs e1) (silence e1) (inDuration e1) (curves e1);
      let '(c, df, sil, dur, k) := x in
      let dur := if final then
                   let dur := dur + zlen (inbuf c) in
                   if Sizes.window (sz e1) / 2 <? dur then dur - Sizes.window (sz e1) / 2 else dur
                 else dur in
      Some (with_study e1 df sil dur k (c :: cs))
    end = Some e' -> time e' = time e /\ pitch e' = pitch e /\ emode e' = Studying).
  { intros e1 Hm Ht Hp E1. destruct (chans e1) as [|c cs]; [injection E1 as <-; done|]. cbv zeta in E1.
    match type of E1 with (?x ≫= _) = _ => destruct x as [[[[[d df] sil] dur] k]|]; [|discriminate] end.
    change (Some ?x ≫= ?f) with (f x) in E1. cbv beta iota in E1. injection E1 as <-. done. }
  destruct (emode e) eqn:Em; try (injection E as <-; rewrite Em; done).
  all: apply G in E as (? & ? & Hm); try done; rewrite Hm; done.
Qed.
Lemma process_steady e bs final e' : processBlock D X e bs final = Some e' ->
  time e' = time e /\ pitch e' = pitch e /\ phaseOf e' = next (phaseOf e) (Process bs final).
Proof.
  unfold processBlock, phaseOf. intros E. destruct (emode e) eqn:Em.
  4: { injection E as <-. by rewrite Em. }
  all: match type of E with (?x ≫= _) = _ => destruct x as [e1|] eqn:E1; [|discriminate] end;
    change (Some ?x ≫= ?f) with (f x) in E; cbv beta zeta in E;
    match type of E with (?x ≫= _) = _ => destruct x as [cs|]; [|discriminate] end;
    change (Some ?x ≫= ?f) with (f x) in E; cbv beta in E; injection E as <-;
    assert (H1 : time e1 = time e /\ pitch e1 = pitch e).
  1, 5: by injection E1 as <-.
  2: { destruct (calculateStretch e) as [e2|] eqn:E2; [|discriminate]. change (Some ?x ≫= ?f) with (f x) in E1. cbv beta in E1. injection E1 as <-.
       by apply calculateStretch_steady in E2 as (_ & ? & ?). }
  all: destruct H1 as [H1 H2]; cbn; rewrite H1, H2; by destruct final.
Qed.

(** One call. *)
Lemma step_life e a r e' : positive e -> step D X e a = Some (r, e') ->
  positive e' /\ phaseOf e' = next (phaseOf e) a /\
  (time e' == match a with SetTime q => if refused (phaseOf e) a then time e else sensible q | _ => time e end)%Q /\
  (pitch e' == match a with SetPitch q => if refused (phaseOf e) a then pitch e else sensible q | _ => pitch e end)%Q /\
  (refused (phaseOf e) a = true -> e' = e).
Proof.
  intros [Ht Hp] E. pose proof (sensible_id _ Ht) as St. pose proof (sensible_id _ Hp) as Sp. unfold positive.
  destruct a as [q|q|m|n|n|bs final|bs final| |n| | | |]; cbn [step] in E; unfold quietly in E.
  - match type of E with (?x ≫= _) = _ => destruct x as [e1|] eqn:E1; [|discriminate] end.
    change (Some ?x ≫= ?f) with (f x) in E. cbv beta in E. injection E as <- <-.
    unfold setTimeRatio, begun in E1. unfold phaseOf, refused.
    assert (G : forall e2, reconfigure D X (with_ratios e q (pitch e)) = Some e2 ->
      (0 < time e2)%Q /\ (0 < pitch e2)%Q /\ emode e2 = emode e /\ (time e2 == sensible q)%Q /\ (pitch e2 == pitch e)%Q).
    { intros e2 E2. apply reconfigure_ratios in E2 as (H1 & H2 & H3). cbn in H1, H2, H3. rewrite H1, H2, H3, Sp. split; [apply sensible_pos|]. done. }
    destruct (emode e) eqn:Em; cbn [orb] in E1.
    2, 3: injection E1 as <-; rewrite Em; done.
    all: destruct (Qeq_bool q (time e)) eqn:Eq;
      [injection E1 as <-; apply Qeq_bool_iff in Eq; rewrite Em; split; [done|]; split; [done|]; split; [|done];
       rewrite sensible_id by (by rewrite Eq); by rewrite Eq
      |apply G in E1 as (H1 & H2 & H3 & H4 & H5); rewrite H3; done].
  - match type of E with (?x ≫= _) = _ => destruct x as [e1|] eqn:E1; [|discriminate] end.
    change (Some ?x ≫= ?f) with (f x) in E. cbv beta in E. injection E as <- <-.
    unfold setPitchScale, begun in E1. unfold phaseOf, refused.
    assert (G : forall e2, (let was1 := Qeq_bool (pitch e) 1 in
      e ← reconfigure D X (with_ratios e (time e) q);
      Some (if negb (highC (opts e)) && was1 && negb (Qeq_bool (pitch e) 1)
        then with_chans e ((fun c => if rbSize c =? 0 then c else set_rsm c (rsmReset X (rsm c)) (rbSize c)) <$> chans e) else e)) = Some e2 ->
      (0 < time e2)%Q /\ (0 < pitch e2)%Q /\ emode e2 = emode e /\ (time e2 == time e)%Q /\ (pitch e2 == sensible q)%Q).
    { intros e2 E2. cbv zeta in E2. destruct (reconfigure D X _) as [e3|] eqn:E3; [|discriminate].
      change (Some ?x ≫= ?f) with (f x) in E2. cbv beta in E2. apply reconfigure_ratios in E3 as (H1 & H2 & H3). cbn in H1, H2, H3.
      injection E2 as <-. destruct (_ && _); cbn; rewrite H1, H2, H3, St; (split; [done|]; split; [apply sensible_pos|]; done). }
    destruct (emode e) eqn:Em; cbn [orb] in E1.
    2, 3: injection E1 as <-; rewrite Em; done.
    all: destruct (Qeq_bool q (pitch e)) eqn:Eq;
      [injection E1 as <-; apply Qeq_bool_iff in Eq; rewrite Em; split; [done|]; split; [done|]; split; [done|]; split; [|done];
       rewrite sensible_id by (by rewrite Eq); by rewrite Eq
      |apply G in E1 as (H1 & H2 & H3 & H4 & H5); rewrite H3; done].
  - injection E as <- <-. unfold setKeyFrameMap, phaseOf. destruct (emode e) eqn:Em; cbn; rewrite ?Em; done.
  - match type of E with (?x ≫= _) = _ => destruct x as [e1|] eqn:E1; [|discriminate] end.
    change (Some ?x ≫= ?f) with (f x) in E. cbv beta in E. injection E as <- <-. unfold setExpectedInputDuration in E1.
    assert (H : emode e1 = emode e /\ time e1 = time e /\ pitch e1 = pitch e).
    { destruct (_ =? _); [by injection E1 as <-|]. apply reconfigure_ratios in E1 as (H1 & H2 & H3). cbn in H1, H2, H3. by rewrite H1, H2, H3, St, Sp. }
    destruct H as (H1 & H2 & H3). unfold phaseOf. rewrite H1, H2, H3. by destruct (emode e).
  - match type of E with (?x ≫= _) = _ => destruct x as [e1|] eqn:E1; [|discriminate] end.
    change (Some ?x ≫= ?f) with (f x) in E. cbv beta in E. injection E as <- <-. unfold setMaxProcessSize in E1.
    assert (H : emode e1 = emode e /\ time e1 = time e /\ pitch e1 = pitch e).
    { destruct (_ <=? _); [by injection E1 as <-|]. apply reconfigure_ratios in E1 as (H1 & H2 & H3). cbn in H1, H2, H3. by rewrite H1, H2, H3, St, Sp. }
    destruct H as (H1 & H2 & H3). unfold phaseOf. rewrite H1, H2, H3. by destruct (emode e).
  - destruct (study X e bs final) as [e1|] eqn:E1; [|discriminate]. change (Some ?x ≫= ?f) with (f x) in E. cbv beta in E. injection E as <- <-.
    pose proof E1 as E2. apply study_steady in E2 as (H1 & H2 & H3). rewrite H1, H2, H3. do 4 (split; [done|]).
    unfold study, phaseOf in *. destruct (emode e); try done; injection E1 as <-; done.
  - destruct (processBlock D X e bs final) as [e1|] eqn:E1; [|discriminate]. change (Some ?x ≫= ?f) with (f x) in E. cbv beta in E. injection E as <- <-.
    pose proof E1 as E2. apply process_steady in E2 as (H1 & H2 & H3). rewrite H1, H2, H3. do 4 (split; [done|]).
    unfold processBlock, phaseOf in *. destruct (emode e); try done; injection E1 as <-; done.
  - destruct (available D e) as [[n e1]|] eqn:E1; [|discriminate]. change (Some ?x ≫= ?f) with (f x) in E. cbv beta iota in E. injection E as <- <-.
    unfold available in E1. destruct (chans e) as [|c cs]; [injection E1 as <- <-; unfold phaseOf; by destruct (emode e)|].
    match type of E1 with (?x ≫= _) = _ => destruct x as [cs'|]; [|discriminate] end.
    change (Some ?x ≫= ?f) with (f x) in E1. cbv beta in E1. injection E1 as <- <-. unfold phaseOf. cbn. by destruct (emode e).
  - unfold retrieve in E. destruct (takeOut (chans e) n) as [[xs got] cs]. injection E as <- <-. unfold phaseOf. cbn. by destruct (emode e).
  - match type of E with (?x ≫= _) = _ => destruct x as [e1|] eqn:E1; [|discriminate] end.
    change (Some ?x ≫= ?f) with (f x) in E. cbv beta in E. injection E as <- <-. unfold reset in E1.
    apply reconfigure_ratios in E1 as (H1 & H2 & H3). cbn in H1, H2, H3. unfold phaseOf. rewrite H1, H2, H3, St, Sp. by destruct (emode e).
  - injection E as <- <-. unfold phaseOf. by destruct (emode e).
  - injection E as <- <-. unfold phaseOf. by destruct (emode e).
  - injection E as <- <-. unfold phaseOf. by destruct (emode e).
Qed.

Lemma steps_heeded l : forall e rs e', positive e -> steps D X e l = Some (rs, e') ->
  steps D X e (heeded (phaseOf e) l) = Some (answered (phaseOf e) l rs, e').
Proof.
  induction l as [|a l IH]; intros e rs e' Hp E; [by injection E as <- <-|].
  cbn [steps] in E. destruct (step D X e a) as [[r e1]|] eqn:E1; [|discriminate]. change (Some ?x ≫= ?f) with (f x) in E. cbv beta iota in E.
  destruct (steps D X e1 l) as [[rs1 e2]|] eqn:E2; [|discriminate]. change (Some ?x ≫= ?f) with (f x) in E. cbv beta iota in E. injection E as <- <-.
  destruct (step_life e a r e1 Hp E1) as (Hp1 & Hph & _ & _ & Hr). pose proof (IH e1 rs1 e2 Hp1 E2) as H. cbn [heeded answered].
  rewrite Hph in H. destruct (refused (phaseOf e) a).
  - specialize (Hr eq_refl). subst e1. done.
  - cbn [steps]. rewrite E1. change (Some ?x ≫= ?f) with (f x). cbv beta iota. rewrite H. done.
Qed.
Lemma told_comp (l : list (call (A := A))) : forall ph t t' p p' (rs : list (answer (A := A))), (t == t')%Q -> (p == p')%Q ->
  Forall2 agrees (told ph t p l) rs -> Forall2 agrees (told ph t' p' l) rs.
Proof.
  induction l as [|a l IH]; intros ph t t' p p' rs Ht Hp H; cbn [told] in *; [done|].
  inversion H as [|x r xs rs' H1 H2]; subst. constructor.
  - destruct a; try done; destruct H1 as (q' & -> & Hq); exists q'; (split; [done|]); by rewrite Hq.
  - eapply IH; [| |exact H2]; [destruct a; try done|destruct a; try done]; by destruct (refused ph _).
Qed.
Lemma steps_told l : forall e rs e', positive e -> steps D X e l = Some (rs, e') -> Forall2 agrees (told (phaseOf e) (time e) (pitch e) l) rs.
Proof.
  induction l as [|a l IH]; intros e rs e' Hp E; [injection E as <- <-; constructor|].
  cbn [steps] in E. destruct (step D X e a) as [[r e1]|] eqn:E1; [|discriminate]. change (Some ?x ≫= ?f) with (f x) in E. cbv beta iota in E.
  destruct (steps D X e1 l) as [[rs1 e2]|] eqn:E2; [|discriminate]. change (Some ?x ≫= ?f) with (f x) in E. cbv beta iota in E. injection E as <- <-.
  destruct (step_life e a r e1 Hp E1) as (Hp1 & Hph & Ht & Hpi & _). pose proof (IH e1 rs1 e2 Hp1 E2) as H. cbn [told].
  constructor.
  - destruct a; try done; injection E1 as <- <-; eexists; split; done.
  - rewrite Hph in H. by eapply told_comp.
Qed.

Lemma create_idle o rt n t p e : create D X o rt n t p = Some e ->
  positive e /\ phaseOf e = Idle /\ time e = sensible t /\ pitch e = sensible p.
Proof.
  unfold create. intros E. destruct (baseSize _ _ _) as [b|]; [|discriminate]. change (Some ?x ≫= ?f) with (f x) in E. cbv beta zeta in E.
  apply configure_ratios in E as (H1 & H2 & H3). cbn in H1, H2, H3. unfold positive, phaseOf. rewrite H1, H2, H3. split; [|done].
  split; apply sensible_pos.
Qed.
Lemma session_heeded o rt n t p l rs : session D X o rt n t p l = Some rs ->
  session D X o rt n t p (heeded Idle l) = Some (answered Idle l rs).
Proof.
  unfold session. intros E. destruct (create D X o rt n t p) as [e|] eqn:Ec; [|discriminate]. change (Some ?x ≫= ?f) with (f x) in E |- *. cbv beta in E |- *.
  destruct (create_idle _ _ _ _ _ _ Ec) as (Hp & Hi & _). destruct (steps D X e l) as [[rs' e']|] eqn:E2; [|discriminate]. injection E as <-.
  apply steps_heeded in E2; [|done]. rewrite Hi in E2. by rewrite E2.
Qed.
Lemma session_told o rt n t p l rs : session D X o rt n t p l = Some rs -> Forall2 agrees (told Idle (sensible t) (sensible p) l) rs.
Proof.
  unfold session. intros E. destruct (create D X o rt n t p) as [e|] eqn:Ec; [|discriminate]. change (Some ?x ≫= ?f) with (f x) in E. cbv beta in E.
  destruct (create_idle _ _ _ _ _ _ Ec) as (Hp & Hi & Ht & Hpi). destruct (steps D X e l) as [[rs' e']|] eqn:E2; [|discriminate]. injection E as <-.
  apply steps_told in E2; [|done]. by rewrite Hi, Ht, Hpi in E2.
Qed.
End Life.
