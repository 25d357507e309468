(** Coding two channels as mid and side. *)
From stdpp Require Import prelude.
From Coq Require Import ZArith QArith Qround Lia Lqa.
From Verif Require Import Base.Arith Faster.Sizes Faster.Model Faster.Core.
From Verif Require Import Offline.Model Offline.Spec Offline.Length.
From Verif Require Calculator.Model.
Local Open Scope Z_scope.

(** Independent of the model: the sum and the difference of the first two channels, halved, in
    the place of these channels; and the way back. *)
Definition toMidSide {A} (add sub : A -> A -> A) (half : A -> A) (bs : list (list A)) : list (list A) :=
  match bs with
  | l :: r :: bs => zip_with (fun a b => half (add a b)) l r :: zip_with (fun a b => half (sub a b)) l r :: bs
  | _ => bs
  end.
Definition fromMidSide {A} (add sub : A -> A -> A) (xs : list (list A)) : list (list A) :=
  match xs with
  | m :: s :: xs => zip_with add m s :: zip_with sub m s :: xs
  | _ => xs
  end.
(** The same client with the coding done by itself: what goes into process, what comes out of
    retrieve. *)
Definition codedCall {A} (add sub : A -> A -> A) (half : A -> A) (a : call (A := A)) : call (A := A) :=
  match a with Process bs final => Process (toMidSide add sub half bs) final | _ => a end.
Definition decodedAnswer {A} (add sub : A -> A -> A) (a : answer (A := A)) : answer (A := A) :=
  match a with Audio xs => Audio (fromMidSide add sub xs) | _ => a end.

Lemma from_to {A} (add sub : A -> A -> A) half : (forall a b, add (half (add a b)) (half (sub a b)) = a) ->
  (forall a b, sub (half (add a b)) (half (sub a b)) = b) ->
  forall n len bs, block n len bs -> fromMidSide add sub (toMidSide add sub half bs) = bs.
Proof.
  intros Ha Hs n len bs [_ H]. destruct bs as [|l [|r bs]]; try done. apply Forall_cons in H as [Hl H]. apply Forall_cons in H as [Hr _].
  cbn [toMidSide fromMidSide]. assert (E : length l = length r) by (unfold zlen in *; lia). clear Hl Hr.
  revert r E. induction l as [|a l IH]; intros [|b r] E; try done. cbn [zip_with]. rewrite Ha, Hs.
  specialize (IH r ltac:(by injection E)). injection IH as IH1 IH2. by rewrite IH1, IH2.
Qed.

Section MidSide.
Context {A S R K KS : Type} (D : dsp A S R K) (X : outside A S R KS).
Notation chan := (channel A S R).
Notation engine := (engine A S R KS).
Implicit Types (e : engine) (c d : chan).

Definition apart (o : options) : options := Options (short o) (long o) (smoothOn o) (smoothTransients o) (highQ o) (highC o) false.
(** The same stretcher without the option. *)
Definition bare e : engine := Engine (apart (opts e)) (rate e) (nch e) (baseFft e) (time e) (pitch e) (expectedIn e) (maxProc e) (sz e)
  (emode e) (dfs e) (silence e) (incs e) (inDuration e) (calc e) (curves e) (chans e).
Definition rel (x y : option engine) : Prop := y = bare <$> x.

Lemma rel_bind (x y : option engine) (f g : engine -> option engine) : rel x y -> (forall e, rel (f e) (g (bare e))) -> rel (x ≫= f) (y ≫= g).
Proof. intros -> H. destruct x as [e|]; [apply H|done]. Qed.
Lemma configure_bare prev e : rel (configure D X prev e) (configure D X prev (bare e)).
Proof.
  unfold rel, configure. change (configOf (bare e)) with (configOf e). destruct (calculateSizes (configOf e)) as [s|]; [|done]. reflexivity.
Qed.
Lemma stretch_bare e : rel (calculateStretch e) (calculateStretch (bare e)).
Proof.
  unfold rel, calculateStretch. change (effectiveRatio (bare e)) with (effectiveRatio e). cbn [bare calc dfs].
  destruct (Calculator.Model.calculate _ _ _) as [l|]; [|done]. reflexivity.
Qed.
Lemma reconfigure_bare e : rel (reconfigure D X e) (reconfigure D X (bare e)).
Proof.
  unfold reconfigure. apply rel_bind.
  - cbn [bare emode]. destruct (emode e); try done. apply rel_bind; [apply stretch_bare|]. done.
  - intros e1. change (sz (bare e1)) with (sz e1). apply rel_bind; [apply configure_bare|]. intros e2.
    change (configOf (bare e2)) with (configOf e2). unfold rel. destruct (calculateSizes (configOf e2)) as [s|]; [|done].
    change (Some ?x ≫= ?f) with (f x). cbv beta. change (sz (bare e2)) with (sz e2). by destruct (_ && _).
Qed.
Lemma create_bare o rt n t p : rel (create D X o rt n t p) (create D X (apart o) rt n t p).
Proof.
  unfold create. cbn [apart short long]. unfold rel. destruct (baseSize rt (short o) (long o)) as [b|]; [|done].
  change (Some ?x ≫= ?f) with (f x). cbv beta zeta. exact (configure_bare None (Engine o rt n b t p 0 (if short o || long o then b else 2048) _ _ _ _ _ _ _ _ _)).
Qed.
Lemma chunks_bare : forall f e c final df sil dur k, studyChunks X f (bare e) c final df sil dur k = studyChunks X f e c final df sil dur k.
Proof.
  induction f as [|f IH]; intros e c final df sil dur k; [done|]. cbn [studyChunks bare sz]. destruct (_ || _); [|done]. cbv zeta.
  destruct (_ <=? _); [|done]. destruct (onset X k _) as [[[a x] s] k']. apply IH.
Qed.
Lemma loop_bare : forall f e c rest final df sil dur k, studyLoop X f (bare e) c rest final df sil dur k = studyLoop X f e c rest final df sil dur k.
Proof.
  induction f as [|f IH]; intros e c rest final df sil dur k; [done|]. cbn [studyLoop]. destruct (_ =? 0); [done|]. cbv zeta. rewrite chunks_bare.
  destruct (studyChunks X _ e _ final df sil dur k) as [[[[[d df'] sil'] dur'] k']|]; [|done]. apply IH.
Qed.
Lemma study_bare e bs final : rel (study X e bs final) (study X (bare e) bs final).
Proof.
  unfold rel, study. change (emode (bare e)) with (emode e).
  destruct (emode e); try done; change (with_mode (bare e) Studying) with (bare (with_mode e Studying)).
  all: change (chans (bare (with_mode e Studying))) with (chans e); change (chans (with_mode e Studying)) with (chans e);
    destruct (chans e) as [|c cs]; [done|]; cbv zeta; rewrite loop_bare;
    change (mixdown X (bare (with_mode e Studying)) bs final) with (mixdown X (with_mode e Studying) bs final);
    change (dfs (bare (with_mode e Studying))) with (dfs e); change (silence (bare (with_mode e Studying))) with (silence e);
    change (inDuration (bare (with_mode e Studying))) with (inDuration e); change (curves (bare (with_mode e Studying))) with (curves e);
    change (dfs (with_mode e Studying)) with (dfs e); change (silence (with_mode e Studying)) with (silence e);
    change (inDuration (with_mode e Studying)) with (inDuration e); change (curves (with_mode e Studying)) with (curves e);
    destruct (studyLoop X _ _ _ _ _ _ _ _ _) as [[[[[d df'] sil'] dur'] k']|]; [|done]; reflexivity.
Qed.

Lemma processAll_ms P : before P = false -> forall cs bs ms final, processAll D P ms cs bs final = processAll D P false cs bs final.
Proof.
  intros Hb. induction cs as [|c cs IH]; intros bs ms final; [done|]. destruct bs as [|b bs]; [done|]. cbn [processAll].
  rewrite (process_ms D P Hb c b ms final), IH. done.
Qed.
Lemma process_bare e bs final : together (opts e) = true -> (2 <= nch e)%nat ->
  rel (processBlock D X e bs final) (processBlock D X (bare e) (toMidSide (add D) (sub D) (half D) bs) final).
Proof.
  intros Ht Hn. unfold processBlock. change (emode (bare e)) with (emode e).
  assert (G : forall x y : option engine, rel x y -> (forall e1, x = Some e1 -> together (opts e1) = true /\ (2 <= nch e1)%nat) -> rel
    (e ← x; let e := with_mode e Processing in
       cs ← processAll D (paramsOf e) (usesMidSide e) (chans e) (prepared D e bs) final;
       Some (with_mode (with_chans e cs) (if final then Finished else Processing)))
    (e ← y; let e := with_mode e Processing in
       cs ← processAll D (paramsOf e) (usesMidSide e) (chans e) (prepared D e (toMidSide (add D) (sub D) (half D) bs)) final;
       Some (with_mode (with_chans e cs) (if final then Finished else Processing)))).
  { intros x y -> H. destruct x as [e1|]; [|done]. destruct (H e1 eq_refl) as [H1 H2]. change (bare <$> Some e1) with (Some (bare e1)).
    change (Some ?x ≫= ?f) with (f x). cbv beta zeta.
    change (with_mode (bare e1) Processing) with (bare (with_mode e1 Processing)). set (e2 := with_mode e1 Processing).
    change (paramsOf (bare e2)) with (paramsOf e2). change (chans (bare e2)) with (chans e2).
    rewrite processAll_ms by done. change (usesMidSide (bare e2)) with false.
    assert (E : prepared D (bare e2) (toMidSide (add D) (sub D) (half D) bs) = prepared D e2 bs).
    { unfold prepared, usesMidSide. cbn [bare opts apart together]. change (opts e2) with (opts e1). change (nch e2) with (nch e1). rewrite H1.
      rewrite (proj2 (Z.leb_le 2 (Z.of_nat (nch e1)))) by lia. cbn [andb]. by destruct bs as [|l [|r bs]]. }
    rewrite E. unfold rel. destruct (processAll D _ _ _ _ _) as [cs|]; [|done]. reflexivity. }
  destruct (emode e) eqn:Em; try (apply G; [done|intros e1 [= <-]; done]); [|done].
  apply G.
  - apply rel_bind; [apply stretch_bare|]. intros e1. unfold rel. reflexivity.
  - intros e1 E. unfold calculateStretch in E. destruct (Calculator.Model.calculate _ _ _); [|discriminate]. injection E as <-. done.
Qed.

(** What stays. *)
Definition keeps e e' : Prop := opts e' = opts e /\ nch e' = nch e.
Lemma configure_keeps prev e e' : configure D X prev e = Some e' -> keeps e e'.
Proof. unfold configure. destruct (calculateSizes _) as [s|]; [|discriminate]. intros [= <-]. done. Qed.
Lemma stretch_keeps e e' : calculateStretch e = Some e' -> keeps e e'.
Proof. unfold calculateStretch. destruct (Calculator.Model.calculate _ _ _) as [s|]; [|discriminate]. intros [= <-]. done. Qed.
Lemma reconfigure_keeps e e' : reconfigure D X e = Some e' -> keeps e e'.
Proof.
  unfold reconfigure. intros E. match type of E with (?x ≫= _) = _ => destruct x as [e1|] eqn:E1; [|discriminate] end.
  change (Some ?x ≫= ?f) with (f x) in E. cbv beta in E.
  assert (H1 : keeps e e1).
  { destruct (emode e); try (by injection E1 as <-). destruct (calculateStretch e) as [e2|] eqn:E2; [|discriminate].
    injection E1 as <-. by apply stretch_keeps in E2. }
  destruct (configure D X _ e1) as [e2|] eqn:E2; [|discriminate]. apply configure_keeps in E2.
  change (Some ?x ≫= ?f) with (f x) in E. cbv beta in E. destruct (calculateSizes _); [|discriminate].
  change (Some ?x ≫= ?f) with (f x) in E. cbv beta in E. destruct (_ && _); [|discriminate]. injection E as <-.
  destruct H1, E2. split; congruence.
Qed.
Lemma study_keeps e bs final e' : study X e bs final = Some e' -> keeps e e'.
Proof.
  unfold study. intros E. destruct (emode e); try (by injection E as <-).
  all: change (chans (with_mode e Studying)) with (chans e) in E; destruct (chans e) as [|c cs]; [by injection E as <-|]; cbv zeta in E;
    destruct (studyLoop X _ _ _ _ _ _ _ _ _) as [[[[[d df'] sil'] dur'] k']|]; [|discriminate];
    change (Some ?x ≫= ?f) with (f x) in E; cbv beta iota in E; injection E as <-; done.
Qed.
Lemma processBlock_keeps e bs final e' : processBlock D X e bs final = Some e' -> keeps e e'.
Proof.
  unfold processBlock. intros E. destruct (emode e); try (by injection E as <-).
  all: match type of E with (?x ≫= _) = _ => destruct x as [e1|] eqn:E1; [|discriminate] end;
    change (Some ?x ≫= ?f) with (f x) in E; cbv beta zeta in E;
    match type of E with (?x ≫= _) = _ => destruct x as [cs|]; [|discriminate] end;
    change (Some ?x ≫= ?f) with (f x) in E; cbv beta in E; injection E as <-.
  1, 3: by injection E1 as <-.
  destruct (calculateStretch e) as [e2|] eqn:E2; [|discriminate]. injection E1 as <-. by apply stretch_keeps in E2.
Qed.
Lemma step_keeps e a r e' : step D X e a = Some (r, e') -> keeps e e'.
Proof.
  intros E. destruct a as [q|q|m|n|n|bs final|bs final| |n| | | |]; cbn [step] in E; unfold quietly in E.
  1, 2, 4, 5, 6, 7, 10: match type of E with (?x ≫= _) = _ => destruct x as [e1|] eqn:E1; [|discriminate] end;
    change (Some ?x ≫= ?f) with (f x) in E; cbv beta in E; injection E as <- <-.
  - unfold setTimeRatio in E1. destruct (_ || _); [by injection E1 as <-|]. apply reconfigure_keeps in E1. exact E1.
  - unfold setPitchScale in E1. destruct (_ || _); [by injection E1 as <-|]. cbv zeta in E1.
    destruct (reconfigure D X _) as [e2|] eqn:E2; [|discriminate]. apply reconfigure_keeps in E2.
    change (Some ?x ≫= ?f) with (f x) in E1. cbv beta in E1. injection E1 as <-. destruct (_ && _); exact E2.
  - unfold setExpectedInputDuration in E1. destruct (_ =? _); [by injection E1 as <-|]. apply reconfigure_keeps in E1. exact E1.
  - unfold setMaxProcessSize in E1. destruct (_ <=? _); [by injection E1 as <-|]. apply reconfigure_keeps in E1. exact E1.
  - by apply study_keeps in E1.
  - by apply processBlock_keeps in E1.
  - unfold reset in E1. apply reconfigure_keeps in E1. exact E1.
  - injection E as <- <-. unfold setKeyFrameMap. by destruct (emode e).
  - destruct (available D e) as [[n e1]|] eqn:E1; [|discriminate]. injection E as <- <-. unfold available in E1.
    destruct (chans e); [by injection E1 as <- <-|]. match type of E1 with (?x ≫= _) = _ => destruct x as [cs|]; [|discriminate] end.
    injection E1 as <- <-. done.
  - unfold retrieve in E. destruct (takeOut _ _) as [[xs got] cs]. injection E as <- <-. done.
  - injection E as <- <-. done.
  - injection E as <- <-. done.
  - injection E as <- <-. done.
Qed.

(** One call. *)
Lemma step_bare e a : together (opts e) = true -> (2 <= nch e)%nat ->
  (fun r => (fst r, bare (snd r))) <$> step D X e a =
  (fun r => (decodedAnswer (add D) (sub D) (fst r), snd r)) <$> step D X (bare e) (codedCall (add D) (sub D) (half D) a).
Proof.
  intros Ht Hn.
  assert (Q : forall x y : option engine, rel x y ->
    (fun r => (fst r, bare (snd r))) <$> quietly (A := A) x = (fun r => (decodedAnswer (add D) (sub D) (fst r), snd r)) <$> quietly y).
  { intros x y ->. by destruct x. }
  destruct a as [q|q|m|n|n|bs final|bs final| |n| | | |]; cbn [step codedCall].
  - apply Q. unfold setTimeRatio. change (begun (bare e)) with (begun e). change (time (bare e)) with (time e).
    destruct (_ || _); [done|]. apply (reconfigure_bare (with_ratios e q (pitch e))).
  - apply Q. unfold setPitchScale. change (begun (bare e)) with (begun e). change (pitch (bare e)) with (pitch e).
    destruct (_ || _); [done|]. cbv zeta. apply rel_bind; [apply (reconfigure_bare (with_ratios e (time e) q))|].
    intros e1. unfold rel. change (pitch (bare e1)) with (pitch e1). change (highC (opts (bare e1))) with (highC (opts e1)).
    by destruct (_ && _).
  - unfold setKeyFrameMap. change (emode (bare e)) with (emode e). by destruct (emode e).
  - apply Q. unfold setExpectedInputDuration. change (expectedIn (bare e)) with (expectedIn e). destruct (_ =? _); [done|].
    apply (reconfigure_bare (with_expected e n)).
  - apply Q. unfold setMaxProcessSize. change (maxProc (bare e)) with (maxProc e). destruct (_ <=? _); [done|].
    apply (reconfigure_bare (with_max e n)).
  - apply Q. apply study_bare.
  - apply Q. by apply process_bare.
  - unfold available. change (chans (bare e)) with (chans e). change (paramsOf (bare e)) with (paramsOf e). destruct (chans e) as [|c cs]; [done|].
    match goal with |- context [?x ≫= (fun cs => Some (report cs, with_chans e cs))] => destruct x as [cs'|]; [|done] end. done.
  - unfold retrieve. change (chans (bare e)) with (chans e). destruct (takeOut (chans e) n) as [[xs got] cs].
    change (Some ?x) with (Some x) at 1. cbn [fmap option_fmap option_map fst snd]. f_equal. f_equal. cbn [decodedAnswer]. f_equal.
    unfold decoded, usesMidSide. cbn [bare opts apart together]. rewrite Ht, (proj2 (Z.leb_le 2 (Z.of_nat (nch e)))) by lia. cbn [andb].
    by destruct (firstn_z got <$> xs) as [|m [|s ys]].
  - apply Q. unfold reset. match goal with |- rel (reconfigure _ _ ?a) (reconfigure _ _ ?b) => change b with (bare a); apply reconfigure_bare end.
  - done.
  - done.
  - done.
Qed.
Lemma steps_bare l : forall e, together (opts e) = true -> (2 <= nch e)%nat ->
  (fun r => (fst r, bare (snd r))) <$> steps D X e l =
  (fun r => (map (decodedAnswer (add D) (sub D)) (fst r), snd r)) <$> steps D X (bare e) (map (codedCall (add D) (sub D) (half D)) l).
Proof.
  induction l as [|a l IH]; intros e Ht Hn; [done|]. cbn [map steps]. pose proof (step_bare e a Ht Hn) as H.
  destruct (step D X e a) as [[r e1]|] eqn:E1; destruct (step D X (bare e) _) as [[r' e1']|]; try discriminate; [|done].
  cbn [fmap option_fmap option_map fst snd] in H. injection H as -> <-.
  apply step_keeps in E1 as [Ho Hc].
  change (Some ?x ≫= ?f) with (f x). cbv beta iota. change (Some (r', bare e1) ≫= ?f) with (f (r', bare e1)). cbv beta iota.
  specialize (IH e1 ltac:(congruence) ltac:(rewrite Hc; done)).
  destruct (steps D X e1 l) as [[rs e2]|]; destruct (steps D X (bare e1) _) as [[rs' e2']|]; try discriminate; [|done].
  cbn [fmap option_fmap option_map fst snd] in IH. injection IH as -> <-. done.
Qed.
Lemma create_keeps o rt n t p e : create D X o rt n t p = Some e -> opts e = o /\ nch e = n.
Proof.
  unfold create. intros E. destruct (baseSize _ _ _) as [b|]; [|discriminate]. change (Some ?x ≫= ?f) with (f x) in E. cbv beta zeta in E.
  by apply configure_keeps in E.
Qed.
Lemma session_bare o rt n t p l : together o = true -> (2 <= n)%nat ->
  session D X o rt n t p l = map (decodedAnswer (add D) (sub D)) <$> session D X (apart o) rt n t p (map (codedCall (add D) (sub D) (half D)) l).
Proof.
  intros Ht Hn. unfold session. pose proof (create_bare o rt n t p) as H. rewrite H.
  destruct (create D X o rt n t p) as [e|] eqn:Ec; [|done]. apply create_keeps in Ec as [Ho Hc].
  change (bare <$> Some e) with (Some (bare e)). change (Some ?x ≫= ?f) with (f x). cbv beta. change (Some (bare e) ≫= ?f) with (f (bare e)). cbv beta.
  pose proof (steps_bare l e ltac:(congruence) ltac:(rewrite Hc; done)) as G.
  destruct (steps D X e l) as [[rs e2]|]; destruct (steps D X (bare e) _) as [[rs' e2']|]; try discriminate; [|done].
  cbn [fmap option_fmap option_map fst snd] in G. injection G as -> _. done.
Qed.
End MidSide.
