(** Properties of the option setters. *)
From stdpp Require Import prelude.
From Coq Require Import ZArith Lia Bool.
From Verif Require Import Options.Model Options.Spec.
Local Open Scope Z_scope.

Lemma has_bit w i : 0 <= i -> has w (2 ^ i) = Z.testbit w i.
Proof.
  intros Hi. unfold has. destruct (Z.testbit w i) eqn:E.
  - destruct (Z.eqb_spec (Z.land w (2 ^ i)) 0) as [H|H]; [|done]. exfalso.
    assert (Hb : Z.testbit (Z.land w (2 ^ i)) i = true) by (rewrite Z.land_spec, E, Z.pow2_bits_true by lia; done).
    rewrite H, Z.bits_0 in Hb. done.
  - destruct (Z.eqb_spec (Z.land w (2 ^ i)) 0) as [H|H]; [done|]. exfalso. apply H. apply Z.bits_inj'. intros n Hn.
    rewrite Z.land_spec, Z.bits_0, Z.pow2_bits_eqb by lia. destruct (Z.eqb_spec i n) as [<-|]; [by rewrite E|apply andb_false_r].
Qed.
Lemma replace_bit w m o i : 0 <= i -> Z.testbit (replace w m o) i = if Z.testbit m i then Z.testbit o i else Z.testbit w i.
Proof.
  intros Hi. unfold replace. rewrite Z.lor_spec, !Z.land_spec, Z.lnot_spec by done.
  destruct (Z.testbit m i); cbn; [by rewrite andb_false_r, andb_true_r|by rewrite andb_true_r, andb_false_r, orb_false_r].
Qed.
Lemma bits2 i j k : 0 <= i -> 0 <= j -> 0 <= k -> Z.testbit (Z.lor (2 ^ i) (2 ^ j)) k = bool_decide (k ∈ [i; j]).
Proof.
  intros Hi Hj Hk. rewrite Z.lor_spec, !Z.pow2_bits_eqb by lia.
  destruct (bool_decide_reflect (k ∈ [i; j])) as [H|H].
  - rewrite elem_of_cons, elem_of_list_singleton in H. destruct H as [->| ->]; rewrite Z.eqb_refl; [done|apply orb_true_r].
  - rewrite elem_of_cons, elem_of_list_singleton in H. destruct (Z.eqb_spec i k), (Z.eqb_spec j k); cbn; naive_solver.
Qed.
Lemma bits1 i k : 0 <= i -> 0 <= k -> Z.testbit (2 ^ i) k = bool_decide (k ∈ [i]).
Proof.
  intros Hi Hk. rewrite Z.pow2_bits_eqb by lia.
  destruct (bool_decide_reflect (k ∈ [i])) as [H|H]; rewrite elem_of_list_singleton in H; destruct (Z.eqb_spec i k); naive_solver.
Qed.

(** What holds along every run. *)
Record inv (w : Z) (s : state) : Prop := Inv {
  in_finer : finer s = Z.testbit w 29; in_rt : realtime s = Z.testbit w 0;
  in_peaks : finer s = false -> hardPeaks s = negb (Z.testbit (word s) 9);
  in_curve : finer s = false -> curveType s = detectorType s
}.
Lemma create_inv w : inv w (create w).
Proof.
  unfold create. change OptionEngineFiner with (2 ^ 29). change OptionProcessRealTime with (2 ^ 0). rewrite !has_bit by lia.
  cbn [finer]. destruct (Z.testbit w 29) eqn:E; constructor; cbn; try done.
  intros _. change OptionTransientsSmooth with (2 ^ 9). by rewrite has_bit by lia.
Qed.
Lemma create_word w : word (create w) = w.
Proof. unfold create. cbn [finer]. by destruct (has w OptionEngineFiner). Qed.
Definition detector_eq_dec (a b : detector) : {a = b} + {a <> b}.
Proof. decide equality. Defined.
Lemma step_inv w s a : inv w s -> inv w (step s a) /\
  forall i, 0 <= i -> Z.testbit (word (step s a)) i =
    if permitted w a && bool_decide (i ∈ group a) then Z.testbit (argument a) i else Z.testbit (word s) i.
Proof.
  intros [Hf Hr Hp Hc]. unfold permitted. rewrite <- Hf, <- Hr.
  destruct a as [o|o|o|o|o|]; cbn [step group argument].
  - unfold setTransientsOption. destruct (finer s) eqn:Ef; [split; [by constructor; rewrite ?Ef|done]|].
    destruct (realtime s) eqn:Er; cbn [negb andb]; [|split; [by constructor; rewrite ?Ef, ?Er|done]].
    change (Z.lor (Z.lor OptionTransientsMixed OptionTransientsSmooth) OptionTransientsCrisp) with (Z.lor (2 ^ 8) (2 ^ 9)).
    cbv zeta. split.
    + constructor; cbn [configure finer realtime hardPeaks detectorType curveType word]; try congruence; [|by auto]. intros _. change OptionTransientsSmooth with (2 ^ 9). by rewrite has_bit by lia.
    + intros i Hi. cbn [word]. rewrite replace_bit, bits2 by lia. done.
  - unfold setDetectorOption. destruct (finer s) eqn:Ef; [split; [by constructor; rewrite ?Ef|done]|].
    destruct (realtime s) eqn:Er; cbn [negb andb]; [|split; [by constructor; rewrite ?Ef, ?Er|done]].
    change (Z.lor (Z.lor OptionDetectorPercussive OptionDetectorCompound) OptionDetectorSoft) with (Z.lor (2 ^ 10) (2 ^ 11)).
    cbv zeta. cbn [with_word word finer realtime hardPeaks detectorType curveType]. set (w' := replace (word s) (Z.lor (2 ^ 10) (2 ^ 11)) o).
    assert (Hb : forall i, 0 <= i -> Z.testbit w' i = if bool_decide (i ∈ [10; 11]) then Z.testbit o i else Z.testbit (word s) i).
    { intros i Hi. unfold w'. by rewrite replace_bit, bits2 by lia. }
    split; [|exact Hb]. constructor; cbn [finer realtime hardPeaks detectorType curveType word]; try congruence.
    + intros _. rewrite Hb by lia. change (bool_decide (9 ∈ [10; 11])) with false. by apply Hp.
    + intros _. specialize (Hc eq_refl). rewrite Hc. by destruct (has w' OptionDetectorPercussive), (has w' OptionDetectorSoft), (detectorType s).
  - unfold setPhaseOption. destruct (finer s) eqn:Ef; [split; [by constructor; rewrite ?Ef|done]|]. cbn [negb andb].
    change (Z.lor OptionPhaseLaminar OptionPhaseIndependent) with (2 ^ 13).
    assert (Hb : forall i, 0 <= i -> Z.testbit (word (with_word s (replace (word s) (2 ^ 13) o))) i = if bool_decide (i ∈ [13]) then Z.testbit o i else Z.testbit (word s) i).
    { intros i Hi. cbn [with_word word]. by rewrite replace_bit, bits1 by lia. }
    split; [|exact Hb]. constructor; cbn [with_word finer realtime hardPeaks detectorType curveType]; try congruence; [|by auto].
    intros _. rewrite Hb by lia. by apply Hp.
  - unfold setFormantOption. change (Z.lor OptionFormantShifted OptionFormantPreserved) with (2 ^ 24). cbn [andb].
    assert (Hb : forall i, 0 <= i -> Z.testbit (word (with_word s (replace (word s) (2 ^ 24) o))) i = if bool_decide (i ∈ [24]) then Z.testbit o i else Z.testbit (word s) i).
    { intros i Hi. cbn [with_word word]. by rewrite replace_bit, bits1 by lia. }
    split; [|exact Hb]. constructor; cbn [with_word finer realtime hardPeaks detectorType curveType]; try congruence; [|by auto].
    intros Hff. rewrite Hb by lia. by apply Hp.
  - unfold setPitchOption. destruct (finer s) eqn:Ef; [split; [by constructor; rewrite ?Ef|done]|].
    destruct (realtime s) eqn:Er; cbn [negb andb]; [|split; [by constructor; rewrite ?Ef, ?Er|done]].
    change (Z.lor (Z.lor OptionPitchHighQuality OptionPitchHighSpeed) OptionPitchHighConsistency) with (Z.lor (2 ^ 25) (2 ^ 26)).
    cbv zeta. set (s' := with_word s _).
    assert (Hb : forall i, 0 <= i -> Z.testbit (word s') i = if bool_decide (i ∈ [25; 26]) then Z.testbit o i else Z.testbit (word s) i).
    { intros i Hi. unfold s'. cbn [with_word word]. by rewrite replace_bit, bits2 by lia. }
    destruct (word s =? word s'); (split; [|exact Hb]).
    + assert (H9 : Z.testbit (word s') 9 = Z.testbit (word s) 9) by (rewrite Hb by lia; done).
      constructor; try (unfold s'; cbn [with_word finer realtime curveType detectorType]; first [congruence|by auto]).
      intros _. rewrite H9. by apply Hp.
    + constructor; try (unfold s'; cbn [configure with_word finer realtime curveType detectorType]; first [congruence|by auto]).
      intros _. cbn [configure hardPeaks word]. change OptionTransientsSmooth with (2 ^ 9). by rewrite has_bit by lia.
  - split.
    + destruct (finer s) eqn:Ef; [by constructor; rewrite ?Ef|].
      constructor; try (cbn [configure finer realtime curveType detectorType]; first [congruence|by auto]).
      intros _. cbn [configure hardPeaks word]. change OptionTransientsSmooth with (2 ^ 9). by rewrite has_bit by lia.
    + intros i _. rewrite (bool_decide_eq_false_2 (i ∈ [])) by apply not_elem_of_nil. rewrite andb_false_r. by destruct (finer s).
Qed.
Lemma run_inv w l : forall s, inv w s -> inv w (fold_left step l s) /\
  forall i, 0 <= i -> Z.testbit (word (fold_left step l s)) i = wanted w i (Z.testbit (word s) i) l.
Proof.
  induction l as [|a l IH]; intros s Hs; [done|]. cbn [fold_left wanted]. destruct (step_inv w s a Hs) as [H1 H2].
  destruct (IH _ H1) as [H3 H4]. split; [done|]. intros i Hi. by rewrite H4, H2.
Qed.

(** C34: after any sequence of setter calls on a stretcher constructed with any options, every
    bit is that of the last permitted call for its group, or as constructed; and the engine
    uses what the bits say. *)
Theorem C34_option_groups : forall w l,
  (forall i, 0 <= i -> Z.testbit (word (run w l)) i = wanted w i (Z.testbit w i) l) /\
  bandlimited (run w l) = wanted w 8 (Z.testbit w 8) l /\
  laminar (run w l) = negb (wanted w 13 (Z.testbit w 13) l) /\
  formants (run w l) = wanted w 24 (Z.testbit w 24) l /\
  (Z.testbit w 29 = false -> hardPeaks (run w l) = negb (wanted w 9 (Z.testbit w 9) l)).
Proof.
  intros w l. unfold run. destruct (run_inv w l _ (create_inv w)) as [[Hf Hr Hp Hc] Hb]. rewrite create_word in Hb.
  split; [exact Hb|]. unfold bandlimited, laminar, formants. change OptionTransientsMixed with (2 ^ 8).
  change OptionPhaseIndependent with (2 ^ 13). change OptionFormantPreserved with (2 ^ 24). rewrite !has_bit, !Hb by lia.
  do 3 (split; [done|]). intros H. rewrite Hp by congruence. by rewrite Hb by lia.
Qed.
Print Assumptions C34_option_groups.
(** Real time, smooth transients and independent phase at first. *)
Example C34_example :
  let l := [Transients 0x100; Formant 0x1000000; Pitch 0x2000200; Reconfigured; Phase 0xffff] in
  word (run 0x2201 l) = 0x3002101 /\ bandlimited (run 0x2201 l) = true /\ hardPeaks (run 0x2201 l) = true /\
  wanted 0x2201 9 true l = false /\ word (run 0x2200 l) = 0x1002200.
Proof. vm_compute. repeat split; reflexivity. Qed.

(** C71: which onset detector is in use.  Once setDetectorOption has been called in real time,
    the detector is the one the options name, whatever else is called. *)
Lemma detector_named w : Z.testbit w 29 = false -> Z.testbit w 0 = true -> forall l s, inv w s ->
  (detectorType s = named (Z.testbit (word s) 10) (Z.testbit (word s) 11) \/ Exists (fun a => isDetector a = true) l) ->
  let s' := fold_left step l s in detectorType s' = named (Z.testbit (word s') 10) (Z.testbit (word s') 11).
Proof.
  intros Hf Hr. induction l as [|a l IH]; intros s Hs H; cbn [fold_left].
  - destruct H as [H|H]; [done|]. inversion H.
  - destruct (step_inv w s a Hs) as [H1 H2]. apply IH; [done|]. destruct Hs as [Hf' Hr' _ _]. rewrite Hf in Hf'. rewrite Hr in Hr'.
    destruct (isDetector a) eqn:Ea.
    + left. rewrite !H2 by lia. destruct a as [|o| | | |]; try done. cbn [step]. unfold setDetectorOption, permitted. rewrite Hf', Hr', Hf, Hr. cbn [negb andb].
      cbv zeta. cbn [with_word word detectorType]. change OptionDetectorPercussive with (2 ^ 10). change OptionDetectorSoft with (2 ^ 11).
      change (Z.lor (Z.lor (2 ^ 10) OptionDetectorCompound) (2 ^ 11)) with (Z.lor (2 ^ 10) (2 ^ 11)).
      rewrite !has_bit, !replace_bit, !bits2 by lia. done.
    + destruct H as [H|H].
      * left. rewrite !H2 by lia. assert (Hn : bool_decide (10 ∈ group a) = false /\ bool_decide (11 ∈ group a) = false /\ detectorType (step s a) = detectorType s).
        { destruct a as [o|o|o|o|o|]; try done; cbn [step]; unfold setTransientsOption, setPhaseOption, setFormantOption, setPitchOption; rewrite ?Hf', ?Hr'; try done.
          cbn [negb]. cbv zeta. by destruct (_ =? _). }
        destruct Hn as (-> & -> & ->). by rewrite andb_false_r.
      * right. apply Exists_cons in H as [H|H]; [congruence|done].
Qed.
Theorem C71_detector_after_setter_partial : forall w l, Z.testbit w 29 = false -> Z.testbit w 0 = true -> Exists (fun a => isDetector a = true) l ->
  curveType (run w l) = named (wanted w 10 (Z.testbit w 10) l) (wanted w 11 (Z.testbit w 11) l).
Proof.
  intros w l Hf Hr Hl. unfold run. destruct (run_inv w l _ (create_inv w)) as [Hi Hb]. rewrite create_word in Hb.
  rewrite (in_curve _ _ Hi) by (rewrite (in_finer _ _ Hi); done).
  rewrite (detector_named w Hf Hr l (create w) (create_inv w)) by (by right). by rewrite !Hb by lia.
Qed.
Print Assumptions C71_detector_after_setter_partial.
Example C71_example : Exists (fun a => isDetector a = true) [Detector 0x800; Pitch 0x4000000] /\ curveType (run 0x401 [Detector 0x800; Pitch 0x4000000]) = SoftDetector.
Proof. split; [by constructor|reflexivity]. Qed.
(** C71 is false of the options given on construction: whatever they say, the compound detector
    is used, offline for ever and in real time until setDetectorOption is called. *)
Theorem C71_construction_ignored : forall w, curveType (run w []) = CompoundDetector /\
  (Z.testbit w 0 = false -> forall l, curveType (run w l) = CompoundDetector).
Proof.
  intros w. assert (H0 : curveType (create w) = CompoundDetector /\ detectorType (create w) = CompoundDetector).
  { unfold create. cbn [finer]. by destruct (has w OptionEngineFiner). }
  split; [apply H0|]. intros Hr l. unfold run. pose proof (create_inv w) as Hi. revert H0 Hi. generalize (create w) as s.
  induction l as [|a l IH]; intros s [H1 H2] Hi; [done|]. cbn [fold_left]. apply IH; [|by apply step_inv].
  destruct Hi as [_ Hr' _ _]. rewrite Hr in Hr'.
  destruct a as [o|o|o|o|o|]; cbn [step]; unfold setTransientsOption, setDetectorOption, setPhaseOption, setFormantOption, setPitchOption; rewrite ?Hr'; by destruct (finer s).
Qed.
Print Assumptions C71_construction_ignored.
(** The soft detector asked for on construction, offline, and again through the setter. *)
Theorem C71_detector_on_construction_refuted : exists w l,
  named (Z.testbit w 10) (Z.testbit w 11) = SoftDetector /\ Forall (fun a => a = Detector w) l /\ curveType (run w l) = CompoundDetector.
Proof. exists 0x800, [Detector 0x800]. split; [reflexivity|]. split; [by repeat constructor|reflexivity]. Qed.
Print Assumptions C71_detector_on_construction_refuted.
