(** Property C84: the phases of the R3 engine. *)
From stdpp Require Import prelude list numbers.
From Coq Require Import ZArith QArith Qround Qabs Lia Lqa.
From Verif Require Import Base.Arith Finer.PeakModel Finer.PeakSpec Finer.SegmenterModel Finer.GuideModel Finer.GuideSpec Finer.PhaseModel Finer.PhaseSpec Finer.PhaseProofs Finer.PhaseRun Finer.PhaseGuided.
From Verif Require Phases.Model Phases.Spec Phases.Proofs Phases.Props.
From stdpp Require Import list numbers.
Local Open Scope Z_scope.

(** What "within a range" of the guidance means in the statements below: from its lower end on
    and below its upper one; a range that is not there holds nothing. *)
Theorem C84_ranges : forall f r, inRange f r = true <-> present r = true /\ (rf0 r <= f)%Q /\ (f < rf1 r)%Q.
Proof.
  intros f r. unfold inRange, ltq. rewrite !andb_true_iff, negb_true_iff, Qle_bool_iff. split.
  - intros [[? ?] E]. repeat split; [done|done|]. apply Qnot_le_lt. intros L. apply Qle_bool_iff in L. congruence.
  - intros (? & ? & L). repeat split; [done|done|]. destruct (Qle_bool (rf1 r) f) eqn:E; [|done]. apply Qle_bool_iff in E. exfalso. by apply (Qlt_not_le _ _ L).
Qed.
Print Assumptions C84_ranges.
(** The frequency of a bin, the bins of a lock band and the bands there are: bin i is i cycles a
    frame; a band goes from the bin next to its lower frequency to the one next to its upper one. *)
Theorem C84_bins : forall s g b hi, 0 < pfft s -> (0 < prate s)%Q ->
  (forall i, hz s i / prate s * inject_Z (pfft s) == inject_Z i)%Q /\
  (Qabs (hz s (bandStart s b) - lf0 b) <= prate s / inject_Z (pfft s) / 2)%Q /\
  (bandEnd s hi b = hi \/ Qabs (hz s (bandEnd s hi b) - lf1 b) <= prate s / inject_Z (pfft s) / 2)%Q /\
  (lockCount g = 4 -> lockBands g = [lock0 g; lock1 g; lock2 g; lock3 g]) /\ (lockCount g = 1 -> lockBands g = [lock0 g]).
Proof.
  intros s g b hi Hf Hr. assert (0 < inject_Z (pfft s))%Q as Hf' by (change 0%Q with (inject_Z 0); by rewrite <- Zlt_Qlt).
  assert (forall f, Qabs (hz s (binForFrequency f (pfft s) (prate s)) - f) <= prate s / inject_Z (pfft s) / 2)%Q as Near.
  { intros f. unfold hz, frequencyForBin, binForFrequency. set (q := (f * inject_Z (pfft s) / prate s)%Q). destruct (cround_near q) as [A B].
    set (x := inject_Z (cround q)) in *. clearbody x.
    assert (x * prate s / inject_Z (pfft s) - f == (x - q) * (prate s / inject_Z (pfft s)))%Q as -> by (unfold q; field; split; lra).
    rewrite Qabs_Qmult, (Qabs_pos (prate s / _)) by (apply Qle_shift_div_l; [done|lra]).
    assert (prate s / inject_Z (pfft s) / 2 == (1 # 2) * (prate s / inject_Z (pfft s)))%Q as -> by (field; lra).
    apply Qmult_le_compat_r; [|apply Qle_shift_div_l; [done|lra]]. apply Qabs_Qle_condition. split; lra. }
  split_and!.
  - intros i. unfold hz, frequencyForBin. field. split; lra.
  - apply Near.
  - unfold bandEnd. destruct (Z.min_spec hi (binForFrequency (lf1 b) (pfft s) (prate s))) as [[_ E]|[_ E]]; rewrite E; [by left|right]. apply Near.
  - intros E. unfold lockBands. by rewrite E.
  - intros E. unfold lockBands. by rewrite E.
Qed.
Print Assumptions C84_bins.
Example C84_bins_example : let s := Setup 2048 44100 [] in let b := LockBand 1 1 1000 20000 in
  bandStart s b = 46 /\ bandEnd s 1024 b = 929 /\ bandEnd s 500 b = 500.
Proof. vm_compute. done. Qed.

(** With the guide's configuration and any guidance it gives, the bands are fit for what follows,
    for each of the FFT sizes. *)
Theorem C84_guided : forall rate single frames g gs s l, (8000 <= rate)%Q -> (rate <= 192000)%Q -> newGuide rate single = Some g -> guideRun g guidance0 frames = Some gs -> s ∈ gs -> l ∈ bandLimit g ->
  let su := Setup (lfft l) rate (bandLimit g) in setupOk su (b0min l) (b1max l) /\ locksOk s /\ myBins su s = Some (b0min l, b1max l).
Proof. exact guided. Qed.
Print Assumptions C84_guided.

(** Whatever is asked of a new object, calls and resets, no access is outside an array; each call
    sets a phase in (-1/2, 1/2] for each bin of its range and leaves the others as they are. *)
Theorem C84_total : forall s lo hi n os, setupOk s lo hi -> Forall (opOk s lo hi n) os ->
  exists ms r, runOps s (create s n) os = Some (ms, r) /\ length r = length (callsOf os) /\
    forall j k outs, callsOf os !! j = Some k -> r !! j = Some outs -> length outs = n /\
      forall c a out, inputs k !! c = Some a -> outs !! c = Some out -> length out = length (outPhase a) /\
        (forall i, lo <= i <= hi -> exists x, at_ out i = Some x /\ (- (1 # 2) < x <= 1 # 2)%Q) /\ (forall i, ~ (lo <= i <= hi) -> at_ out i = at_ (outPhase a) i).
Proof.
  intros s lo hi n os HS Ho. pose proof HS as [S1 S2 S3 S4 S5].
  assert (K : forall os ms, Forall (opOk s lo hi n) os -> good s n ms -> exists ms' r, runOps s ms os = Some (ms', r) /\ length r = length (callsOf os) /\
    forall j k outs, callsOf os !! j = Some k -> r !! j = Some outs -> length outs = n /\
      forall c a out, inputs k !! c = Some a -> outs !! c = Some out -> length out = length (outPhase a) /\
        (forall i, lo <= i <= hi -> exists x, at_ out i = Some x /\ (- (1 # 2) < x <= 1 # 2)%Q) /\ (forall i, ~ (lo <= i <= hi) -> at_ out i = at_ (outPhase a) i)).
  { clear os Ho. induction os as [|o os IH]; intros ms Ho Hg; [exists ms, []; split; [done|]; split; [done|]; done|]. apply Forall_cons_1 in Ho as [H1 H2]. destruct o as [k|]; cbn [runOps callsOf].
    - destruct (advance_good s lo hi n ms k HS H1 Hg) as (ms1 & o & E & Hg1 & Hlo). rewrite E. go. destruct (IH ms1 H2 Hg1) as (ms' & r & -> & Hl & Hr). go. exists ms', (o :: r). split; [done|]. split; [cbn; lia|].
      intros [|j] k' outs Hk Hj; cbn in Hk, Hj; [|by eapply Hr]. injection Hk as <-. injection Hj as <-. split; [done|]. intros c a out Ha Hout.
      destruct (lookup_lt_is_Some_2 ms c) as [m Hm]; [apply lookup_lt_Some in Ha; rewrite (co_count _ _ _ _ _ H1) in Ha; destruct Hg; lia|].
      destruct (channel_view s lo hi n ms k ms1 o c m a HS H1 Hg E Hm Ha) as (ms2 & m2 & m' & out' & _ & _ & _ & _ & Ho' & Hol & Go & _). rewrite Hout in Ho'. injection Ho' as <-.
      pose proof (co_in _ _ _ _ _ H1) as HI. rewrite Forall_lookup in HI. destruct (HI _ _ Ha) as [A1 A2 A3 A4 A5]. split; [lia|]. split.
      + intros i Hi. destruct (PhaseProofs.at_some out i) as [x Hx]; [lia|]. exists x. split; [done|]. pose proof (Go i) as Gi. rewrite (proj2 (inside_spec lo hi i) Hi), Hx in Gi. symmetry in Gi. apply newPhase_eq in Gi as (ph & -> & _). apply Phases.Proofs.princ_range.
      + intros i Hi. rewrite Go. destruct (inside lo hi i) eqn:Ei; [apply inside_spec in Ei; lia|done].
    - apply IH; [done|]. by apply reset_good. }
  apply K; [done|]. destruct (create_ok s n S1) as [C1 C2]. done.
Qed.
Print Assumptions C84_total.

(** Where the guidance says so (a phase reset, a kick; with mid-side processing also a phase reset
    of the side for the mid) the phase put out is the input's. *)
Theorem C84_afresh : forall s lo hi n os k ms r ms' outs c a i x p, setupOk s lo hi -> Forall (opOk s lo hi n) os -> callOk s lo hi n k ->
  runOps s (create s n) os = Some (ms, r) -> advanceAll s ms k = Some (ms', outs) -> inputs k !! c = Some a -> lo <= i <= hi ->
  afresh s k c a i = true -> phaseOut outs c i x -> at_ (phase a) i = Some p -> same x p.
Proof.
  intros s lo hi n os k ms r ms' outs c a i x p HS Ho HC Er E Ha Hi Hf (out & Hout & Hx) Hp. destruct (run_good s lo hi n os HS (create s n) Ho) as (ms1 & r1 & Er1 & Hg & _).
  { destruct (create_ok s n (so_fft _ _ _ HS)). done. }
  rewrite Er in Er1. injection Er1 as <- <-. destruct (lookup_lt_is_Some_2 ms c) as [m Hm]; [apply lookup_lt_Some in Ha; rewrite (co_count _ _ _ _ _ HC) in Ha; destruct Hg; lia|].
  destruct (channel_view s lo hi n ms k ms' outs c m a HS HC Hg E Hm Ha) as (ms2 & m2 & m' & out' & _ & _ & _ & _ & Ho' & _ & Go & _). rewrite Hout in Ho'. injection Ho' as <-.
  pose proof (Go i) as Gi. rewrite (proj2 (inside_spec lo hi i) Hi), Hx in Gi. symmetry in Gi. apply newPhase_eq in Gi as (ph & -> & Hph). rewrite Hf, Hp in Hph. injection Hph as <-. apply Phases.Proofs.princ_same.
Qed.
Print Assumptions C84_afresh.

(** While input and output hops are equal, from the start or a reset on, each phase put out is the input's. *)
Theorem C84_unity : forall s lo hi n os ms r, setupOk s lo hi -> Forall (opOk s lo hi n) os -> Forall (fun k => inhop k = outhop k) (callsOf os) -> runOps s (create s n) os = Some (ms, r) ->
  forall j k outs c i p x, callsOf os !! j = Some k -> r !! j = Some outs -> lo <= i <= hi -> phaseIn k c i p -> phaseOut outs c i x -> same x p.
Proof.
  intros s lo hi n os ms r HS Ho Hu Hr. destruct (create_ok s n (so_fft _ _ _ HS)) as [C1 C2]. apply (unity_run s lo hi n os HS (create s n) ms r Ho Hu); [done|by apply create_agree|done].
Qed.
Print Assumptions C84_unity.

(** A tone in a bin that goes by itself, or is a peak now and in the frame before and follows no
    louder channel, comes out with its frequency: over any number of calls, each with its own hops,
    its phase gains [f] times the output hops.  Partial: bins that do not lead are the next theorems. *)
Theorem C84_tone_partial : forall s lo hi n os k0 ks c i f ms0 r0 o0 e0 ms r j outs e, setupOk s lo hi -> (c < n)%nat -> lo <= i <= hi ->
  Forall (opOk s lo hi n) (os ++ [Do k0]) -> runOps s (create s n) (os ++ [Do k0]) = Some (ms0, r0 ++ [o0]) -> phaseOut o0 c i e0 ->
  Forall (fun k => callOk s lo hi n k /\ leads s lo hi k c i) ks ->
  (forall j k k' p p', (k0 :: ks) !! j = Some k -> (k0 :: ks) !! S j = Some k' -> phaseIn k c i p -> phaseIn k' c i p' -> tone s k' i f p p') ->
  runOps s ms0 (Do <$> ks) = Some (ms, r) -> r !! j = Some outs -> phaseOut outs c i e -> same e (e0 + f * inject_Z (covered (take (S j) ks))).
Proof.
  intros s lo hi n os k0 ks c i f ms0 r0 o0 e0 ms r j outs e HS Hc Hi Ho Er He0 HF Ht Er2 Hj He. apply Forall_app in Ho as [Ho Hk]. apply Forall_cons_1 in Hk as [HC _].
  destruct (create_ok s n (so_fft _ _ _ HS)) as [C1 C2]. destruct (run_good s lo hi n os HS (create s n) Ho) as (ms1 & r1 & Er1 & Hg & _); [done|].
  rewrite run_app, Er1 in Er. change (Some ?a ≫= ?g) with (g a) in Er. cbv beta iota in Er. cbn [runOps] in Er. destruct (advance_good s lo hi n ms1 k0 HS HC Hg) as (ms2 & o & E & Hg2 & _). rewrite E in Er. change (Some ?a ≫= ?g) with (g a) in Er. cbv beta iota in Er. change (Some ?a ≫= ?g) with (g a) in Er. cbv beta iota in Er.
  apply (inj Some) in Er. apply pair_equal_spec in Er as [E1 E2]. apply app_inj_tail in E2 as [_ E2]. subst ms0 o0.
  destruct (holds_after s lo hi n ms1 k0 ms2 o c i HS HC Hg E Hc Hi) as (p & e' & P1 & P2 & P3). rewrite (phaseOut_eq _ _ _ _ _ P2 He0) in P3.
  eapply (lead_run s lo hi n c i f HS Hi ks ms2 p e0 ms r); try done.
  - intros k p' Hk Hp'. exact (Ht 0%nat k0 k p p' eq_refl Hk P1 Hp').
  - intros j' k1 k2 p1 p2 H1 H2. exact (Ht (S j') k1 k2 p1 p2 H1 H2).
Qed.
Print Assumptions C84_tone_partial.

(** A tone that glides from the peak at bin [q] to the peak at bin [p] goes on from the phase put
    out for [q], by its frequency now times the output hop. *)
Theorem C84_gliding : forall s lo hi n os k0 k c p q f ms0 r0 o0 e0 ms outs x, setupOk s lo hi -> (c < n)%nat -> lo <= p <= hi -> lo <= q <= hi ->
  Forall (opOk s lo hi n) (os ++ [Do k0]) -> runOps s (create s n) (os ++ [Do k0]) = Some (ms0, r0 ++ [o0]) -> phaseOut o0 c q e0 ->
  callOk s lo hi n k -> leadsFrom s lo hi k c p q -> (forall p0 p1, phaseIn k0 c p p0 -> phaseIn k c p p1 -> tone s k p f p0 p1) ->
  advanceAll s ms0 k = Some (ms, outs) -> phaseOut outs c p x -> same x (e0 + f * inject_Z (outhop k)).
Proof.
  intros s lo hi n os k0 k c p q f ms0 r0 o0 e0 ms outs x HS Hc Hp Hq Ho Er He0 HC1 HL Ht E1 Hx. apply Forall_app in Ho as [Ho Hk]. apply Forall_cons_1 in Hk as [HC _].
  destruct (create_ok s n (so_fft _ _ _ HS)) as [C1 C2]. destruct (run_good s lo hi n os HS (create s n) Ho) as (ms1 & r1 & Er1 & Hg & _); [done|].
  rewrite run_app, Er1 in Er. change (Some ?a ≫= ?g) with (g a) in Er. cbv beta iota in Er. cbn [runOps] in Er. destruct (advance_good s lo hi n ms1 k0 HS HC Hg) as (ms2 & o & E & Hg2 & _). rewrite E in Er. change (Some ?a ≫= ?g) with (g a) in Er. cbv beta iota in Er. change (Some ?a ≫= ?g) with (g a) in Er. cbv beta iota in Er.
  apply (inj Some) in Er. apply pair_equal_spec in Er as [E2 E3]. apply app_inj_tail in E3 as [_ E3]. subst ms0 o0.
  destruct (holds_after s lo hi n ms1 k0 ms2 o c p HS HC Hg E Hc Hp) as (pp & ep & P1 & _ & (m & Hm & P2 & _)). destruct (holds_after s lo hi n ms1 k0 ms2 o c q HS HC Hg E Hc Hq) as (pq & eq & _ & Q2 & (m' & Hm' & _ & Q3)).
  rewrite Hm in Hm'. injection Hm' as <-. rewrite (phaseOut_eq _ _ _ _ _ Q2 He0) in Q3.
  destruct (leads_step s lo hi n ms2 k ms outs c m p q HS HC1 Hg2 E1 Hm Hp HL) as (m1 & p' & p1 & o' & x' & S1 & S2 & S3 & S4 & S5 & _).
  rewrite P2 in S1. injection S1 as <-. rewrite Q3 in S3. injection S3 as <-. rewrite (phaseOut_eq _ _ _ _ _ Hx S4). eapply Phases.Proofs.same_trans; [exact S5|]. apply Phases.Proofs.same_refl.
  rewrite (onward_tone s k p f pp p1); [done|apply HC1|apply HS|by apply Ht].
Qed.
Print Assumptions C84_gliding.

(** A bin that follows a peak of its own channel keeps the phase it has against the peak in the
    input, times the beta of its band. *)
Theorem C84_around_peak : forall s lo hi n os ms r k ms' outs c a i p q, setupOk s lo hi -> Forall (opOk s lo hi n) os -> callOk s lo hi n k -> runOps s (create s n) os = Some (ms, r) -> advanceAll s ms k = Some (ms', outs) ->
  inputs k !! c = Some a -> lo <= i <= hi -> lo <= p <= hi -> peakOf s hi a i p -> peakOf s hi a p p -> oldPeakOf lo hi a p q ->
  (forall j, j = i \/ j = p -> afresh s k c a j = false /\ free s k a j = false /\ onItsOwn s lo hi k c a j q) ->
  exists xi xp pi pp b, phaseOut outs c i xi /\ phaseOut outs c p xp /\ phaseIn k c i pi /\ phaseIn k c p pp /\ betaAt (hz s i) (lockBands (guid a)) = Some b /\ same xi (xp + b * (pi - pp)).
Proof.
  intros s lo hi n os ms r k ms' outs c a i p q HS Ho HC Er E. destruct (create_ok s n (so_fft _ _ _ HS)) as [C1 C2]. destruct (run_good s lo hi n os HS (create s n) Ho) as (ms1 & r1 & Er1 & Hg & _); [done|].
  rewrite Er in Er1. injection Er1 as <- <-. exact (vertical_step s lo hi n ms k ms' outs c a i p q HS HC Hg E).
Qed.
Print Assumptions C84_around_peak.

(** A channel that follows a louder one keeps the phase it has against it in the input, times the
    beta of its band, if both channels have the same peak now and the same peak before.
    Partial: the code follows whenever the peaks before are the same. *)
Theorem C84_channels_partial : forall s lo hi n os ms r k ms' outs c o a b i p q, setupOk s lo hi -> Forall (opOk s lo hi n) os -> callOk s lo hi n k -> runOps s (create s n) os = Some (ms, r) -> advanceAll s ms k = Some (ms', outs) ->
  inputs k !! c = Some a -> inputs k !! o = Some b -> lo <= i <= hi -> lo <= p <= hi -> loudest (inputs k) i o -> c <> o ->
  inRange (hz s i) (channelLock (guid a)) = true -> inRange (hz s i) (channelLock (guid b)) = true ->
  peakOf s hi a i p -> peakOf s hi b i p -> oldPeakOf lo hi a p q -> oldPeakOf lo hi b p q ->
  afresh s k c a i = false -> free s k a i = false -> afresh s k o b i = false -> free s k b i = false -> betaAt (hz s i) (lockBands (guid a)) = betaAt (hz s i) (lockBands (guid b)) ->
  exists xc xo pc po be, phaseOut outs c i xc /\ phaseOut outs o i xo /\ phaseIn k c i pc /\ phaseIn k o i po /\ betaAt (hz s i) (lockBands (guid a)) = Some be /\ same xc (xo + be * (pc - po)).
Proof.
  intros s lo hi n os ms r k ms' outs c o a b i p q HS Ho HC Er E. destruct (create_ok s n (so_fft _ _ _ HS)) as [C1 C2]. destruct (run_good s lo hi n os HS (create s n) Ho) as (ms1 & r1 & Er1 & Hg & _); [done|].
  rewrite Er in Er1. injection Er1 as <- <-. exact (channels_step s lo hi n ms k ms' outs c o a b i p q HS HC Hg E).
Qed.
Print Assumptions C84_channels_partial.

(** After a reset the same calls give the same phases as with a new object, although reset() does
    not restore all the constructor sets. *)
Theorem C84_reset : forall s lo hi n os os' ms r, setupOk s lo hi -> Forall (fun o => opOk s lo hi n o /\ opBare lo o) os -> Forall (fun o => opOk s lo hi n o /\ opBare lo o) os' ->
  runOps s (create s n) os = Some (ms, r) ->
  exists ms1 ms2 outs, runOps s ms (Clear :: os') = Some (ms1, outs) /\ runOps s (create s n) os' = Some (ms2, outs).
Proof.
  intros s lo hi n os os' ms r HS H1 H2 Er. destruct (create_ok s n (so_fft _ _ _ HS)) as [C1 C2].
  destruct (alike_run s lo hi n os HS (create s n) (create s n) H1) as (m1 & m2 & o & E1 & E2 & Hal & G1 & G2); [done|done|by apply create_self|]. rewrite Er in E1. injection E1 as <- <-.
  destruct (alike_run s lo hi n os' HS (resetMemory s <$> ms) (create s n) H2) as (a1 & a2 & o' & F1 & F2 & _); [by apply reset_good; [apply HS|]|done| |].
  { eapply cleared; [done|done|exact Hal|apply G2]. }
  exists a1, a2, o'. done.
Qed.
Print Assumptions C84_reset.

(** ** Cases *)
Definition calm : segmentation := Segmentation 0 22000 22000.
Definition exGuide : guide := Eval vm_compute in default (Guide 0 false 0 0 0 [] 0 0 0 0 0 0) (newGuide 32000 false).
Definition exFrame : frame := let m := replicate 513 1%Q in Frame (3 # 2) 300 m m m calm calm calm 1 0 false false true.
Definition exGuidance : guidance := Eval vm_compute in default guidance0 (gs ← guideRun exGuide guidance0 [exFrame]; gs !! 0%nat).
Definition exSetup : setup := Setup 1024 32000 (bandLimit exGuide).
Lemma exSetup_ok : setupOk exSetup 0 512 /\ locksOk exGuidance /\ myBins exSetup exGuidance = Some (0, 512).
Proof.
  destruct (C84_guided 32000 false [exFrame] exGuide [exGuidance] exGuidance (bandLimits 1024 32000 0 (32000 / 2))) as (H1 & H2 & H3); first [apply elem_of_list_lookup; exists 1%nat; vm_compute; reflexivity | apply elem_of_list_singleton; reflexivity | vm_compute; reflexivity | vm_compute; discriminate | idtac].
  split; [exact H1|]. split; [exact H2|]. exact H3.
Qed.
(** Magnitudes with peaks at the bins given; phases given for some bins. *)
Definition peaks (l : list Z) : list Q := map (fun i => if existsb (Z.eqb (Z.of_nat i)) l then 4%Q else if existsb (fun p => Z.abs (p - Z.of_nat i) =? 1) l then 1%Q else 0%Q) (seq 0 513).
Definition angles (l : list (Z * Q)) : list Q := map (fun i => match find (fun x => fst x =? Z.of_nat i) l with Some x => snd x | None => 0%Q end) (seq 0 513).
Definition louder (m : list Q) : list Q := map (fun x => 2 * x)%Q m.
Definition exInput (m : list Q) (p : list (Z * Q)) (prev : list Q) : input := Input (replicate 513 0%Q) m (angles p) prev exGuidance.
Lemma exInput_ok m p prev : length m = 513%nat -> length prev = 513%nat -> inputOk exSetup (exInput m p prev).
Proof. intros H1 H2. constructor; cbn [exInput outPhase mag phase prevMag guid]; rewrite ?H1, ?H2; try (vm_compute; reflexivity). apply exSetup_ok. Qed.
Lemma peak_found a i p : inputOk exSetup a -> 0 <= i <= 512 -> (m ← findPeaks exSetup 0 512 (newMemory exSetup) a; at_ (curPeaks m) i) = Some p -> peakOf exSetup 512 a i p.
Proof.
  intros HA Hi Hm. apply bind_Some in Hm as (m & E & Hp). destruct (findPeaks_spec exSetup 0 512 (newMemory exSetup) a) as (m' & E' & _ & _ & _ & _ & H & _); [apply exSetup_ok| |done|].
  { destruct (create_ok exSetup 1) as [C _]; [done|]. apply Forall_cons_1 in C as [C _]. exact C. }
  rewrite E in E'. injection E' as <-. destruct (H i Hi) as (p' & H1 & H2 & _). rewrite Hp in H1. injection H1 as <-. exact H2.
Qed.
Lemma old_found a i p : inputOk exSetup a -> 0 <= i <= 512 -> (m ← findPeaks exSetup 0 512 (newMemory exSetup) a; at_ (prevPeaks m) i) = Some p -> oldPeakOf 0 512 a i p.
Proof.
  intros HA Hi Hm. apply bind_Some in Hm as (m & E & Hp). destruct (findPeaks_spec exSetup 0 512 (newMemory exSetup) a) as (m' & E' & _ & _ & _ & _ & _ & H & _); [apply exSetup_ok| |done|].
  { destruct (create_ok exSetup 1) as [C _]; [done|]. apply Forall_cons_1 in C as [C _]. exact C. }
  rewrite E in E'. injection E' as <-. destruct (H i Hi) as (p' & H1 & H2 & _). rewrite Hp in H1. injection H1 as <-. exact H2.
Qed.

(** One channel, a tone of 1/100 turns a sample with its peak at bin 10, hops 200 and 300. *)
Definition toneCall (t : Z) : call := Call [exInput (peaks [10; 40]) [(9, 1 # 8); (10, (inject_Z t * 2)%Q); (11, 3 # 8)] (peaks [10; 40])] false 200 300.
Example C84_tone_example : exists ms0 o0 ms r, runOps exSetup (create exSetup 1) ([] ++ [Do (toneCall 0)]) = Some (ms0, [] ++ [o0]) /\ runOps exSetup ms0 (Do <$> [toneCall 1; toneCall 2]) = Some (ms, r) /\
  Forall (opOk exSetup 0 512 1) ([] ++ [Do (toneCall 0)]) /\ Forall (fun k => callOk exSetup 0 512 1 k /\ leads exSetup 0 512 k 0 10) [toneCall 1; toneCall 2] /\
  (forall j k k' p p', [toneCall 0; toneCall 1; toneCall 2] !! j = Some k -> [toneCall 0; toneCall 1; toneCall 2] !! S j = Some k' -> phaseIn k 0 10 p -> phaseIn k' 0 10 p' -> tone exSetup k' 10 (1 # 100) p p').
Proof.
  assert (HA : forall t, inputOk exSetup (exInput (peaks [10; 40]) [(9, 1 # 8); (10, (inject_Z t * 2)%Q); (11, 3 # 8)] (peaks [10; 40]))) by (intros t; apply exInput_ok; vm_compute; reflexivity).
  assert (HC : forall t, callOk exSetup 0 512 1 (toneCall t)).
  { intros t. constructor; [done|apply Forall_cons_2; [apply HA|constructor]|done|]. eexists. split; [done|]. apply exSetup_ok. }
  assert (HL : forall t, leads exSetup 0 512 (toneCall t) 0 10).
  { intros t. eexists. split; [reflexivity|]. split; [vm_compute; reflexivity|]. right. split; [vm_compute; reflexivity|]. split; [|split].
    - apply peak_found; [apply HA|lia|vm_compute; reflexivity].
    - apply old_found; [apply HA|lia|vm_compute; reflexivity].
    - right. left. eexists _, _. split; [reflexivity|]. split; [vm_compute; reflexivity|]. intros [|c] b y; [|intros [=]]. intros [= <-]. intros Hy. vm_compute in Hy. injection Hy as <-. split; [vm_compute; discriminate|lia]. }
  destruct exSetup_ok as (HS & _).
  destruct (run_good exSetup 0 512 1 ([] ++ [Do (toneCall 0)]) HS (create exSetup 1)) as (ms0 & r0 & E0 & G0 & L0).
  { apply Forall_cons_2; [apply HC|constructor]. } { destruct (create_ok exSetup 1); done. }
  destruct r0 as [|o0 [|]]; [exfalso; clear -L0; cbn in L0; lia| |exfalso; clear -L0; cbn in L0; lia].
  destruct (run_good exSetup 0 512 1 (Do <$> [toneCall 1; toneCall 2]) HS ms0) as (ms & r & E & _).
  { apply Forall_cons_2; [apply HC|]. apply Forall_cons_2; [apply HC|]. constructor. } { exact G0. }
  exists ms0, o0, ms, r. split; [exact E0|]. split; [exact E|]. split; [apply Forall_cons_2; [apply HC|constructor]|]. split; [apply Forall_cons_2; [split; [apply HC|apply HL]|]; apply Forall_cons_2; [split; [apply HC|apply HL]|]; constructor|]. clear E E0 G0.
  assert (T : forall t p p', phaseIn (toneCall t) 0 10 p -> phaseIn (toneCall (t + 1)) 0 10 p' -> p = (inject_Z t * 2)%Q /\ p' = (inject_Z (t + 1) * 2)%Q).
  { intros t p p' (a & H1 & H2) (a' & H3 & H4). injection H1 as <-. injection H3 as <-. split; [cbn in H2; by injection H2|cbn in H4; by injection H4]. }
  intros [|[|j]] k k' p p' H1 H2 P1 P2; cbn in H1, H2; try (by destruct j); injection H1 as <-; injection H2 as <-.
  - destruct (T 0 p p' P1 P2) as [-> ->]. split; [apply Phases.Props.same_dec; vm_compute; reflexivity|]. split; vm_compute; [reflexivity|discriminate].
  - destruct (T 1 p p' P1 P2) as [-> ->]. split; [apply Phases.Props.same_dec; vm_compute; reflexivity|]. split; vm_compute; [reflexivity|discriminate].
Qed.

(** C84_channels in full is false: of two channels the quieter one, in bin 10, has its peak at
    bin 9, the louder one at 11, both had it at 10 before.  The code then takes the advance of
    the louder channel's bin 9, which is no peak there. *)
Definition quietIn : input := exInput (peaks [9]) [(10, 1 # 8)] (peaks [10]).
Definition loudIn : input := exInput (louder (peaks [11])) [(9, 1 # 4); (10, 1 # 16)] (peaks [10]).
Definition twoCall : call := Call [quietIn; loudIn] false 200 300.
Theorem C84_channels_refuted : exists s lo hi k ms' outs c o a b i pa pb q xc xo pc po be, setupOk s lo hi /\ callOk s lo hi 2 k /\ advanceAll s (create s 2) k = Some (ms', outs) /\
  inputs k !! c = Some a /\ inputs k !! o = Some b /\ lo <= i <= hi /\ loudest (inputs k) i o /\ c <> o /\
  inRange (hz s i) (channelLock (guid a)) = true /\ inRange (hz s i) (channelLock (guid b)) = true /\
  peakOf s hi a i pa /\ peakOf s hi b i pb /\ oldPeakOf lo hi a pa q /\ oldPeakOf lo hi b pb q /\
  afresh s k c a i = false /\ free s k a i = false /\ afresh s k o b i = false /\ free s k b i = false /\ betaAt (hz s i) (lockBands (guid a)) = betaAt (hz s i) (lockBands (guid b)) /\
  phaseOut outs c i xc /\ phaseOut outs o i xo /\ phaseIn k c i pc /\ phaseIn k o i po /\ betaAt (hz s i) (lockBands (guid a)) = Some be /\ ~ same xc (xo + be * (pc - po)).
Proof.
  assert (HA : inputOk exSetup quietIn) by (apply exInput_ok; vm_compute; reflexivity). assert (HB : inputOk exSetup loudIn) by (apply exInput_ok; vm_compute; reflexivity).
  assert (HC : callOk exSetup 0 512 2 twoCall).
  { constructor; [done|apply Forall_cons_2; [done|]; apply Forall_cons_2; [done|]; constructor|done|]. eexists. split; [done|]. apply exSetup_ok. }
  destruct exSetup_ok as (HS & _). destruct (create_ok exSetup 2) as [C1 C2]; [done|].
  destruct (advance_good exSetup 0 512 2 (create exSetup 2) twoCall HS HC) as (ms' & outs & E & _ & _); [done|].
  assert (O : exists xc xo, phaseOut outs 0 10 xc /\ phaseOut outs 1 10 xo /\ Qeq_bool (xc - (xo + (1 + 300 * ((2 + (3 # 2)) / 3 - 1) / 10000) * ((1 # 8) - (1 # 16)))) (inject_Z (Qfloor (xc - (xo + (1 + 300 * ((2 + (3 # 2)) / 3 - 1) / 10000) * ((1 # 8) - (1 # 16)))))) = false).
  { assert (F : (match snd <$> advanceAll exSetup (create exSetup 2) twoCall with Some [a; b] => match at_ a 10, at_ b 10 with Some xc, Some xo => Qeq_bool (xc - (xo + (1 + 300 * ((2 + (3 # 2)) / 3 - 1) / 10000) * ((1 # 8) - (1 # 16)))) (inject_Z (Qfloor (xc - (xo + (1 + 300 * ((2 + (3 # 2)) / 3 - 1) / 10000) * ((1 # 8) - (1 # 16)))))) | _, _ => true end | _ => true end) = false) by (vm_compute; reflexivity).
    rewrite E in F. cbn [fmap option_fmap option_map snd] in F. destruct outs as [|a [|b [|]]]; try discriminate F. destruct (at_ a 10) as [xc|] eqn:Ea; [|discriminate F]. destruct (at_ b 10) as [xo|] eqn:Eb; [|discriminate F].
    exists xc, xo. split; [exists a; split; [reflexivity|exact Ea]|]. split; [exists b; split; [reflexivity|exact Eb]|]. exact F. }
  destruct O as (xc & xo & O1 & O2 & O3).
  exists exSetup, 0, 512, twoCall, ms', outs, 0%nat, 1%nat, quietIn, loudIn, 10, 9, 11, 10, xc, xo, (1 # 8)%Q, (1 # 16)%Q, (1 + 300 * ((2 + (3 # 2)) / 3 - 1) / 10000)%Q.
  split; [exact HS|]. split; [exact HC|]. split; [exact E|]. clear E. split; [reflexivity|]. split; [reflexivity|]. split; [lia|].
  split. { eexists _, _. split; [reflexivity|]. split; [vm_compute; reflexivity|]. intros [|[|c]] b y; [| |intros [=]]; intros [= <-] Hy; vm_compute in Hy; injection Hy as <-; split; try (vm_compute; discriminate); try lia; intros _; vm_compute; reflexivity. }
  split; [lia|]. split; [vm_compute; reflexivity|]. split; [vm_compute; reflexivity|].
  split; [apply peak_found; [apply HA|lia|vm_compute; reflexivity]|]. split; [apply peak_found; [apply HB|lia|vm_compute; reflexivity]|].
  split; [apply old_found; [apply HA|lia|vm_compute; reflexivity]|]. split; [apply old_found; [apply HB|lia|vm_compute; reflexivity]|].
  split; [vm_compute; reflexivity|]. split; [vm_compute; reflexivity|]. split; [vm_compute; reflexivity|]. split; [vm_compute; reflexivity|]. split; [vm_compute; reflexivity|].
  split; [exact O1|]. split; [exact O2|]. split; [eexists; split; [reflexivity|vm_compute; reflexivity]|]. split; [eexists; split; [reflexivity|vm_compute; reflexivity]|]. split; [vm_compute; reflexivity|].
  apply Phases.Props.not_same. exact O3.
Qed.
Print Assumptions C84_channels_refuted.

(** Cases for the other theorems: bins 9 and 10 of [toneCall]; two channels with the same peaks; a
    frame of silence, at which all starts afresh; hops of 200 both; the histories made of these. *)
Definition silence : guidance := Eval vm_compute in default guidance0 (gs ← guideRun exGuide guidance0 [let m := replicate 513 0%Q in Frame (3 # 2) 300 m m m calm calm calm 0 0 false false true]; gs !! 0%nat).
Definition silentCall : call := Call [Input (replicate 513 0%Q) (peaks []) (angles [(10, 1 # 4)]) (peaks [10]) silence] false 200 300.
Definition unityCall : call := Call [exInput (peaks [10]) [(10, 1 # 3)] (peaks [10])] false 200 200.
Definition pairCall : call := Call [exInput (peaks [11]) [(10, 1 # 8)] (peaks [10]); exInput (louder (peaks [11])) [(9, 1 # 4); (10, 1 # 16)] (peaks [10])] false 200 300.
Lemma silence_ok : locksOk silence /\ myBins exSetup silence = Some (0, 512).
Proof. split; [|vm_compute; reflexivity]. split; [vm_compute; discriminate|]. repeat (apply Forall_cons_2; [vm_compute; split; discriminate|]). constructor. Qed.
Example C84_cases : callOk exSetup 0 512 1 silentCall /\ callOk exSetup 0 512 1 unityCall /\ callOk exSetup 0 512 2 pairCall /\ callOk exSetup 0 512 1 (toneCall 1) /\
  (forall a, inputs silentCall !! 0%nat = Some a -> afresh exSetup silentCall 0 a 10 = true) /\ inhop unityCall = outhop unityCall /\
  (forall a, inputs (toneCall 1) !! 0%nat = Some a -> peakOf exSetup 512 a 9 10 /\ peakOf exSetup 512 a 10 10 /\ forall j, j = 9 \/ j = 10 -> afresh exSetup (toneCall 1) 0 a j = false /\ free exSetup (toneCall 1) a j = false /\ loudest (inputs (toneCall 1)) j 0) /\
  (forall a b, inputs pairCall !! 0%nat = Some a -> inputs pairCall !! 1%nat = Some b -> loudest (inputs pairCall) 10 1 /\ peakOf exSetup 512 a 10 11 /\ peakOf exSetup 512 b 10 11 /\ oldPeakOf 0 512 a 11 10 /\ oldPeakOf 0 512 b 11 10 /\
    inRange (hz exSetup 10) (channelLock (guid a)) = true /\ afresh exSetup pairCall 0 a 10 = false /\ free exSetup pairCall a 10 = false /\ guid a = guid b) /\
  Forall (fun o => opOk exSetup 0 512 1 o /\ opBare 0 o) [Do (toneCall 1); Clear; Do silentCall; Do unityCall].
Proof.
  assert (HA : forall m p prev, length m = 513%nat -> length prev = 513%nat -> inputOk exSetup (exInput m p prev)) by apply exInput_ok.
  assert (HS : callOk exSetup 0 512 1 silentCall).
  { constructor; [reflexivity|apply Forall_cons_2; [|constructor]|done|eexists; split; [reflexivity|apply silence_ok]]. constructor; try (vm_compute; reflexivity). apply silence_ok. }
  assert (HU : callOk exSetup 0 512 1 unityCall).
  { constructor; [reflexivity|apply Forall_cons_2; [|constructor]|done|eexists; split; [reflexivity|apply exSetup_ok]]. apply HA; vm_compute; reflexivity. }
  assert (HP : callOk exSetup 0 512 2 pairCall).
  { constructor; [reflexivity|apply Forall_cons_2; [|apply Forall_cons_2; [|constructor]]|done|eexists; split; [reflexivity|apply exSetup_ok]]; apply HA; vm_compute; reflexivity. }
  assert (HT : callOk exSetup 0 512 1 (toneCall 1)).
  { constructor; [reflexivity|apply Forall_cons_2; [|constructor]|done|eexists; split; [reflexivity|apply exSetup_ok]]. apply HA; vm_compute; reflexivity. }
  assert (HL : forall k, opBare 0 (Do k)) by (intros k c a i _ Hi; lia).
  split; [exact HS|]. split; [exact HU|]. split; [exact HP|]. split; [exact HT|]. split; [intros a [= <-]; vm_compute; reflexivity|]. split; [reflexivity|]. split; [|split].
  - intros a [= <-]. split; [apply peak_found; [apply HA; vm_compute; reflexivity|lia|vm_compute; reflexivity]|]. split; [apply peak_found; [apply HA; vm_compute; reflexivity|lia|vm_compute; reflexivity]|].
    intros j Hj. split; [destruct Hj as [->| ->]; vm_compute; reflexivity|]. split; [destruct Hj as [->| ->]; vm_compute; reflexivity|].
    destruct Hj as [->| ->]; (eexists _, _; split; [reflexivity|]; split; [vm_compute; reflexivity|]; intros [|c] b y; [|intros [=]]; intros [= <-] Hy; vm_compute in Hy; injection Hy as <-; split; [vm_compute; discriminate|lia]).
  - intros a b Ha Hb. apply (inj Some) in Ha, Hb. subst a b. split. { eexists _, _. split; [reflexivity|]. split; [vm_compute; reflexivity|]. intros [|[|c]] b y; [| |intros [=]]; intros [= <-] Hy; vm_compute in Hy; injection Hy as <-; split; try (vm_compute; discriminate); try lia; intros _; vm_compute; reflexivity. }
    do 2 (split; [apply peak_found; [apply HA; vm_compute; reflexivity|lia|vm_compute; reflexivity]|]). do 2 (split; [apply old_found; [apply HA; vm_compute; reflexivity|lia|vm_compute; reflexivity]|]).
    do 3 (split; [vm_compute; reflexivity|]). reflexivity.
  - apply Forall_cons_2; [split; [exact HT|apply HL]|]. apply Forall_cons_2; [split; exact I|]. apply Forall_cons_2; [split; [exact HS|apply HL]|]. apply Forall_cons_2; [split; [exact HU|apply HL]|]. constructor.
Qed.
(** A peak that moves from bin 10 to bin 11; a channel on its own beside a louder one, whose peak was elsewhere. *)
Definition glideCall : call := Call [exInput (peaks [11; 40]) [(11, 1 # 3)] (peaks [10; 40])] false 200 300.
Definition apartCall : call := Call [exInput (peaks [11; 40]) [(11, 1 # 3)] (peaks [10; 40]); exInput (louder (peaks [11; 40])) [(11, 1 # 3)] (peaks [12; 40])] false 200 300.
Example C84_gliding_example : callOk exSetup 0 512 1 glideCall /\ leadsFrom exSetup 0 512 glideCall 0 11 10 /\ callOk exSetup 0 512 2 apartCall /\ leadsFrom exSetup 0 512 apartCall 0 11 10.
Proof.
  assert (HA : forall m p prev, length m = 513%nat -> length prev = 513%nat -> inputOk exSetup (exInput m p prev)) by apply exInput_ok.
  split. { constructor; [reflexivity|apply Forall_cons_2; [|constructor]|done|eexists; split; [reflexivity|apply exSetup_ok]]. apply HA; vm_compute; reflexivity. }
  split; [|split].
  - eexists. split; [reflexivity|]. split; [vm_compute; reflexivity|]. right. split; [vm_compute; reflexivity|].
    split; [apply peak_found; [apply HA; vm_compute; reflexivity|lia|vm_compute; reflexivity]|]. split; [apply old_found; [apply HA; vm_compute; reflexivity|lia|vm_compute; reflexivity]|].
    right. left. eexists _, _. split; [reflexivity|]. split; [vm_compute; reflexivity|]. intros [|c] b y Hb Hy; [|discriminate Hb]. apply (inj Some) in Hb. subst b. vm_compute in Hy. apply (inj Some) in Hy. subst y. split; [vm_compute; discriminate|lia].
  - constructor; [reflexivity|apply Forall_cons_2; [|apply Forall_cons_2; [|constructor]]|done|eexists; split; [reflexivity|apply exSetup_ok]]; apply HA; vm_compute; reflexivity.
  - eexists. split; [reflexivity|]. split; [vm_compute; reflexivity|]. right. split; [vm_compute; reflexivity|].
    split; [apply peak_found; [apply HA; vm_compute; reflexivity|lia|vm_compute; reflexivity]|]. split; [apply old_found; [apply HA; vm_compute; reflexivity|lia|vm_compute; reflexivity]|].
    right. right. exists 1%nat. eexists. split; [|split; [reflexivity|]].
    + eexists _, _. split; [reflexivity|]. split; [vm_compute; reflexivity|]. intros [|[|c]] b y Hb Hy; [| |discriminate Hb]; apply (inj Some) in Hb; subst b; vm_compute in Hy; apply (inj Some) in Hy; subst y; split; try (vm_compute; discriminate); try lia; intros _; vm_compute; reflexivity.
    + right. exists 11, 12. split; [apply peak_found; [apply HA; vm_compute; reflexivity|lia|vm_compute; reflexivity]|]. split; [lia|]. split; [apply old_found; [apply HA; vm_compute; reflexivity|lia|vm_compute; reflexivity]|]. lia.
Qed.
