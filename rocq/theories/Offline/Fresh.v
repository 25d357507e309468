(** A stretcher before its first study or process call. *)
From stdpp Require Import prelude.
From Coq Require Import ZArith QArith Qround Lia Lqa.
From Verif Require Import Base.Arith Faster.Sizes Faster.Spec Faster.SizesProofs Faster.SizesProps.
From Verif Require Import Faster.Model Faster.Core Faster.Runs Faster.RunsProofs Offline.Model Offline.Spec Offline.Study.
From Verif Require Calculator.Model.
Local Open Scope Z_scope.

(** What calculateSizes has set up it finds again. *)
Lemma sizes_fixed rt th hq hc sm b rm t p ex mp s : calculateSizes (Config rt th hq hc sm b rm t p ex mp) = Some s ->
  calculateSizes (Config rt th hq hc sm b rm (timeRatio' s) (pitchScale' s) ex (maxProcess' s)) = Some s.
Proof.
  intros E. unfold calculateSizes in *. cbn [Sizes.realtime Sizes.threaded Sizes.highQuality Sizes.highConsistency Sizes.smoothing
    Sizes.base Sizes.rateMultiple Sizes.timeRatio Sizes.pitchScale Sizes.expected Sizes.maxProcess] in *.
  assert (Hacc : forall q, ltQ 0 (if ltQ 0 q then q else 1%Q) = true) by (intros q; destruct (ltQ 0 q) eqn:Eq; [done|reflexivity]).
  set (tt := if ltQ 0 t then t else 1%Q) in *. set (pp := if ltQ 0 p then p else 1%Q) in *.
  match type of E with (?x ≫= _) = _ => destruct x as [[inc win]|] eqn:E1; [|discriminate] end.
  change (Some ?x ≫= ?f) with (f x) in E. cbv beta iota in E.
  match type of E with (?x ≫= _) = _ => destruct x as [inc'|] eqn:E2; [|discriminate] end.
  change (Some ?x ≫= ?f) with (f x) in E. cbv beta zeta in E. injection E as <-. cbn [timeRatio' pitchScale' maxProcess'].
  unfold tt, pp. rewrite !Hacc. fold tt pp.
  (* the ratio cases read the same members *)
  match goal with |- (?x ≫= _) = _ => replace x with (Some (inc, win)) end.
  change (Some ?x ≫= ?f) with (f x). cbv beta iota. rewrite E2. change (Some ?x ≫= ?f) with (f x). cbv beta zeta.
  set (w := if sm then win * 2 else win). replace (Z.max w (Z.max w mp)) with (Z.max w mp) by lia. done.
Qed.

Section Fresh.
Context {A S R K KS : Type} (D : dsp A S R K) (X : outside A S R KS).
Notation chan := (channel A S R).
Notation engine := (engine A S R KS).
Implicit Types (e : engine) (c d : chan).
Notation win e := (Sizes.window (sz e)).
Notation incr e := (Sizes.increment (sz e)).

(** The buffers have room for the window. *)
Record shaped (w : Z) c : Prop := Shaped {
  sh_w : 1 <= w; sh_flt : w <= zlen (fltbuf c); sh_acc : w <= zlen (acc c); sh_wacc : zlen (wacc c) = zlen (acc c);
  sh_in : 2 * w <= inCap c; sh_out : 2 * w <= outCap c
}.

Record fresh e c : Prop := Fresh {
  fr_rate : 8000 <= rate e <= 192000;
  fr_base : baseSize (rate e) (short (opts e)) (long (opts e)) = Some (baseFft e);
  fr_fix : calculateSizes (configOf e) = Some (sz e);
  fr_low : (1 <= inject_Z (2 ^ 40) * time e)%Q; fr_high : (time e <= inject_Z (2 ^ 40))%Q;
  fr_pitch : pitch e = 1%Q; fr_highC : highC (opts e) = false;
  fr_mode : emode e = JustCreated; fr_dfs : dfs e = []; fr_sil : silence e = []; fr_incs : incs e = [];
  fr_calc : calc e = Calculator.Model.create (rate e) (incr e) (negb (smoothTransients (opts e)));
  fr_nch : (1 <= nch e)%nat;
  fr_chans : chans e = replicate (nch e) c;
  fr_shaped : shaped (win e) c; fr_start : start D (paramsOf e) c
}.

Record fitting e : Prop := Fitting {
  ft_fft : pow2 (fftSize (sz e)); ft_win : win e = (if smoothOn (opts e) then 2 * fftSize (sz e) else fftSize (sz e));
  ft_incr : 1 <= incr e; ft_four : 4 * incr e <= fftSize (sz e);
  ft_ratio : (inject_Z (4 * incr e) * (time e * pitch e) <= inject_Z (fftSize (sz e)))%Q;
  ft_even : win e mod 2 = 0; ft_le : fftSize (sz e) <= win e
}.

Lemma pow2_even n : pow2 n -> 4 <= n -> n mod 2 = 0.
Proof.
  intros (k & Hk & ->) H. destruct (Z.eq_dec k 0) as [->|]; [cbn in H; lia|].
  replace k with (1 + (k - 1)) by lia. rewrite Z.pow_add_r by lia. rewrite Z.mul_comm, Z.mod_mul; lia.
Qed.

Lemma sizes_ok e : 8000 <= rate e <= 192000 -> baseSize (rate e) (short (opts e)) (long (opts e)) = Some (baseFft e) ->
  (1 <= inject_Z (2 ^ 40) * (accepted (time e) * accepted (pitch e)))%Q -> (accepted (time e) * accepted (pitch e) <= inject_Z (2 ^ 40))%Q ->
  exists s, calculateSizes (configOf e) = Some s /\ timeRatio' s = accepted (time e) /\ pitchScale' s = accepted (pitch e) /\
    pow2 (fftSize s) /\ Sizes.window s = (if smoothOn (opts e) then 2 * fftSize s else fftSize s) /\
    1 <= Sizes.increment s /\ 4 * Sizes.increment s <= fftSize s /\
    (inject_Z (4 * Sizes.increment s) * (timeRatio' s * pitchScale' s) <= inject_Z (fftSize s))%Q.
Proof.
  intros Hr Hb Hl Hh.
  destruct (C28_sizes_valid_partial (rate e) (short (opts e)) (long (opts e)) (configOf e) Hr Hb Hl Hh) as
    (s & E & H1 & H2 & H3 & H4 & H5 & H6 & H7 & _).
  { right; right; right; left. done. }
  exists s. done.
Qed.
Lemma fresh_fitting e c : fresh e c -> fitting e.
Proof.
  intros []. assert (Ht : (0 < time e)%Q).
  { destruct (Qlt_le_dec 0 (time e)) as [|H]; [done|]. exfalso. change (inject_Z (2 ^ 40)) with (1099511627776 # 1)%Q in *. lra. }
  assert (Ea : accepted (time e) = time e).
  { unfold accepted. change (negb (Qle_bool (time e) 0)) with (ltQ 0 (time e)). by rewrite (proj2 (ltQ_true _ _) Ht). }
  assert (Ep : accepted (pitch e) = 1%Q) by (by rewrite fr_pitch0).
  assert (Em : (accepted (time e) * accepted (pitch e) == time e)%Q) by (rewrite Ea, Ep; ring).
  destruct (sizes_ok e) as (s & E & H1 & H2 & H3 & H4 & H5 & H6 & H7); try done; [by rewrite Em|by rewrite Em|].
  rewrite fr_fix0 in E. injection E as <-. rewrite H1, H2, Ea, Ep in H7.
  constructor; try done; [by rewrite fr_pitch0| |].
  - rewrite H4. pose proof (pow2_even _ H3 ltac:(lia)) as He. destruct (smoothOn (opts e)); [|done].
    rewrite Z.mul_comm, Z.mod_mul; lia.
  - rewrite H4. destruct (smoothOn (opts e)); lia.
Qed.
Lemma fresh_sane e c : fresh e c -> (forall s x, zlen (fst (analyse D s x)) = zlen x) ->
  (forall s x p r si, zlen (fst (modify D s x p r si)) = zlen x) -> (forall si, win e <= zlen (shape D si)) -> sane D (paramsOf e).
Proof.
  intros HF H1 H2 H3. pose proof (fresh_fitting e c HF) as []. pose proof HF as []. constructor; cbn; try done; try lia.
  - rewrite fr_pitch0. done.
  - unfold resamples. rewrite fr_pitch0, fr_highC0. done.
  - intros _. rewrite fr_pitch0. done.
Qed.

(** ** Starting afresh *)
Lemma shaped_restart e w c : shaped w c -> shaped w (restart D X e c).
Proof.
  intros []. constructor; cbn; try done.
  - rewrite zlen_replicate. unfold zlen in sh_acc0. lia.
  - rewrite zlen_cons, !zlen_replicate. unfold zlen in *. lia.
Qed.
Lemma shaped_kept w c d : kept c d -> shaped w c -> shaped w d.
Proof. intros [] []. constructor; try congruence. all: rewrite ?kp_wacc, ?kp_flt, ?kp_acc, ?kp_inCap, ?kp_outCap; done. Qed.
Lemma restart_start e c : Qeq (pitch e) 1 -> shaped (win e) c -> start D (paramsOf e) (restart D X e c).
Proof.
  intros Hp Hs. pose proof (shaped_restart e _ _ Hs) as Hs'. destruct Hs. constructor; try done.
  - destruct Hs'. constructor; cbn [paramsOf window]; try lia. cbn. rewrite zlen_replicate. lia.
  - split; cbn; [rewrite (@zlen_nil A); lia|]. unfold need. cbn [paramsOf pitchScale window].
    rewrite (proj2 (Qeq_bool_iff _ _) Hp). lia.
  - cbn. lia.
Qed.
(** What a study pass has done to a channel is gone. *)
Lemma restart_kept e c d : kept c d -> restart D X e d = restart D X e c.
Proof.
  intros []. unfold restart, resetChan, resetChannel, prefill, set_in. cbn.
  assert (El : length (acc d) = length (acc c)) by (unfold zlen in kp_acc; lia).
  rewrite kp_inCap, kp_outCap, kp_flt, El, kp_wacc, kp_spec, kp_rsm, kp_rb. done.
Qed.

Lemma new_shaped s : 1 <= Sizes.window s -> shaped (Sizes.window s) (newChannel D X s).
Proof.
  intros Hw. constructor; cbn; try lia.
  - rewrite zlen_replicate. lia.
  - rewrite zlen_replicate. lia.
  - rewrite zlen_cons, !zlen_replicate. lia.
Qed.

Lemma accepted_pos q : (0 < q)%Q -> accepted q = q.
Proof. intros H. unfold accepted. change (negb (Qle_bool q 0)) with (ltQ 0 q). by rewrite (proj2 (ltQ_true _ _) H). Qed.

(** R2Stretcher::configure makes a fresh stretcher of one that has nothing studied. *)
Lemma configure_fresh prev e c : 8000 <= rate e <= 192000 -> baseSize (rate e) (short (opts e)) (long (opts e)) = Some (baseFft e) ->
  (0 < time e)%Q -> (1 <= inject_Z (2 ^ 40) * time e)%Q -> (time e <= inject_Z (2 ^ 40))%Q -> pitch e = 1%Q -> highC (opts e) = false ->
  emode e = JustCreated -> dfs e = [] -> silence e = [] -> incs e = [] -> (1 <= nch e)%nat ->
  match prev with Some p => chans e = replicate (nch e) c /\ shaped (Sizes.window p) c | None => True end ->
  exists e' c', configure D X prev e = Some e' /\ fresh e' c' /\ opts e' = opts e /\ rate e' = rate e /\ nch e' = nch e /\ time e' = time e /\ expectedIn e' = expectedIn e /\
    calculateSizes (configOf e) = Some (sz e').
Proof.
  intros Hr Hb Ht0 Hl Hh Hp Hc Hm Hdf Hsil Hinc Hn Hprev. unfold configure.
  assert (Em : (accepted (time e) * accepted (pitch e) == time e)%Q) by (rewrite accepted_pos by done; rewrite Hp; change (accepted 1) with 1%Q; ring).
  destruct (sizes_ok e Hr Hb) as (s & E & H1 & H2 & H3 & H4 & H5 & H6 & H7); [by rewrite Em|by rewrite Em|].
  rewrite E. change (Some ?x ≫= ?f) with (f x). cbv beta zeta.
  rewrite accepted_pos in H1 by done. rewrite Hp in H2. change (accepted 1) with 1%Q in H2.
  set (c0 := if match prev with Some p => same_sizes p s | None => false end then c else newChannel D X s).
  assert (Hsh : shaped (Sizes.window s) c0).
  { unfold c0. assert (1 <= Sizes.window s) by (rewrite H4; destruct (smoothOn (opts e)); lia).
    destruct prev as [p|]; [|by apply new_shaped]. destruct (same_sizes p s) eqn:Es; [|by apply new_shaped].
    unfold same_sizes in Es. apply andb_true_iff in Es as [Es _]. apply Z.eqb_eq in Es. rewrite <- Es. apply Hprev. }
  set (e1 := Engine _ _ _ _ _ _ _ _ _ _ _ _ _ _ _ _ _).
  assert (Hres : resamples e1 = false) by (unfold resamples; cbn; rewrite H2, Hc; done).
  assert (Hch : chans e1 = replicate (nch e) c0).
  { unfold c0. cbn. destruct prev as [p|]; [|done]. by destruct (same_sizes p s); [apply Hprev|]. }
  assert (Hadd : addResampler X e1 <$> chans e1 = chans e1).
  { rewrite <- (list_fmap_id (chans e1)) at 2. apply list_fmap_ext. intros ? ? _. unfold addResampler. by rewrite Hres. }
  rewrite Hadd, Hch, fmap_replicate.
  exists (with_chans e1 (replicate (nch e) (restart D X e1 c0))), (restart D X e1 c0). split; [done|]. split; [|by cbn; rewrite H1].
  assert (Hp1 : pitch e1 = 1%Q) by done.
  constructor; try done; try (cbn; by rewrite ?H1).
  - unfold configOf in *. cbn. by apply sizes_fixed in E.
  - apply shaped_restart. exact Hsh.
  - assert (Hst : start D (paramsOf e1) (restart D X e1 c0)); [|exact Hst]. apply restart_start; [by rewrite Hp1|done].
Qed.

Lemma create_fresh o rt n t : 8000 <= rt <= 192000 -> (1 <= inject_Z (2 ^ 40) * t)%Q -> (t <= inject_Z (2 ^ 40))%Q -> highC o = false -> (1 <= n)%nat ->
  exists e c, create D X o rt n t 1 = Some e /\ fresh e c /\ opts e = o /\ rate e = rt /\ nch e = n /\ time e = t /\ expectedIn e = 0.
Proof.
  intros Hr Hl Hh Hc Hn. unfold create. destruct (baseSize_valid rt (short o) (long o) Hr) as (b & Eb & _).
  rewrite Eb. change (Some ?x ≫= ?f) with (f x). cbv beta zeta.
  assert (Ht : (0 < t)%Q).
  { destruct (Qlt_le_dec 0 t) as [|H]; [done|]. exfalso. change (inject_Z (2 ^ 40)) with (1099511627776 # 1)%Q in *. lra. }
  match goal with |- context [configure D X None ?e] => destruct (configure_fresh None e (newChannel D X (sz e))) as (e' & c' & E & HF & H1 & H2 & H3 & H4 & H5 & _) end; try done.
  rewrite E. by exists e', c'.
Qed.
Lemma reconfigure_fresh e0 e c : fresh e0 c -> (0 < time e)%Q -> (1 <= inject_Z (2 ^ 40) * time e)%Q -> (time e <= inject_Z (2 ^ 40))%Q ->
  opts e = opts e0 -> rate e = rate e0 -> nch e = nch e0 -> baseFft e = baseFft e0 -> pitch e = pitch e0 -> emode e = JustCreated ->
  dfs e = [] -> silence e = [] -> incs e = [] -> chans e = chans e0 -> sz e = sz e0 ->
  exists e' c', reconfigure D X e = Some e' /\ fresh e' c' /\ opts e' = opts e /\ rate e' = rate e /\ nch e' = nch e /\ time e' = time e /\
    expectedIn e' = expectedIn e.
Proof.
  intros [] Ht Hl Hh Ho Hr Hn Hb Hp Hm Hdf Hsil Hinc Hch Hsz. unfold reconfigure. rewrite Hm. change (Some ?x ≫= ?f) with (f x). cbv beta.
  destruct (configure_fresh (Some (sz e)) e c) as (e' & c' & E & HF & H1 & H2 & H3 & H4 & H5 & _); try done; try (rewrite ?Ho, ?Hr, ?Hb, ?Hp, ?Hn; done).
  { rewrite Hch, Hn, Hsz. done. }
  rewrite E. change (Some ?x ≫= ?f) with (f x). cbv beta. rewrite (fr_fix _ _ HF). change (Some ?x ≫= ?f) with (f x). cbv beta.
  unfold same_sizes. rewrite !Z.eqb_refl. cbn [andb]. by exists e', c'.
Qed.
Lemma setting_fresh e c a : fresh e c -> setting a -> exists e' c', step D X e a = Some (Done, e') /\ fresh e' c' /\
  opts e' = opts e /\ rate e' = rate e /\ nch e' = nch e /\
  Qeq (time e') (match a with SetTime q => q | _ => time e end) /\ expectedIn e' = match a with SetExpected n => n | _ => expectedIn e end.
Proof.
  intros HF Ha. pose proof HF as [].
  assert (Hpos : forall t, (1 <= inject_Z (2 ^ 40) * t)%Q -> (0 < t)%Q).
  { intros t Hl. destruct (Qlt_le_dec 0 t) as [|H]; [done|]. exfalso. change (inject_Z (2 ^ 40)) with (1099511627776 # 1)%Q in *. lra. }
  destruct Ha as [q Hl Hh|n|n]; cbn [step]; unfold setTimeRatio, setExpectedInputDuration, setMaxProcessSize, quietly.
  - unfold begun. rewrite fr_mode0. cbn [orb]. destruct (Qeq_bool q (time e)) eqn:Eq; [apply Qeq_bool_iff in Eq; by exists e, c|].
    destruct (reconfigure_fresh e (with_ratios e q (pitch e)) c HF) as (e' & c' & E & HF' & H1 & H2 & H3 & H4 & H5); try done; [by apply Hpos|].
    rewrite E. exists e', c'. rewrite H4. done.
  - destruct (_ =? _) eqn:En; [apply Z.eqb_eq in En; by exists e, c|].
    destruct (reconfigure_fresh e (with_expected e n) c HF) as (e' & c' & E & HF' & H1 & H2 & H3 & H4 & H5); try done; [by apply Hpos|].
    rewrite E. exists e', c'. rewrite H4. done.
  - destruct (_ <=? _); [by exists e, c|].
    destruct (reconfigure_fresh e (with_max e n) c HF) as (e' & c' & E & HF' & H1 & H2 & H3 & H4 & H5); try done; [by apply Hpos|].
    rewrite E. exists e', c'. rewrite H4. done.
Qed.
Lemma lastTime_comp (l : list (call (A := A))) : forall t t', Qeq t t' -> Qeq (lastTime t l) (lastTime t' l).
Proof. induction l as [|[] l IH]; intros t t' H; cbn; try (by apply IH); try done. Qed.
Lemma settings_fresh l : forall e c, fresh e c -> Forall setting l -> exists e' c', steps D X e l = Some (replicate (length l) Done, e') /\ fresh e' c' /\
  opts e' = opts e /\ rate e' = rate e /\ nch e' = nch e /\ Qeq (time e') (lastTime (time e) l) /\ expectedIn e' = lastExpected (expectedIn e) l.
Proof.
  induction l as [|a l IH]; intros e c HF Hl; [by exists e, c|].
  apply Forall_cons in Hl as [Ha Hl]. destruct (setting_fresh e c a HF Ha) as (e1 & c1 & E1 & HF1 & H1 & H2 & H3 & H4 & H5).
  destruct (IH e1 c1 HF1 Hl) as (e2 & c2 & E2 & HF2 & G1 & G2 & G3 & G4 & G5).
  exists e2, c2. cbn [steps]. rewrite E1. change (Some ?x ≫= ?f) with (f x). cbv beta iota. rewrite E2.
  change (Some ?x ≫= ?f) with (f x). cbv beta iota. split; [done|]. split; [done|]. split; [congruence|]. split; [congruence|]. split; [congruence|].
  split.
  - rewrite G4. destruct Ha; cbn [lastTime]; by apply lastTime_comp.
  - rewrite G5, H5. by destruct Ha.
Qed.
End Fresh.
