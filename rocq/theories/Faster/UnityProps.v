(** Property C78: nothing to stretch, nothing changed. *)
From stdpp Require Import prelude.
From Coq Require Import ZArith QArith Qround Reals Lra Lia Lqa.
From Verif Require Import Base.Arith Faster.Model Faster.Core Faster.Chunks Faster.Stream Faster.OlaSpec Faster.Ola Faster.VocoderSpec Faster.Vocoder Faster.RealTimeRuns Faster.RealTime Faster.RealTimeCalls Faster.StreamProps Faster.RealTimeProps
  Faster.RtVocoderSpec Faster.RtVocoder Faster.RtVocoderProps Faster.Hann Faster.UnityModel Faster.Unity.
From Verif Require Calculator.Model.
From stdpp Require Import list.
Local Open Scope Z_scope.

Lemma fresh_steady {C} h rate hp (d : C) : steady h (Calculator.Model.create rate h hp, 0, d, 0).
Proof. split; [|by left]. split; [done|]. split; done. Qed.

(** The hypotheses of this file: a real-time R2 engine at time ratio and pitch scale 1 whose
    window holds a whole number of increments, just made or reset. *)
Section Props.
Context {T C : Type} (look : T -> list R -> T) (next : T -> Z -> bool -> T) (full : T -> bool -> bool) (resynth : T -> nat -> R)
  (curve : C -> list (bool * T) -> Q * bool * C).
Record unity (w h : Z) (P : params) (cap : Z) (e : engine R (bool * T) unit (Calculator.Model.calc * Z * C * Z)) : Prop := Unity {
  un_incr : 1 <= h; un_window : window P = w; un_increment : increment P = h; un_rt : realtime P = true;
  un_pitch : (pitchScale P == 1)%Q; un_before : before P = false; un_after : after P = false; un_cap : w <= cap;
  un_started : started (realDsp look next full resynth curve w h) P cap e;
  un_flags : Forall (fun c => fst (spec c) = true) (chans e);
  un_calc : exists rate hp d, calc e = (Calculator.Model.create rate h hp, 0, d, 0)
}.

Lemma unity_run w h P cap e cs : unity w h P cap e -> 4 * h <= w -> Forall (fits (length (chans e))) cs -> ended cs = false ->
  exists rs e' m, rtCalls (realDsp look next full resynth curve w h) P e cs = Some (rs, e') /\ length (chans e') = length (chans e) /\
    Z.of_nat m <= windows P (zlen (given cs 0)) /\ (Forall (small h) cs -> Z.of_nat m = windows P (zlen (given cs 0))) /\
    forall i c, chans e' !! i = Some c -> zlen (returned rs i ++ outbuf c) = Z.of_nat m * h /\ zlen (given cs i) = zlen (given cs 0) /\
      forall j, 0 <= j < Z.of_nat m * h -> exists v, getZ (given cs i) j = Some v /\ getZ (returned rs i ++ outbuf c) j = Some (v * gain w h m j)%R.
Proof.
  intros [H1 H2 H3 H4 H5 H6 H7 H8 H9 H10 H11] Hw Hfit Hend.
  set (D := realDsp look next full resynth curve w h) in *.
  assert (HP : sane D P) by (by apply unity_sane). assert (HC : calm D (window P)) by (rewrite H2; by apply unity_calm).
  assert (Hsk : startSkip P = 0) by (unfold startSkip; by rewrite H4).
  destruct (C77_realtime_plain_vocoder D P cap e cs HP HC H6 H7) as (rs & e' & m & E & Hl & Hm1 & Hm2 & Hout); try done; try lia.
  exists rs, e', m. rewrite H3 in Hm2. split; [done|]. split; [done|]. split; [done|]. split; [done|]. intros i c Hc.
  assert (Hi : (i < length (chans e))%nat) by (rewrite <- Hl; by eapply lookup_lt_Some).
  assert (Hlev : zlen (given cs i) = zlen (given cs 0)).
  { clear -Hfit Hi. induction cs as [|a cs IH]; [done|]. apply Forall_cons_1 in Hfit as [Ha Hcs]. specialize (IH Hcs). destruct a as [b|b| |]; cbn [given fits] in *; try done.
    all: assert (Hb : length (default [] (b !! i)) = length (default [] (b !! 0%nat))) by
      (destruct Ha as [Hl [n Hn]]; rewrite Forall_lookup in Hn; destruct (lookup_lt_is_Some_2 b i) as [x Hx]; [lia|]; destruct (lookup_lt_is_Some_2 b 0) as [y Hy]; [lia|];
       rewrite Hx, Hy; cbn; by rewrite (Hn _ _ Hx), (Hn _ _ Hy)).
    - unfold zlen in *. rewrite !app_length. lia.
    - unfold zlen. lia. }
  rewrite (Hout i c Hc), Hsk. change (skipn_z 0 ?l) with l.
  assert (Hlen : zlen (heard D P (calc e) (spec <$> chans e) (given cs) m i) = Z.of_nat m * h).
  { destruct H11 as (rate & hp & d & Ek).
    destruct (unity_played look next full resynth curve w h H1 P (calc e) (spec <$> chans e) (given cs) m H2 H3) as (q & k' & ss' & Eq & _ & _ & _ & Hh & _).
    { rewrite Ek. apply fresh_steady. } { by apply Forall_fmap. }
    unfold heard. fold D in Eq. rewrite Eq, ola_from.
    assert (Hsp : span (framesOf P i q) = Z.of_nat m * h).
    { clear -Hh. unfold span, framesOf. rewrite <- list_fmap_compose. change (_ ∘ _) with (fun c : @chunk R => hop c). rewrite Hh. clear.
      induction m as [|m IH]; [done|]. cbn [replicate]. change (sumZ (?a :: ?l)) with (a + sumZ l). rewrite IH. lia. }
    rewrite zlen_olaFrom; lia. }
  split; [done|]. split; [done|]. intros j Hj.
  assert (Hm : (Z.of_nat m - 1) * h + w <= zlen (given cs i)).
  { rewrite Hlev. revert Hm1. unfold windows. rewrite H2, H3. destruct (Z.ltb_spec (zlen (given cs 0)) w); [nia|]. intros Hm1.
    assert (h * ((zlen (given cs 0) - w) / h) <= zlen (given cs 0) - w) by (apply Z.mul_div_le; lia). nia. }
  destruct (getZ (given cs i) j) as [v|] eqn:Hv.
  2: { exfalso. unfold getZ in Hv. rewrite (proj2 (Z.leb_le 0 j)) in Hv by lia. apply lookup_ge_None_1 in Hv. unfold zlen in Hm. nia. }
  exists v. split; [done|]. destruct H11 as (rate & hp & d & Ek).
  apply unity_heard; try done; try nia.
  - rewrite Ek. apply fresh_steady.
  - by apply Forall_fmap.
  - by rewrite fmap_length.
Qed.
End Props.

(** C78, from the end of the first window on: sample [j] of what a channel has delivered and
    holds ready is sample [j] of what it was given, to the last bit over the reals, for
    every division into blocks, whatever the detectors, transients and phase resets, the
    transforms and the other channels do; and nothing is withheld beyond the last complete
    chunk if the blocks are no longer than the increment.
    Missing: the first window less an increment, where it is false (next theorem), and
    rounding. *)
Theorem C78_unity_partial : forall {T C} (look : T -> list R -> T) next full resynth (curve : C -> list (bool * T) -> Q * bool * C) h m P cap e cs,
  unity look next full resynth curve (m * h) h P cap e -> 4 <= m -> Forall (fits (length (chans e))) cs -> ended cs = false ->
  exists rs e', rtCalls (realDsp look next full resynth curve (m * h) h) P e cs = Some (rs, e') /\
    forall i c, chans e' !! i = Some c ->
      (forall j v, (m - 1) * h <= j -> getZ (returned rs i ++ outbuf c) j = Some v -> getZ (given cs i) j = Some v) /\
      (Forall (small h) cs -> zlen (given cs i) - m * h < zlen (returned rs i ++ outbuf c)).
Proof.
  intros T C look next full resynth curve h m P cap e cs HU Hm Hfit Hend.
  assert (Hh : 1 <= h) by apply HU.
  destruct (unity_run look next full resynth curve (m * h) h P cap e cs HU ltac:(nia) Hfit Hend) as (rs & e' & n & E & _ & Hn1 & Hn2 & Hout).
  exists rs, e'. split; [done|]. intros i c Hc. destruct (Hout i c Hc) as (Hlen & Hlev & Hval). split.
  - intros j v Hj Hv. assert (Hj2 : 0 <= j < Z.of_nat n * h).
    { rewrite <- Hlen. unfold getZ in Hv. destruct (Z.leb_spec 0 j); [|done]. apply lookup_lt_Some in Hv. unfold zlen. lia. }
    destruct (Hval j Hj2) as (u & Hu & Hg). rewrite Hv in Hg. rewrite (gain_steady (m * h) h Hh ltac:(nia) m n j eq_refl) in Hg by lia.
    rewrite Hu. injection Hg as ->. f_equal. Lra.lra.
  - intros Hs. specialize (Hn2 Hs). rewrite Hlen, Hlev, Hn2. unfold windows. rewrite (un_window _ _ _ _ _ _ _ _ _ _ HU), (un_increment _ _ _ _ _ _ _ _ _ _ HU).
    destruct (Z.ltb_spec (zlen (given cs 0)) (m * h)); [lia|].
    pose proof (Z.div_mod (zlen (given cs 0) - m * h) h ltac:(lia)). pose proof (Z.mod_pos_bound (zlen (given cs 0) - m * h) h ltac:(lia)). nia.
Qed.
Print Assumptions C78_unity_partial.

(** The window is four increments unless ratios say otherwise (R2Stretcher.cpp:438-500).
    Half a window in, just where the padding asked for ends and the wanted audio begins,
    three of the four overlapping chunks exist: too few for the weights to balance. *)
Lemma gain_half h n : 1 <= h -> (3 <= n)%nat -> gain (4 * h) h n (2 * h) = (10 / 9)%R.
Proof.
  intros Hh Hn. unfold gain. cbv zeta. rewrite (proj2 (Z.eqb_neq (2 * h) 0)) by lia.
  assert (Hpick : forall f : Z -> R, rsum n (fun k => if (0 <=? 2 * h - Z.of_nat k * h) && (2 * h - Z.of_nat k * h <? 4 * h) then f (2 * h - Z.of_nat k * h) else 0%R) = Rplus (Rplus (f (2 * h)) (f h)) (f 0)).
  { intros f. replace n with (3 + (n - 3))%nat by lia. rewrite rsum_add, (rsum_zero (n - 3)).
    2: { intros k Hk. rewrite (proj2 (Z.leb_gt 0 _)) by nia. done. }
    cbn [rsum]. change (Z.of_nat 0) with 0. change (Z.of_nat 1) with 1. change (Z.of_nat 2) with 2. rewrite !Rplus_0_l, Rplus_0_r.
    replace (2 * h - 0 * h) with (2 * h) by lia. replace (2 * h - 1 * h) with h by lia. replace (2 * h - 2 * h) with 0 by lia.
    rewrite (proj2 (Z.leb_le 0 (2 * h))), (proj2 (Z.leb_le 0 h)), (proj2 (Z.ltb_lt (2 * h) (4 * h))), (proj2 (Z.ltb_lt h (4 * h))), (proj2 (Z.ltb_lt 0 (4 * h))) by lia. done. }
  rewrite (Hpick (fun o => hann (4 * h) o * hann (4 * h) o)%R), (Hpick (fun o => hann (4 * h) o * (3/4))%R).
  assert (IZR h <> 0%R) by (apply not_0_IZR; lia).
  assert (A0 : hann (4 * h) 0 = 0%R).
  { unfold hann. replace (2 * PI * IZR 0 / IZR (4 * h))%R with 0%R; [rewrite cos_0; Lra.lra|]. unfold Rdiv. ring. }
  assert (A1 : hann (4 * h) h = (1/2)%R).
  { unfold hann. rewrite mult_IZR. replace (2 * PI * IZR h / (4 * IZR h))%R with (PI / 2)%R by (field; done). rewrite cos_PI2. Lra.lra. }
  assert (A2 : hann (4 * h) (2 * h) = 1%R).
  { unfold hann. rewrite !mult_IZR. replace (2 * PI * (2 * IZR h) / (4 * IZR h))%R with PI by (field; done). rewrite cos_PI. Lra.lra. }
  rewrite A0, A1, A2. Lra.lra.
Qed.
Theorem C78_start_too_loud : forall {T C} (look : T -> list R -> T) next full resynth (curve : C -> list (bool * T) -> Q * bool * C) h P cap e cs,
  unity look next full resynth curve (4 * h) h P cap e -> Forall (fits (length (chans e))) cs -> ended cs = false ->
  exists rs e', rtCalls (realDsp look next full resynth curve (4 * h) h) P e cs = Some (rs, e') /\
    forall i c v, chans e' !! i = Some c -> getZ (returned rs i ++ outbuf c) (2 * h) = Some v ->
      exists u, getZ (given cs i) (2 * h) = Some u /\ v = (10 / 9 * u)%R.
Proof.
  intros T C look next full resynth curve h P cap e cs HU Hfit Hend. assert (Hh : 1 <= h) by apply HU.
  destruct (unity_run look next full resynth curve (4 * h) h P cap e cs HU ltac:(lia) Hfit Hend) as (rs & e' & n & E & _ & _ & _ & Hout).
  exists rs, e'. split; [done|]. intros i c v Hc Hv. destruct (Hout i c Hc) as (Hlen & _ & Hval).
  assert (Hj : 0 <= 2 * h < Z.of_nat n * h).
  { split; [lia|]. rewrite <- Hlen. unfold getZ in Hv. rewrite (proj2 (Z.leb_le 0 _)) in Hv by lia. apply lookup_lt_Some in Hv. unfold zlen. lia. }
  destruct (Hval _ Hj) as (u & Hu & Hg). exists u. split; [done|]. rewrite Hv in Hg. injection Hg as ->. rewrite gain_half by (try done; nia). Lra.lra.
Qed.
Print Assumptions C78_start_too_loud.

(** A small engine: window 4 [h], two channels, transforms and detectors of no interest. *)
Definition unityParams (h : Z) : params := Faster.Model.Params (4 * h) h true 1 1 false false false [].
Definition unityEngine (h : Z) : engine R (bool * unit) unit (Calculator.Model.calc * Z * unit * Z) :=
  Engine (replicate 2 (Chan [] (4 * h) [] (4 * h) (replicate (Z.to_nat (4 * h)) 0%R) (replicate (Z.to_nat (4 * h)) 0%R)
    (1%R :: replicate (pred (Z.to_nat (4 * h)%Z)) 0%R) 0 (true, tt) tt 0 0 0 None 0 false false))
    (Calculator.Model.create 48000 h true, 0, tt, 0) false.
Lemma unityEngine_unity h look next full resynth curve : 1 <= h -> unity look next full resynth curve (4 * h) h (unityParams h) (4 * h) (unityEngine h).
Proof.
  intros Hh. constructor; try done; cbn [window unityParams]; try lia.
  - split.
    + split; [|done]. apply Forall_replicate. split; [by constructor|]. split; [|change (need (unityParams h) (window (unityParams h))) with (4 * h); cbn [outCap]; lia].
      constructor; cbn [unityParams window fltbuf acc wacc fill outbuf outCap inbuf inCap rbSize]; rewrite ?zlen_cons, ?zlen_replicate, ?zlen_nil; try lia; try done.
    + apply Forall_replicate. constructor; cbn [fltbuf acc wacc fill outbuf outCount chunkCount unityParams window zero one realDsp]; try done.
      * rewrite zlen_replicate. lia.
      * by rewrite replicate_length.
      * cbn [length]. by rewrite replicate_length.
  - by repeat constructor.
  - do 3 eexists. reflexivity.
Qed.

(** C78 as wanted is false: pad with half a window of silence, as getPreferredStartPad() asks,
    and throw away half a window, as getStartDelay() says; the first sample of a constant
    signal comes out too loud. *)
Theorem C78_unity_refuted : exists (h : Z) (cs : list (rcall R)) rs e',
  let look := fun (t : unit) (_ : list R) => t in let next := fun (t : unit) (_ : Z) (_ : bool) => t in
  let full := fun (_ : unit) (_ : bool) => false in let resynth := fun (_ : unit) (_ : nat) => 0%R in
  let curve := fun (d : unit) (_ : list (bool * unit)) => (0%Q, false, d) in
  unity look next full resynth curve (4 * h) h (unityParams h) (4 * h) (unityEngine h) /\
  Forall (fits (length (chans (unityEngine h)))) cs /\ ended cs = false /\
  (forall i, (i < 2)%nat -> given cs i = replicate (Z.to_nat (2 * h)) 0%R ++ replicate 20 1%R) /\
  rtCalls (realDsp look next full resynth curve (4 * h) h) (unityParams h) (unityEngine h) cs = Some (rs, e') /\
  exists c, chans e' !! 0%nat = Some c /\ getZ (returned rs 0 ++ outbuf c) (2 * h) = Some (10 / 9)%R.
Proof.
  set (h := 1).
  set (cs := replicate 2 (Feed (replicate 2 [0%R])) ++ replicate 20 (Feed (replicate 2 [1%R]))).
  set (look := fun (t : unit) (_ : list R) => t). set (next := fun (t : unit) (_ : Z) (_ : bool) => t).
  set (full := fun (_ : unit) (_ : bool) => false). set (resynth := fun (_ : unit) (_ : nat) => 0%R).
  set (curve := fun (d : unit) (_ : list (bool * unit)) => (0%Q, false, d)).
  assert (HU := unityEngine_unity h look next full resynth curve ltac:(lia)).
  assert (Hfit : Forall (fits (length (chans (unityEngine h)))) cs).
  { apply Forall_app; split; apply Forall_replicate; (split; [done|]); exists 1%nat; by repeat constructor. }
  destruct (unity_run look next full resynth curve (4 * h) h _ _ _ cs HU ltac:(lia) Hfit eq_refl) as (rs & e' & n & E & Hl & _ & Hn & Hout).
  exists h, cs, rs, e'. cbv zeta. split; [exact HU|]. split; [done|]. split; [done|].
  assert (Hg : forall i, (i < 2)%nat -> given cs i = replicate (Z.to_nat (2 * h)) 0%R ++ replicate 20 1%R) by (intros [|[|i]] Hi; [reflexivity..|lia]).
  split; [exact Hg|]. split; [exact E|].
  rewrite Hg in Hn by lia. assert (En : Z.of_nat n = 19).
  { rewrite Hn; [reflexivity|]. apply Forall_app; split; apply Forall_replicate; by repeat constructor. }
  destruct (lookup_lt_is_Some_2 (chans e') 0) as [c Hc]; [rewrite Hl; cbn; lia|]. exists c. split; [done|].
  destruct (Hout 0%nat c Hc) as (_ & _ & Hval). destruct (Hval (2 * h)) as (u & Hu & Hv); [lia|].
  rewrite Hg in Hu by lia. injection Hu as <-. rewrite Hv, gain_half by lia. f_equal. Lra.lra.
Qed.
Print Assumptions C78_unity_refuted.

(** The hypotheses of both theorems are met by that engine, at a window of 2048, for two
    channels and blocks of 512 and 7 samples. *)
Example C78_case :
  let look := fun (t : unit) (_ : list R) => t in let next := fun (t : unit) (_ : Z) (_ : bool) => t in
  let full := fun (_ : unit) (r : bool) => r in let resynth := fun (_ : unit) (_ : nat) => 0%R in
  let curve := fun (d : unit) (ss : list (bool * unit)) => (inject_Z (zlen ss), false, d) in
  let cs := [Feed (replicate 2 (replicate 512 1%R)); Available; Feed (replicate 2 (replicate 7 1%R)); Take 3] in
  unity look next full resynth curve (4 * 512) 512 (unityParams 512) (4 * 512) (unityEngine 512) /\
  Forall (fits (length (chans (unityEngine 512)))) cs /\ ended cs = false /\ Forall (small 512) cs.
Proof.
  split; [by apply unityEngine_unity|]. split; [|split; [done|]].
  - constructor; [split; [done|]; eexists; apply Forall_replicate; reflexivity|]. constructor; [done|].
    constructor; [split; [done|]; eexists; apply Forall_replicate; reflexivity|]. by repeat constructor.
  - constructor; [apply Forall_replicate; by rewrite zlen_replicate|]. constructor; [done|]. constructor; [apply Forall_replicate; by rewrite zlen_replicate|]. by repeat constructor.
Qed.
