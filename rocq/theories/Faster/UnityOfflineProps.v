(** Property C83: offline, nothing to stretch, everything stays in its place. *)
From stdpp Require Import prelude.
From Coq Require Import ZArith QArith Qround Reals Lra Lia Lqa.
From Verif Require Import Base.Arith Faster.Sizes Faster.Model Faster.Core Faster.Chunks Faster.Stream Faster.Runs Faster.RunsProofs Faster.OlaSpec Faster.Ola Faster.VocoderSpec Faster.Vocoder Faster.StreamProps Faster.VocoderProps Faster.Hann Faster.UnityModel Faster.Unity Faster.UnityOffline.
From Verif Require Calculator.Spec Calculator.Model Calculator.Peaks Calculator.Props.
From stdpp Require Import list.
Local Open Scope Z_scope.

(** C83, the profile: at time ratio 1, without key frames, whatever onsets were found, every
    chunk advances by exactly the input increment. *)
Theorem C83_even_profile : forall rate h hp ratio df l, 1 <= rate -> 1 <= h -> (ratio == 1)%Q ->
  Calculator.Model.calculate (Calculator.Model.create rate h hp) ratio df = Some l -> Forall (fun x => Z.abs x = h) l.
Proof.
  intros rate h hp ratio df l Hr Hh Hq E. unfold Calculator.Model.calculate in E.
  destruct (Calculator.Model.findPeaks (Calculator.Model.create rate h hp) df) as [ps|] eqn:Ep; [|done].
  change (Some ?x ≫= ?f) with (f x) in E. cbv beta in E.
  destruct (Calculator.Peaks.findPeaks_ok (Calculator.Model.create rate h hp) Hr Hh df ps Ep) as (_ & Hps & _).
  assert (Ho : Calculator.Model.output_duration (Calculator.Model.create rate h hp) ratio df = zlen df * h).
  { unfold Calculator.Model.output_duration. rewrite (rint_comp _ (inject_Z (zlen df * h))); [apply rint_Z|]. rewrite Hq. cbn [Calculator.Model.increment Calculator.Model.create]. ring. }
  rewrite Ho in E. cbn [Calculator.Model.keyFrameMap Calculator.Model.create Calculator.Model.mapPeaks Calculator.Model.increment] in E.
  change (Some ?x ≫= ?f) with (f x) in E. cbv beta in E.
  match type of E with Calculator.Model.regions _ _ _ _ _ _ ?q = _ => assert (Hq2 : Forall (fun '(p, t) => 0 <= Calculator.Model.chunk p /\ t = Calculator.Model.chunk p * h) q) end.
  { apply Forall_fmap. eapply Forall_impl; [exact Hps|]. cbn. intros p [H0 H1]. split; [done|].
    rewrite (rint_comp _ (inject_Z (Calculator.Model.chunk p * h))); [apply rint_Z|]. rewrite !inject_Z_mult. field.
    change 0%Q with (inject_Z 0). rewrite inject_Z_injective. lia. }
  destruct (regions_uniform h Hh (zlen df) (zlen_nonneg df) _ 0 false (Z.le_refl 0) Hq2) as (l' & E' & Hu).
  change (0 * h) with 0 in E'. rewrite E' in E. by injection E as <-.
Qed.
Print Assumptions C83_even_profile.
Example C83_profile_case : Calculator.Model.calculate (Calculator.Model.create 44100 256 true) 1 Calculator.Props.two_hits =
  Some (replicate 10 256 ++ [-256] ++ replicate 12 256 ++ [-256] ++ replicate (length Calculator.Props.two_hits - 24) 256).
Proof. vm_compute. reflexivity. Qed.

(** An R2 engine offline at time ratio and pitch scale 1, just made: half a window of silence
    before the input, the profile even. *)
Section Props.
Context {T C : Type} (look : T -> list R -> T) (next : T -> Z -> bool -> T) (full : T -> bool -> bool) (resynth : T -> nat -> R)
  (curve : C -> list (bool * T) -> Q * bool * C).
Record offlineUnity (w h : Z) (P : params) (c : channel R (bool * T) unit) : Prop := OfflineUnity {
  ou_incr : 1 <= h; ou_fits : 4 * h <= w; ou_window : window P = w; ou_increment : increment P = h; ou_rt : realtime P = false;
  ou_pitch : (pitchScale P == 1)%Q; ou_before : before P = false; ou_after : after P = false;
  ou_profile : Forall (fun x => Z.abs x = h) (increments P);
  ou_start : start (realDsp look next full resynth curve w h) P c;
  ou_blank : blank (realDsp look next full resynth curve w h) P c;
  ou_flag : fst (spec c) = true
}.

Lemma offline_run w h P c cs : offlineUnity w h P c ->
  let n := windows P (w / 2 + zlen (inputs cs)) in
  exists out d, calls (realDsp look next full resynth curve w h) P c cs = Some (out, d) /\
    zlen (out ++ outbuf d) = Z.max 0 (n * h - w / 2) /\
    forall t v, getZ (out ++ outbuf d) t = Some v ->
      exists u, getZ (inputs cs) t = Some u /\ v = (u * gain w h (Z.to_nat n) (t + w / 2))%R.
Proof.
  intros [H1 H2 H3 H4 H5 H6 H7 H8 H9 H10 H11 H12] n. set (D := realDsp look next full resynth curve w h) in *.
  assert (HP : sane D P) by (by apply unity_sane).
  assert (Hsk : startSkip P = w / 2).
  { unfold startSkip. rewrite H5, H3. rewrite (rint_comp _ (inject_Z (w / 2))); [apply rint_Z|]. rewrite H6. field. }
  assert (Hw2 : 0 <= w / 2) by (apply Z.div_pos; lia).
  assert (Hin : inbuf c = replicate (Z.to_nat (w / 2)) 0%R) by (rewrite (st_in _ _ _ H10), H3; done).
  assert (Hst : zlen (inbuf c ++ inputs cs) = w / 2 + zlen (inputs cs)) by (unfold zlen; rewrite app_length, Hin, replicate_length; lia).
  destruct (C66_plain_vocoder D P c cs HP H7 H8) as (out & d & E & Hout).
  { intros k. destruct (even_advance h P k H4 H9) as [_ ->]. lia. } { lia. } { by apply (start_ready D). } { done. }
  exists out, d. split; [done|]. rewrite Hout, Hsk.
  split.
  - destruct (unity_stretched look next full resynth curve w h H1 H2 P (spec c) (inbuf c ++ inputs cs) 0 H3 H4 H9 H12) as [Hl _]. fold D in Hl. rewrite Hst in Hl. fold n in Hl.
    unfold zlen in *. rewrite drop_length. lia.
  - intros t v Hv. assert (Ht : 0 <= t /\ getZ (stretched D P (spec c) (inbuf c ++ inputs cs)) (t + w / 2) = Some v).
    { unfold getZ in *. destruct (Z.leb_spec 0 t); [|done]. split; [done|]. rewrite (proj2 (Z.leb_le 0 (t + w / 2))) by lia.
      rewrite lookup_drop in Hv. rewrite <- Hv. f_equal. lia. }
    destruct Ht as [Ht Hv2].
    destruct (unity_stretched look next full resynth curve w h H1 H2 P (spec c) (inbuf c ++ inputs cs) (t + w / 2) H3 H4 H9 H12) as [Hl Hg]. fold D in Hl, Hg. rewrite Hst in Hl, Hg. fold n in Hl, Hg.
    destruct Hg as (u & Hu & Hg).
    { rewrite <- Hl. split; [lia|]. unfold getZ in Hv2. rewrite (proj2 (Z.leb_le 0 (t + w / 2))) in Hv2 by lia. apply lookup_lt_Some in Hv2. unfold zlen. lia. }
    exists u. rewrite Hv2 in Hg. injection Hg as ->. split; [|done].
    rewrite Hin in Hu. unfold getZ in Hu |- *. rewrite (proj2 (Z.leb_le 0 (t + w / 2))) in Hu by lia. rewrite (proj2 (Z.leb_le 0 t)) by lia.
    rewrite lookup_app_r in Hu by (rewrite replicate_length; lia). rewrite replicate_length in Hu. rewrite <- Hu. f_equal. lia.
Qed.
End Props.

(** C83, until the final block: sample [t] of what has come out is sample [t] of what went in
    times a factor that depends on the window, the increment, how much has gone in and [t],
    never on the sound, the blocks, the detectors, the transforms or the phases, and
    lies between 0 and 4/3; from the point where all overlapping windows exist on it is
    exactly 1 if the window is a whole number of increments.  All but less than a
    window of the input has come out.
    Missing: the factor otherwise, where it is not 1 (next theorem); the last window; rounding. *)
Theorem C83_in_place_partial : forall w h N, exists g : Z -> R, (forall t, 0 <= g t <= 4 / 3)%R /\
  (forall m t, w = m * h -> (m - 1) * h <= t + w / 2 -> t + w < N -> g t = 1%R) /\
  forall (T C : Type) (look : T -> list R -> T) next full resynth (curve : C -> list (bool * T) -> Q * bool * C) P c cs,
  offlineUnity look next full resynth curve w h P c -> zlen (inputs cs) = N ->
  exists out d, calls (realDsp look next full resynth curve w h) P c cs = Some (out, d) /\ N - w < zlen (out ++ outbuf d) /\
    forall t v, getZ (out ++ outbuf d) t = Some v -> exists u, getZ (inputs cs) t = Some u /\ v = (u * g t)%R.
Proof.
  intros w h N. set (n := if w / 2 + N <? w then 0 else (w / 2 + N - w) / h + 1).
  destruct (Z.le_gt_cases h 0) as [Hh|Hh].
  { exists (fun _ => 1%R). split; [intros; Lra.lra|]. split; [done|]. intros T C look next full resynth curve P c cs []. lia. }
  destruct (Z.lt_ge_cases w (4 * h)) as [Hw|Hw].
  { exists (fun _ => 1%R). split; [intros; Lra.lra|]. split; [done|]. intros T C look next full resynth curve P c cs []. lia. }
  exists (fun t => gain w h (Z.to_nat n) (t + w / 2)). split; [intros; apply gain_bound|]. split.
  - intros m t Em Ht HN. apply (gain_steady w h ltac:(lia) ltac:(lia) m); [done|]. split; [done|].
    assert (w = 2 * (w / 2) \/ w = 2 * (w / 2) + 1) by (pose proof (Z.div_mod w 2 ltac:(lia)); pose proof (Z.mod_pos_bound w 2 ltac:(lia)); lia).
    unfold n. destruct (Z.ltb_spec (w / 2 + N) w); [nia|].
    pose proof (Z.div_mod (w / 2 + N - w) h ltac:(lia)). pose proof (Z.mod_pos_bound (w / 2 + N - w) h ltac:(lia)).
    assert (0 <= (w / 2 + N - w) / h) by (apply Z.div_pos; lia). rewrite Z2Nat.id by lia. nia.
  - intros T C look next full resynth curve P c cs HU HN.
    assert (Ew : windows P (w / 2 + zlen (inputs cs)) = n) by (unfold windows, n; rewrite (ou_window _ _ _ _ _ _ _ _ _ HU), (ou_increment _ _ _ _ _ _ _ _ _ HU), HN; done).
    destruct (offline_run look next full resynth curve w h P c cs HU) as (out & d & E & Hl & Hv). rewrite Ew in Hl, Hv.
    exists out, d. split; [done|]. split; [|done]. rewrite Hl. unfold n.
    destruct (Z.ltb_spec (w / 2 + N) w).
    + assert (w / 2 <= w) by (apply Z.div_le_upper_bound; lia). assert (0 <= w / 2) by (apply Z.div_pos; lia). lia.
    + pose proof (Z.div_mod (w / 2 + N - w) h ltac:(lia)). pose proof (Z.mod_pos_bound (w / 2 + N - w) h ltac:(lia)). nia.
Qed.
Print Assumptions C83_in_place_partial.

(** The sizes at 44100 or 48000 Hz, both ratios 1, no options (R2Stretcher.cpp:438-500). *)
Example C83_sizes : forall c, In c [Config false true false false false 2048 (44100 # 48000) 1 1 0 0; Config false false false false false 2048 1 1 1 0 0] ->
  (fun s => (Sizes.window s, Sizes.increment s)) <$> calculateSizes c = Some (2048, 341).
Proof. intros c [<-|[<-|[]]]; vm_compute; reflexivity. Qed.

Lemma gain_default n : (4 <= n)%nat -> (101 / 100 <= gain 2048 341 n 1024)%R.
Proof.
  intros Hn. unfold gain. cbv zeta. change (1024 =? 0) with false. cbv iota.
  assert (Hpick : forall f : Z -> R, rsum n (fun k => if (0 <=? 1024 - Z.of_nat k * 341) && (1024 - Z.of_nat k * 341 <? 2048) then f (1024 - Z.of_nat k * 341) else 0%R) = (f 1024%Z + f 683%Z + f 342%Z + f 1%Z)%R).
  { intros f. replace n with (4 + (n - 4))%nat by lia. rewrite rsum_add, (rsum_zero (n - 4)).
    2: { intros k Hk. rewrite (proj2 (Z.leb_gt 0 _)) by lia. done. }
    cbn [rsum]. change (1024 - Z.of_nat 0 * 341) with 1024. change (1024 - Z.of_nat 1 * 341) with 683. change (1024 - Z.of_nat 2 * 341) with 342. change (1024 - Z.of_nat 3 * 341) with 1.
    cbn [andb Z.leb Z.ltb Z.compare]. cbn. Lra.lra. }
  rewrite (Hpick (fun o => hann 2048 o * hann 2048 o)%R), (Hpick (fun o => hann 2048 o * (3/4))%R).
  pose proof PI_RGT_0 as HPI.
  assert (A0 : hann 2048 1024 = 1%R).
  { unfold hann. replace (2 * PI * 1024 / 2048)%R with PI by Lra.lra. rewrite cos_PI. Lra.lra. }
  assert (A1 : (3 / 4 <= hann 2048 683)%R).
  { unfold hann. assert (cos (2 * PI * 683 / 2048) <= cos (2 * (PI / 3)))%R; [|rewrite cos_2PI3 in *; Lra.lra].
    apply cos_decr_1; Lra.lra. }
  assert (A3 : (0 <= hann 2048 1 <= 7 / 100)%R).
  { split; [apply hann_range|]. unfold hann. assert (cos (PI / 6) <= cos (2 * PI * 1 / 2048))%R by (apply cos_decr_1; Lra.lra).
    rewrite cos_PI6 in *. assert (43 / 25 <= R_sqrt.sqrt 3)%R; [|Lra.lra].
    rewrite <- (sqrt_square (43 / 25)) by Lra.lra. apply sqrt_le_1_alt. Lra.lra. }
  pose proof (hann_range 2048 683) as R1. pose proof (hann_range 2048 342) as R2.
  set (a := hann 2048 683) in *. set (b := hann 2048 342) in *. set (c := hann 2048 1) in *. rewrite A0.
  set (E := (0 + (1 * (3 / 4) + a * (3 / 4) + b * (3 / 4) + c * (3 / 4)))%R).
  assert (HE : (0 < E)%R) by (unfold E; Lra.lra).
  apply (Rmult_le_reg_r E); [done|]. unfold Rdiv at 2. rewrite Rmult_assoc, Rinv_l by Lra.lra. unfold E.
  assert (0 <= (b - 3/8) * (b - 3/8))%R by apply Rle_0_sqr. assert (0 <= (a - 3/4) * a)%R by (apply Rmult_le_pos; Lra.lra). Lra.nra.
Qed.

(** At these sizes the very first sample comes out too loud, by at least one part in a hundred. *)
Theorem C83_start_too_loud : forall (T C : Type) (look : T -> list R -> T) next full resynth (curve : C -> list (bool * T) -> Q * bool * C) P c cs,
  offlineUnity look next full resynth curve 2048 341 P c -> 2047 <= zlen (inputs cs) ->
  exists out d g, calls (realDsp look next full resynth curve 2048 341) P c cs = Some (out, d) /\ (101 / 100 <= g)%R /\
    exists u, getZ (inputs cs) 0 = Some u /\ getZ (out ++ outbuf d) 0 = Some (u * g)%R.
Proof.
  intros T C look next full resynth curve P c cs HU HN.
  destruct (offline_run look next full resynth curve 2048 341 P c cs HU) as (out & d & E & Hl & Hv).
  assert (Hn : 4 <= windows P (2048 / 2 + zlen (inputs cs))).
  { unfold windows. rewrite (ou_window _ _ _ _ _ _ _ _ _ HU), (ou_increment _ _ _ _ _ _ _ _ _ HU). rewrite (proj2 (Z.ltb_ge _ _)) by (change (2048 / 2) with 1024; lia).
    assert (3 <= (2048 / 2 + zlen (inputs cs) - 2048) / 341) by (apply Z.div_le_lower_bound; [lia|]; change (2048 / 2) with 1024; lia). lia. }
  destruct (getZ (out ++ outbuf d) 0) as [v|] eqn:Ev.
  2: { exfalso. unfold getZ in Ev. cbn [Z.leb Z.compare] in Ev. apply lookup_ge_None_1 in Ev.
    assert (H0 : zlen (out ++ outbuf d) <= 0) by (unfold zlen; lia). rewrite Hl in H0. clear -Hn H0. change (2048 / 2) with 1024 in *. lia. }
  destruct (Hv 0 v Ev) as (u & Hu & ->). exists out, d. eexists. split; [done|]. split; [|exists u; done].
  apply gain_default. lia.
Qed.
Print Assumptions C83_start_too_loud.

(** Such an engine. *)
Definition offlineChan (w : Z) : channel R (bool * unit) unit :=
  Chan (replicate (Z.to_nat (w / 2)) 0%R) w [] w (replicate (Z.to_nat w) 0%R) (replicate (Z.to_nat w) 0%R)
    (1%R :: replicate (pred (Z.to_nat w)) 0%R) 0 (true, tt) tt 0 0 0 None 0 false false.
Lemma offlineChan_unity w h l look next full resynth (curve : unit -> _) : 1 <= h -> 4 * h <= w -> Forall (fun x => Z.abs x = h) l ->
  offlineUnity look next full resynth curve w h (plainParams w h 1 l) (offlineChan w).
Proof.
  intros Hh Hw Hl. constructor; try done.
  - constructor; try done.
    + constructor; cbn [plainParams window offlineChan fltbuf acc wacc fill outbuf outCap inbuf inCap rbSize]; rewrite ?zlen_cons, ?zlen_replicate, ?zlen_nil; try lia; try done.
    + split; [|done]. cbn [offlineChan outbuf]. rewrite (@zlen_nil R). change (need (plainParams w h 1 l) (window (plainParams w h 1 l))) with w. cbn [outCap offlineChan]. lia.
  - constructor; cbn [fltbuf acc wacc fill outbuf outCount chunkCount offlineChan window plainParams zero one realDsp]; try done.
    + rewrite zlen_replicate. lia.
    + by rewrite replicate_length.
    + cbn [length]. by rewrite replicate_length.
Qed.

(** C83 as wanted, "ratio 1 gives the input back", is false: default sizes, a constant. *)
Theorem C83_unity_refuted : exists (cs : list (call R)) out d v,
  let look := fun (t : unit) (_ : list R) => t in let next := fun (t : unit) (_ : Z) (_ : bool) => t in
  let full := fun (_ : unit) (_ : bool) => false in let resynth := fun (_ : unit) (_ : nat) => 0%R in
  let curve := fun (d : unit) (_ : list (bool * unit)) => (0%Q, false, d) in
  let P := plainParams 2048 341 1 [341; -341; 341] in
  offlineUnity look next full resynth curve 2048 341 P (offlineChan 2048) /\ inputs cs = replicate 4096 1%R /\
  calls (realDsp look next full resynth curve 2048 341) P (offlineChan 2048) cs = Some (out, d) /\
  getZ (out ++ outbuf d) 0 = Some v /\ (101 / 100 <= v)%R.
Proof.
  set (look := fun (t : unit) (_ : list R) => t). set (next := fun (t : unit) (_ : Z) (_ : bool) => t).
  set (full := fun (_ : unit) (_ : bool) => false). set (resynth := fun (_ : unit) (_ : nat) => 0%R).
  set (curve := fun (d : unit) (_ : list (bool * unit)) => (0%Q, false, d)).
  set (cs := [Process (replicate 4096 1%R)]).
  assert (Hin : inputs cs = replicate 4096 1%R) by (cbn [inputs cs]; apply app_nil_r).
  assert (HU := offlineChan_unity 2048 341 [341; -341; 341] look next full resynth curve ltac:(lia) ltac:(lia) ltac:(by repeat constructor)).
  destruct (C83_start_too_loud unit unit look next full resynth curve _ _ cs HU) as (out & d & g & E & Hg & u & Hu & Hv).
  { rewrite Hin, zlen_replicate. lia. }
  exists cs, out, d, (u * g)%R. cbv zeta. split; [exact HU|]. split; [exact Hin|]. split; [exact E|]. split; [exact Hv|].
  rewrite Hin in Hu. unfold getZ in Hu. cbn [Z.leb Z.compare] in Hu. apply lookup_replicate in Hu as [-> _]. Lra.lra.
Qed.
Print Assumptions C83_unity_refuted.
