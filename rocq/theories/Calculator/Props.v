(** Properties C16-C20 and C59-C63. *)
From stdpp Require Import prelude.
From Coq Require Import ZArith QArith Qround Lia Lqa Sorting.Sorted.
From Verif.Base Require Import Arith.
From Verif.Calculator Require Import Model Spec Peaks Soft Proofs Single.
Local Open Scope Z_scope.

(** Detection values used in the examples. *)
Local Definition silence n : list Q := replicate n 0%Q.
Local Definition two_hits : list Q := silence 10 ++ [1%Q] ++ silence 12 ++ [1%Q] ++ silence 3.

(** C16.  For every detection function, with no key frames or with an admissible
    key-frame map, the profile adds up to the rounded duration. *)
Theorem C16_profile_total : forall rate incr hp m ratio df,
  1 <= rate -> 1 <= incr -> (0 <= ratio)%Q -> admissible incr m ->
  let c := setKeyFrameMap (create rate incr hp) m in
  (zlen df <> 1 -> exists l, calculate c ratio df = Some l) /\
  forall l, calculate c ratio df = Some l ->
    sumZ (Z.abs <$> l) = rint (inject_Z (zlen df * incr) * ratio).
Proof.
  intros rate incr hp m ratio df Hr Hi Hq Hm c. split.
  - intros Hn. exact (calculate_some c Hr Hi ratio Hq df m eq_refl Hm Hn).
  - intros l E. exact (proj1 (calculate_total c Hr Hi ratio Hq df m eq_refl Hm l E)).
Qed.
Print Assumptions C16_profile_total.

Example C16_example :
  admissible 256 [(2560, 3000)] /\
  calculate (setKeyFrameMap (create 44100 256 true) [(2560, 3000)]) 2 two_hits =
    Some [300; 300; 300; 300; 300; 300; 300; 300; 300; 300; -256; 668; 669;
          668; 669; 668; 669; 668; 668; 669; 668; 669; 668; -256; 764; 763; 764] /\
  rint (inject_Z (zlen two_hits * 256) * 2) = 13824.
Proof.
  split; [|split; vm_compute; reflexivity]. split; [done|].
  constructor; [|constructor]. right. cbn. lia.
Qed.

(** With other maps it does not: the start of the audio mapped to frame 500. *)
Theorem C16_any_map_refuted : exists m ratio df l,
  increasing m /\ calculate (setKeyFrameMap (create 44100 256 true) m) ratio df = Some l /\
  sumZ (Z.abs <$> l) <> rint (inject_Z (zlen df * 256) * ratio).
Proof.
  exists [(0, 500)], 2%Q, (silence 4). eexists. split; [done|]. split; [vm_compute; reflexivity|].
  vm_compute. discriminate.
Qed.
Print Assumptions C16_any_map_refuted.

(** C17 is false: at half speed a hard onset two chunks before the end takes all
    the output left, and the last chunk gets no increment. *)
Theorem C17_one_per_chunk_refuted : exists rate incr ratio df l,
  1 <= rate /\ 2 <= incr /\ (0 < ratio)%Q /\ calculate (create rate incr true) ratio df = Some l /\ zlen l <> zlen df.
Proof.
  exists 44100, 256, (1 # 2), (silence 10 ++ [1; 1]%Q),
    [128; 128; 128; 128; 128; 128; 128; 128; 128; 128; -256].
  split; [lia|]. split; [lia|]. split; [lra|]. split; [vm_compute; reflexivity|]. discriminate.
Qed.
Print Assumptions C17_one_per_chunk_refuted.

(** What holds without key frames: never more increments than chunks; exactly one
    each when the audio is not shortened, or when hard onsets are off and a chunk
    makes at least two frames; and in a profile with one increment each, phase
    resets are at hard onsets only.  Missing: shortening with hard onsets on. *)
Theorem C17_one_per_chunk_partial : forall rate incr hp ratio df l,
  1 <= rate -> 1 <= incr -> (0 <= ratio)%Q ->
  let c := create rate incr hp in
  calculate c ratio df = Some l ->
  zlen l <= zlen df /\
  (((1 <= ratio)%Q /\ 2 <= incr) \/ (hp = false /\ (2 <= inject_Z incr * ratio)%Q) -> zlen l = zlen df) /\
  (zlen l = zlen df -> forall k x, getZ l k = Some x -> x < 0 ->
     exists ps p, findPeaks c df = Some ps /\ In p ps /\ hard p = true /\ chunk p = k).
Proof.
  intros rate incr hp ratio df l Hr Hi Hq c E. split; [|split].
  - exact (proj2 (calculate_total c Hr Hi ratio Hq df [] eq_refl ltac:(split; [done|constructor]) l E)).
  - intros Hc. exact (plain_full c Hr Hi ratio Hq df eq_refl l Hc E).
  - intros Hf k x Hg Hx. pose proof (getZ_some _ _ _ Hg) as Hk.
    pose proof E as E0. unfold calculate in E0. destruct (findPeaks c df) as [ps|] eqn:Ep; [|done].
    destruct (plain_inv c Hr Hi ratio Hq df eq_refl ps l Ep E ltac:(lia)) as (_ & _ & H).
    destruct (H Hf k x Hg Hx) as (p & Hp & Hh & Hc). exists ps, p. done.
Qed.
Print Assumptions C17_one_per_chunk_partial.

Example C17_example :
  option_map zlen (calculate (create 44100 256 true) 2 two_hits) = Some (zlen two_hits) /\
  option_map (fun l => getZ l 10) (calculate (create 44100 256 true) 2 two_hits) = Some (Some (-256)) /\
  findPeaks (create 44100 256 true) two_hits = Some [Peak 10 true; Peak 23 true].
Proof. vm_compute. repeat split; reflexivity. Qed.

(** C18 is false: with the audio shortened, an increment goes missing before the
    key frame, and the key frame's chunk comes too late. *)
Theorem C18_key_frames_refuted : exists m s t ratio df l,
  admissible 256 m /\ m = [(0, 0); (2048, 256); (s, t)] /\ s / 256 < zlen df /\
  t < rint (inject_Z (zlen df * 256) * ratio) /\
  calculate (setKeyFrameMap (create 44100 256 true) m) ratio df = Some l /\ start_of l (s / 256) <> t.
Proof.
  exists [(0, 0); (2048, 256); (2560, 512)], 2560, 512, (1 # 2), (silence 8 ++ [1]%Q ++ silence 20).
  eexists. split; [|split; [done|]].
  { split; [cbn; lia|]. constructor; [by left|]. constructor; [right; cbn; lia|]. constructor; [right; cbn; lia|]. constructor. }
  split; [vm_compute; reflexivity|]. split; [vm_compute; reflexivity|]. split; [vm_compute; reflexivity|].
  vm_compute. discriminate.
Qed.
Print Assumptions C18_key_frames_refuted.

(** What holds: in a profile with one increment per chunk every key frame within
    the audio and the output, and not in the same chunk as the next, is met. *)
Theorem C18_key_frames_partial : forall rate incr hp m ratio df l,
  1 <= rate -> 1 <= incr -> (0 <= ratio)%Q -> admissible incr m ->
  calculate (setKeyFrameMap (create rate incr hp) m) ratio df = Some l -> zlen l = zlen df ->
  forall pre s t post, m = pre ++ (s, t) :: post ->
    s / incr < zlen df -> t < rint (inject_Z (zlen df * incr) * ratio) ->
    match post with [] => True | (s', _) :: _ => s / incr < s' / incr end ->
    sumZ (Z.abs <$> take (Z.to_nat (s / incr)) l) = t.
Proof.
  intros rate incr hp m ratio df l Hr Hi Hq Hm E.
  exact (calculate_keys (setKeyFrameMap (create rate incr hp) m) Hr Hi ratio Hq df m eq_refl Hm l E).
Qed.
Print Assumptions C18_key_frames_partial.

Example C18_example :
  option_map (fun l => (zlen l, start_of l (2560 / 256), start_of l (5120 / 256)))
    (calculate (setKeyFrameMap (create 44100 256 true) [(2560, 3000); (5120, 9000)]) 2 two_hits) = Some (27, 3000, 9000).
Proof. vm_compute. reflexivity. Qed.

(** C19. *)
Theorem C19_onsets : forall rate incr hp df ps,
  1 <= rate -> 1 <= incr -> findPeaks (create rate incr hp) df = Some ps ->
  (forall p, In p ps -> 0 <= chunk p < zlen df) /\
  (forall i j p q, (i < j)%nat -> ps !! i = Some p -> ps !! j = Some q ->
     chunk p < chunk q /\
     (hard p = true -> hard q = true -> (inject_Z rate * (1 # 20) <= inject_Z (incr * (chunk q - chunk p)))%Q) /\
     (hard p = true -> hard q = false -> chunk p + 3 < chunk q)) /\
  (hp = false -> forall p, In p ps -> hard p = false).
Proof.
  intros rate incr hp df ps Hr Hi E.
  destruct (findPeaks_ok (create rate incr hp) Hr Hi df ps E) as (Hs & Hin & Hn).
  split; [intros p Hp; rewrite List.Forall_forall in Hin; by apply Hin|]. split.
  - intros i j p q Hij Hp Hq. destruct (SS_lookup _ _ Hs i j p q Hij Hp Hq) as (H1 & H2 & H3).
    split; [done|]. split; [|done]. intros G1 G2. specialize (H2 G1 G2). cbn [sampleRate increment create] in H2.
    rewrite <- inject_Z_inj_le, <- Z.mul_assoc, inject_Z_mult in H2. change (inject_Z 20) with 20%Q in H2. lra.
  - intros Hh p Hp. specialize (Hn Hh). rewrite List.Forall_forall in Hn. by apply Hn.
Qed.
Print Assumptions C19_onsets.

Example C19_example :
  findPeaks (create 8000 256 true) (silence 3 ++ [1%Q] ++ silence 15 ++ [1 # 10; 3 # 10; 1 # 10]%Q ++ silence 16) =
    Some [Peak 3 true; Peak 20 false].
Proof. vm_compute. reflexivity. Qed.

(** C20.  Range of every increment, spacing of transients, reset. *)
Theorem C20_single_range : forall c k x c',
  single c k = (x, c') -> 1 <= inIncr k -> (0 <= overall k)%Q ->
  let nominal := (inject_Z (inIncr k) * overall k)%Q in
  (x = - inIncr k /\ useHardPeaks c = true /\ (35 # 100 < dfValue k)%Q) \/
  (0 <= x /\ (nominal * (3 # 10) - (1 # 2) <= inject_Z x)%Q /\ (inject_Z x <= nominal * 2 + (1 # 2))%Q).
Proof.
  intros c k x c' E Hi Ho nom.
  assert (Hn : (0 <= nominal c k)%Q).
  { unfold nominal. destruct (Z.eqb_spec (inIncr k) 0); [lia|]. pose proof (nonneg_Q (inIncr k) ltac:(lia)). nra. }
  destruct (single_range c k x c' E Hn) as [(H1 & H2 & _ & H3)|(H1 & H2 & H3)]; unfold nominal in *.
  - left. destruct (Z.eqb_spec (inIncr k) 0); [lia|]. apply ltQ_true in H3. done.
  - right. destruct (Z.eqb_spec (inIncr k) 0); [lia|]. done.
Qed.
Print Assumptions C20_single_range.

Theorem C20_transients_spaced : forall c ks xs c',
  singles c ks = (xs, c') -> 1 <= sampleRate c -> Forall (fun k => 1 <= inIncr k /\ (0 <= overall k)%Q) ks ->
  forall i j k x y, (i < j)%nat -> ks !! i = Some k -> xs !! i = Some x -> xs !! j = Some y -> x < 0 -> y < 0 ->
  (inject_Z (sampleRate c) * (1 # 20) <= inject_Z (inIncr k * (Z.of_nat j - Z.of_nat i - 1)))%Q.
Proof.
  intros c ks xs c' E Hr Hf i j k x y Hij Hk Hx Hy Hxn Hyn.
  assert (Hf' : Forall (fun k => (0 <= nominal c k)%Q /\ 1 <= inIncr k) ks).
  { eapply Forall_impl; [exact Hf|]. intros q [H1 H2]. split; [|done]. unfold nominal.
    destruct (Z.eqb_spec (inIncr q) 0); [lia|]. pose proof (nonneg_Q (inIncr q) ltac:(lia)). nra. }
  pose proof (singles_spaced ks c xs c' E Hr Hf' i j k x y Hij Hk Hx Hy Hxn Hyn) as H.
  rewrite <- inject_Z_inj_le, <- Z.mul_assoc, inject_Z_mult in H. change (inject_Z 20) with 20%Q in H. lra.
Qed.
Print Assumptions C20_transients_spaced.

(** After any use, key-frame map included, [reset] makes the calculator answer as
    a new one would, offline and in real time. *)
Theorem C20_reset_is_fresh : forall rate incr hp m ks xs c',
  singles (setKeyFrameMap (create rate incr hp) m) ks = (xs, c') ->
  (forall ks', fst (singles (reset c') ks') = fst (singles (create rate incr hp) ks')) /\
  (forall ratio df, calculate (reset c') ratio df = calculate (create rate incr hp) ratio df).
Proof.
  intros rate incr hp m ks xs c' E. destruct (singles_keeps ks _ xs c' E) as (H1 & H2 & H3).
  assert (Hr : reset c' = create rate incr hp).
  { unfold reset. rewrite H1, H2, H3. done. }
  rewrite Hr. split; intros; done.
Qed.
Print Assumptions C20_reset_is_fresh.

Local Definition hit := Call (3 # 2) 1 1 256 2048 2048 false.
Local Definition calm := Call (3 # 2) 1 0 256 2048 2048 false.
Example C20_example :
  fst (singles (create 44100 256 true)
    [calm; hit; calm; hit; calm; calm; calm; calm; calm; calm; calm; hit; calm; hit]) =
    [414; -256; 425; 420; 416; 412; 409; 406; 404; 401; 399; -256; 413; 409].
Proof. vm_compute. reflexivity. Qed.

(** C59.  Onset detection stays inside its arrays unless exactly one chunk was
    studied, when it reads past the end of one. *)
Theorem C59_detection_in_bounds_refuted : exists df, zlen df = 1 /\
  Forall (fun x => (0 <= x)%Q) df /\ findPeaks (create 44100 256 true) df = None /\
  calculate (create 44100 256 true) 1 df = None.
Proof.
  exists [1%Q]. split; [done|]. split; [repeat constructor; lra|]. split; vm_compute; reflexivity.
Qed.
Print Assumptions C59_detection_in_bounds_refuted.

Theorem C59_detection_in_bounds_partial : forall rate incr hp df,
  1 <= rate -> 1 <= incr -> zlen df <> 1 ->
  exists ps, findPeaks (create rate incr hp) df = Some ps.
Proof. intros rate incr hp df Hr Hi. exact (findPeaks_some (create rate incr hp) Hr Hi df). Qed.
Print Assumptions C59_detection_in_bounds_partial.

(** C60.  The output position does not drift from the wanted one. *)
Local Definition usable (hp : bool) (emin : Q) (k : call) : Prop :=
  (hp = false \/ (dfValue k <= 35 # 100)%Q) /\ aligned k = true /\ (emin <= pitchRatio k)%Q /\
  (0 < pitchRatio k)%Q /\ (pitchRatio k <= 4)%Q /\ 1 <= inIncr k /\ (8 <= inject_Z (inIncr k) * overall k)%Q.

Theorem C60_no_drift : forall rate incr hp ks xs c' T R,
  singles (create rate incr hp) ks = (xs, c') ->
  Forall (usable hp 0) ks -> Forall (fun k => timeRatio k == T /\ overall k == R)%Q ks ->
  (- (5) <= produced ks xs - wanted ks)%Q /\ (produced ks xs - wanted ks <= 5)%Q.
Proof. exact drift_steady. Qed.
Print Assumptions C60_no_drift.

(** With ratio changes that the calculator can see, half a frame more for each. *)
Theorem C60_no_drift_over_changes : forall rate incr hp ks xs c',
  singles (create rate incr hp) ks = (xs, c') ->
  Forall (usable hp (1 # 4)) ks -> visible ks ->
  let b := (13 + inject_Z (changes ks) * (1 # 2))%Q in
  (- b <= produced ks xs - wanted ks)%Q /\ (produced ks xs - wanted ks <= b)%Q.
Proof. exact drift_changing. Qed.
Print Assumptions C60_no_drift_over_changes.

Local Definition at_ratio t e n := Call t e 1 n 2048 2048 true.
Example C60_example :
  let ks := [at_ratio (13 # 10) 1 171; at_ratio (13 # 10) 1 171; at_ratio (7 # 5) (4 # 3) 99; at_ratio (7 # 5) (4 # 3) 99] in
  Forall (usable false (1 # 4)) ks /\ visible ks /\ changes ks = 1 /\
  fst (singles (create 44100 256 false) ks) = [222; 222; 104; 104].
Proof.
  cbv zeta. split; [|split; [|split; [reflexivity|vm_compute; reflexivity]]].
  - repeat (constructor; [repeat split; try (by left); vm_compute; discriminate|]). constructor.
  - repeat split; intros H; try reflexivity; exfalso; vm_compute in H; discriminate H.
Qed.

(** C62 is false: halving the pitch and doubling the duration at once leaves the
    overall ratio alone, so no checkpoint is taken, and the audio already played is
    counted as if it should have been twice as long. *)
Theorem C62_ratio_change_is_local_refuted : exists ks xs c',
  singles (create 44100 256 false) ks = (xs, c') /\ Forall (usable false (1 # 4)) ks /\ changes ks = 0 /\
  (4000 < produced ks xs - wanted ks)%Q.
Proof.
  exists (replicate 20 (at_ratio 1 1 256) ++ replicate 20 (at_ratio 2 2 256)).
  eexists _, _. split; [vm_compute; reflexivity|]. split; [|split; vm_compute; reflexivity].
  apply Forall_app. split; apply Forall_replicate; repeat split; try (by left); vm_compute; discriminate.
Qed.
Print Assumptions C62_ratio_change_is_local_refuted.

(** C61.  Hard onsets off: no phase resets without key frames... *)
Theorem C61_no_phase_resets_partial : forall rate incr ratio df l,
  1 <= rate -> 1 <= incr -> (0 <= ratio)%Q ->
  calculate (create rate incr false) ratio df = Some l -> Forall (fun x => 0 <= x) l.
Proof.
  intros rate incr ratio df l Hr Hi Hq. exact (plain_nohard (create rate incr false) Hr Hi ratio Hq df eq_refl l eq_refl).
Qed.
Print Assumptions C61_no_phase_resets_partial.

(** ... but a key frame at a soft onset makes one. *)
Theorem C61_no_phase_resets_refuted : exists m ratio df l x,
  admissible 256 m /\ calculate (setKeyFrameMap (create 8000 256 false) m) ratio df = Some l /\ In x l /\ x < 0.
Proof.
  exists [(5120, 6000)], 2%Q, (silence 19 ++ [1 # 10; 3 # 10; 1 # 10]%Q ++ silence 16). eexists _, (-256).
  split; [split; [done|]; constructor; [right; cbn; lia|constructor]|].
  split; [vm_compute; reflexivity|]. split; [|lia]. do 20 right. by left.
Qed.
Print Assumptions C61_no_phase_resets_refuted.

(** C63 is false.  In audio shorter than half a second the window of detection
    values does not move along, and a sound at the start comes back as onsets in
    the silence after it. *)
Theorem C63_soft_onset_place_refuted : exists df ps p k,
  findPeaks (create 44100 256 false) df = Some ps /\ In p ps /\ chunk p = k /\
  forall j, k - 7 <= j <= k + 7 -> val df j = 0%Q.
Proof.
  exists ([1]%Q ++ silence 42), [Peak 0 false; Peak 10 false; Peak 20 false; Peak 30 false; Peak 40 false], (Peak 20 false), 20.
  split; [vm_compute; reflexivity|]. split; [do 2 right; by left|]. split; [done|].
  intros j Hj. unfold val. change ([1]%Q ++ silence 42) with (1%Q :: silence 42). unfold getZ. destruct (Z.leb_spec 0 j); [|lia].
  destruct (Z.to_nat j) as [|n] eqn:En; [lia|].
  change ((1%Q :: silence 42) !! S n) with (replicate 42 0%Q !! n).
  rewrite lookup_replicate_2 by lia. done.
Qed.
Print Assumptions C63_soft_onset_place_refuted.

(** When the window length is odd (an increment of 256 at 44100 Hz), onsets near
    the start are one chunk late even in longer audio. *)
Theorem C63_soft_onset_late_refuted : exists df, 100 <= zlen df /\
  findPeaks (create 44100 256 false) df = Some [Peak 11 false] /\
  forall k, k <> 10 -> (val df k < val df 10)%Q.
Proof.
  exists (silence 9 ++ [1 # 10; 3 # 10; 1 # 10]%Q ++ silence 100). split; [vm_compute; discriminate|].
  split; [vm_compute; reflexivity|].
  intros k Hk. change (val (silence 9 ++ [1 # 10; 3 # 10; 1 # 10]%Q ++ silence 100) 10) with (3 # 10). unfold val.
  destruct (getZ _ k) as [x|] eqn:E; [|reflexivity]. cbn. unfold id.
  unfold getZ in E. destruct (Z.leb_spec 0 k); [|done].
  destruct (decide (Z.to_nat k < 9)%nat).
  { rewrite lookup_app_l in E by (unfold silence; rewrite replicate_length; lia). apply lookup_replicate in E as [-> _]. lra. }
  rewrite lookup_app_r in E by (unfold silence; rewrite replicate_length; lia). unfold silence in E. rewrite replicate_length in E.
  destruct (Z.to_nat k - 9)%nat as [|[|[|n']]] eqn:En; cbn [app lookup list_lookup] in E.
  - injection E as <-. lra.
  - lia.
  - injection E as <-. lra.
  - apply lookup_replicate in E as [-> _]. lra.
Qed.
Print Assumptions C63_soft_onset_late_refuted.

(** What holds, for an even window length and at least half a window of audio: a
    soft onset is at the top of a climb of the smoothed values that starts at a
    chunk higher than its neighbours. *)
Theorem C63_soft_onset_place_partial : forall rate incr hp raw df ps,
  let window := Z.max 7 (rint (inject_Z (cceil (inject_Z rate / inject_Z incr)))) in
  window = 2 * (window / 2) -> window / 2 <= zlen raw ->
  smoothDF raw = Some df -> findPeaks (create rate incr hp) raw = Some ps ->
  forall p, In p ps -> hard p = false -> summit df (chunk p).
Proof. intros rate incr hp raw df ps w Hw Hl Hs. exact (soft_summit (create rate incr hp) raw ps df Hs Hw Hl). Qed.
Print Assumptions C63_soft_onset_place_partial.

Example C63_example :
  Z.max 7 (rint (inject_Z (cceil (inject_Z 8000 / inject_Z 256)))) = 32 /\
  findPeaks (create 8000 256 false) (silence 19 ++ [1 # 10; 3 # 10; 1 # 10]%Q ++ silence 16) = Some [Peak 20 false].
Proof. vm_compute. repeat split; reflexivity. Qed.
