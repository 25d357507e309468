(** Property C28: the sizes of the R2 engine. *)
From stdpp Require Import prelude.
From Coq Require Import ZArith QArith Qround Lia Lqa.
From Verif Require Import Base.Arith Faster.Sizes Faster.Spec Faster.SizesProofs.
Local Open Scope Z_scope.

(** C28 as stated is false: at 8000 Hz with the short window in real time,
    raising the pitch divides by zero (R2Stretcher.cpp:458-460). *)
Theorem C28_sizes_valid_refuted : exists rate short long c,
  8000 <= rate <= 192000 /\ (1 # 4 <= timeRatio c <= 4)%Q /\ (1 # 4 <= pitchScale c <= 4)%Q /\
  rateMultiple c = (rate # 48000) /\ baseSize rate short long = Some (base c) /\ calculateSizes c = None.
Proof.
  exists 8000, true, false, (Config true false false false false 256 (8000 # 48000) 1 (3 # 2) 0 0).
  vm_compute. repeat split; discriminate.
Qed.
Print Assumptions C28_sizes_valid_refuted.

(** C28 for every other configuration: any ratios whose product lies within
    2^-40 .. 2^40, any expected duration, any options.  The missing part is exactly the
    real-time pitch raise with the short window below 12024 Hz. *)
Theorem C28_sizes_valid_partial : forall rate short long c,
  8000 <= rate <= 192000 -> baseSize rate short long = Some (base c) ->
  (1 <= inject_Z (2 ^ 40) * (accepted (timeRatio c) * accepted (pitchScale c)))%Q ->
  (accepted (timeRatio c) * accepted (pitchScale c) <= inject_Z (2 ^ 40))%Q ->
  (12024 <= rate \/ short = false \/ long = true \/ realtime c = false \/ highQuality c = true \/
   highConsistency c = true \/ (accepted (pitchScale c) <= 1)%Q) ->
  exists s, calculateSizes c = Some s /\
    timeRatio' s = accepted (timeRatio c) /\ pitchScale' s = accepted (pitchScale c) /\
    pow2 (fftSize s) /\ window s = (if smoothing c then 2 * fftSize s else fftSize s) /\
    1 <= increment s /\ 4 * increment s <= fftSize s /\
    (inject_Z (4 * increment s) * (timeRatio' s * pitchScale' s) <= inject_Z (fftSize s))%Q /\
    (0 < expected c -> 4 * increment s <= expected c \/ increment s = 1) /\
    window s <= maxProcess' s /\ maxProcess c <= maxProcess' s /\
    (inject_Z (maxProcess' s) / pitchScale' s <= inject_Z (outbufSize s))%Q /\
    (inject_Z (2 * maxProcess' s) * timeRatio' s <= inject_Z (outbufSize s))%Q /\
    2 * maxProcess' s <= outbufSize s.
Proof.
  intros rate short long c Hr Eb Hlow Hhigh Hcase.
  destruct (baseSize_valid rate short long Hr) as (b & Eb' & Hp & Hb & H512).
  rewrite Eb in Eb'. injection Eb' as <-. apply calculateSizes_valid; try done; [lia|lia|].
  intros Hrt Hp1 Hq Hc. apply H512. destruct Hcase as [?|[?|[?|[?|[?|[?|?]]]]]]; auto; try congruence. lra.
Qed.
Print Assumptions C28_sizes_valid_partial.

(** At 44100 Hz, real time, half speed and a fifth up, smoothing on, 1000 frames expected. *)
Example C28_example : exists c,
  baseSize 44100 false false = Some (base c) /\ realtime c = true /\ smoothing c = true /\ expected c = 1000 /\
  calculateSizes c = Some (Sizes 2048 4096 151 262144 4096 2 (3 # 2)).
Proof.
  exists (Config true false false false true 2048 (44100 # 48000) 2 (3 # 2) 1000 0). vm_compute. repeat split; reflexivity.
Qed.

(** The engine itself (unlike R3) does not restrict the sample rate: at 100 Hz the
    loop of R2Stretcher.cpp:447-450 doubles zero for ever, whatever the number of rounds. *)
Theorem C28_low_rate_hangs_refuted : exists c,
  baseSize 100 false false = Some (base c) /\ rateMultiple c = (100 # 48000) /\ timeRatio c = 2%Q /\ pitchScale c = 1%Q /\
  calculateSizes c = None /\
  let out := Qfloor (inject_Z (base c) / 8) in
  halve_loop (halvings out) (1024 * rateMultiple c) 2%Q out (Qfloor (inject_Z out / 2)) = Some (0, 0) /\
  forall fuel, double_loop fuel 2%Q 0 0 = None.
Proof.
  exists (Config true false false false false 4 (100 # 48000) 2 1 0 0).
  split_and!; try (vm_compute; reflexivity).
  cbv zeta. split; [vm_compute; reflexivity|]. intros fuel. induction fuel as [|n IH]; [done|]. cbn [double_loop].
  change (0 <? 1) with true. cbv iota zeta. change (Qfloor (inject_Z (0 * 2) / 2)) with 0. exact IH.
Qed.
Print Assumptions C28_low_rate_hangs_refuted.

(** The comment on lines 503-504 ("can't be greater than 4 * m_baseFftSize unless ratio is less than
    1/1024") does not hold: ratio 1/1000 gives eight times the base. *)
Theorem C28_fft_limit_comment_refuted : exists c s,
  baseSize 44100 false false = Some (base c) /\ (1 # 1024 < timeRatio c * pitchScale c)%Q /\
  calculateSizes c = Some s /\ fftSize s = 8 * base c.
Proof.
  exists (Config true false false false false 2048 (44100 # 48000) (1 # 1000) 1 0 0). eexists.
  split; [vm_compute; reflexivity|]. split; [reflexivity|]. split; [vm_compute; reflexivity|reflexivity].
Qed.
Print Assumptions C28_fft_limit_comment_refuted.
