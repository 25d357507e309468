(** Property C46: frequency bands of the finer engine. *)
From stdpp Require Import prelude list numbers.
From Coq Require Import ZArith QArith Qround Lia.
From Verif Require Import Base.Arith Finer.SegmenterModel Finer.GuideModel Finer.GuideSpec Finer.GuideProofs.
From stdpp Require Import list.
Local Open Scope Z_scope.

(** C46, the bands: over every sequence of frames, at every rate, the bands follow one another
    from 0 to nyquist and kick and pre-kick are apart.  From 9600 Hz up (not below, next theorem)
    the bands also go upwards, each within the bins whose phases are computed, which exist. *)
Theorem C46_bands_partial : forall rate single frames, (8000 <= rate)%Q -> (rate <= 192000)%Q ->
  exists g, newGuide rate single = Some g /\
    Forall (fun l => 0 <= b0min l /\ b0min l <= b1max l /\ b1max l <= lfft l / 2) (bandLimit g) /\
    (Forall (frame_ok g) frames -> exists gs, guideRun g guidance0 frames = Some gs /\ length gs = length frames /\
      Forall (fun s => contiguous rate s /\ locks_stop rate s /\ kicks_apart s /\ (single = true \/ (9600 <= rate)%Q -> upwards s /\ within (bandLimit g) s)) gs).
Proof.
  intros rate single frames H1 H2. destruct (history_good rate single frames H1 H2) as (g & E & H). exists g. split; [exact E|]. split; [exact (limits_fit rate single g H1 H2 E)|exact H].
Qed.
Print Assumptions C46_bands_partial.

Definition quiet : segmentation := Segmentation 0 22000 22000.
Definition drum : segmentation := Segmentation 300 3000 9000.
Definition plain_frame (m : list Q) (s p n : segmentation) : frame := Frame (3 # 2) 300 m m m s p n 1 0 false false true.
(** The valley after bin 35 draws the lower split down; a drum sets the kick. *)
Definition valley_mags (n : nat) : list Q := map (fun i => if (Z.of_nat i =? 31) then 1%Q else if (Z.of_nat i =? 32) then 2%Q else 3%Q) (seq 0 n).
Definition loud_mags (n : nat) : list Q := map (fun i => 9%Q) (seq 0 n).
Definition drum_frame (n : nat) : frame := Frame (3 # 2) 200 (loud_mags n) (valley_mags n) (loud_mags n) drum quiet drum 1 0 false false true.
Definition before_frame (n : nat) : frame := Frame (3 # 2) 200 (valley_mags n) (valley_mags n) (loud_mags n) quiet quiet drum 1 0 false false true.
Definition summary (s : guidance) := (Qred (f1 (band0 s)), Qred (f1 (band1 s)), present (preKick s), present (kick s), present (phaseReset s)).
Example C46_example : exists g, newGuide 44100 false = Some g /\ cfft g = 2048 /\
  let fs := [before_frame 1025; before_frame 1025; drum_frame 1025; plain_frame (valley_mags 1025) quiet drum quiet] in
  Forall (frame_ok g) fs /\
  (map summary <$> guideRun g guidance0 fs) = Some
    [(700, 4800, true, false, false); (341775 # 512, 2458575 # 512, true, false, false); (341775 # 512, 2458575 # 512, false, true, true); (341775 # 512, 22050, false, false, false)]%Q.
Proof.
  eexists. split; [vm_compute; reflexivity|]. split; [vm_compute; reflexivity|]. cbv zeta. split; [|vm_compute; reflexivity].
  repeat (apply Forall_cons_2; [vm_compute; split_and!; reflexivity|]). apply Forall_nil_2.
Qed.

(** C46 is false below 9600 Hz: the middle band ends above nyquist and the top one is reversed. *)
Theorem C46_low_rate_refuted : exists rate g frames s, (8000 <= rate)%Q /\ newGuide rate false = Some g /\ Forall (frame_ok g) frames /\
  guideRun g guidance0 frames = Some [s] /\ (rate / 2 < f1 (band1 s))%Q /\ ~ upwards s.
Proof.
  exists 8000%Q. eexists _, [before_frame 513], _. split; [done|]. split; [vm_compute; reflexivity|].
  split; [apply Forall_cons_2; [vm_compute; split_and!; reflexivity|apply Forall_nil_2]|].
  split; [vm_compute; reflexivity|]. split; [vm_compute; reflexivity|].
  intros H. unfold upwards in H. vm_compute in H. apply Forall_cons in H as [_ H]. apply Forall_cons in H as [_ H]. apply Forall_cons in H as [[_ H] _]. by apply H.
Qed.
Print Assumptions C46_low_rate_refuted.

(** C46, the bins: where two bands meet, either the upper band goes on one of its bins after the
    last bin of the lower one, or (for splits in a quarter of the positions between two bins) the
    frequency of the last bin is synthesised by both. *)
Theorem C46_meeting : forall rate F lo f hi, (0 < rate)%Q -> 0 < F -> F mod 2 = 0 -> (0 <= lo)%Q ->
  let x := (f * inject_Z F / rate)%Q in (1 <= x)%Q -> (x <= inject_Z (F / 2))%Q ->
  binForFrequency lo (2 * F) rate <= 2 * Qfloor x - 1 ->
  let last := snd (synthesisBins rate (FftBand (2 * F) lo f)) - 1 in let first := fst (synthesisBins rate (FftBand F f hi)) in
  2 * first - last = if Qle_bool (1 # 4) (x - inject_Z (Qfloor x)) && negb (Qle_bool (1 # 2) (x - inject_Z (Qfloor x))) then 0 else 2.
Proof. exact split_bins. Qed.
Print Assumptions C46_meeting.
(** So once only, where the split is on a bin of the classification FFT, as it is when it follows
    the spectrum; not where it is one of the fixed frequencies (next theorem). *)
Theorem C46_once_partial : forall rate n lo hi c, (0 < rate)%Q -> 0 < n -> n mod 4 = 0 -> (0 <= lo)%Q -> 2 <= c <= n / 2 ->
  let f := frequencyForBin c n rate in
  (binForFrequency lo (2 * n) rate <= 2 * c - 1 -> 2 * fst (synthesisBins rate (FftBand n f hi)) - (snd (synthesisBins rate (FftBand (2 * n) lo f)) - 1) = 2) /\
  (binForFrequency lo n rate <= 2 * (c / 2) - 1 -> 2 * fst (synthesisBins rate (FftBand (n / 2) f hi)) - (snd (synthesisBins rate (FftBand n lo f)) - 1) = 2).
Proof. exact aligned_split. Qed.
Print Assumptions C46_once_partial.
Example C46_bins_example :
  synthesisBins 44100 (FftBand 4096 0 (341775 # 512)) = (0, 61) /\ synthesisBins 44100 (FftBand 2048 (341775 # 512) (2458575 # 512)) = (31, 223) /\
  synthesisBins 44100 (FftBand 1024 (2458575 # 512) 22050) = (112, 511).
Proof. vm_compute. done. Qed.
(** C46 is false as to "exactly once": in the first frame of every 44.1 kHz stream, a frequency is
    synthesised by both the middle and the top band. *)
Theorem C46_exactly_once_refuted : exists rate g frames s i j, (9600 <= rate)%Q /\ newGuide rate false = Some g /\ Forall (frame_ok g) frames /\
  guideRun g guidance0 frames = Some [s] /\
  (let '(l, h) := synthesisBins rate (band1 s) in l <= i < h) /\ (let '(l, h) := synthesisBins rate (band2 s) in l <= j < h) /\
  (frequencyForBin i (fftSize (band1 s)) rate == frequencyForBin j (fftSize (band2 s)) rate)%Q.
Proof.
  exists 44100%Q. eexists _, [before_frame 1025], _, 222, 111. split; [done|]. split; [vm_compute; reflexivity|].
  split; [apply Forall_cons_2; [vm_compute; split_and!; reflexivity|apply Forall_nil_2]|].
  split; [vm_compute; reflexivity|]. split; [vm_compute; split; [discriminate|reflexivity]|]. split; [vm_compute; split; [discriminate|reflexivity]|]. vm_compute. reflexivity.
Qed.
Print Assumptions C46_exactly_once_refuted.
