(** Properties C47, C49 and C50: peaks, classes and segments of a spectrum. *)
From stdpp Require Import prelude list numbers.
From Coq Require Import ZArith QArith Lia.
From Verif Require Import Filters.Model Filters.Spec Finer.PeakModel Finer.PeakSpec Finer.Peak
  Finer.SegmenterModel Finer.SegmenterSpec Finer.Segmenter Finer.SegmenterRuns Finer.ClassifierModel Finer.ClassifierSpec Finer.Classifier.
From stdpp Require Import list.
Local Close Scope Q_scope.
Local Open Scope Z_scope.

(** C47. In whatever range of whatever array, with whatever neighbourhood; the arrays that are
    not asked for stay null, and nothing outside the range is touched. *)
Theorem C47_peaks : forall (T : Type) (gt : T -> T -> bool) mn v lo cnt p nearest next,
  ordering gt -> 0 <= lo -> 0 <= cnt -> 0 <= p ->
  lo + cnt <= Z.of_nat (length v) -> lo + cnt <= mn -> fits (lo + cnt) nearest -> fits (lo + cnt) next ->
  exists nearest' next', findNearestAndNextPeaks gt mn v lo cnt p nearest next = Some (nearest', next') /\
    written nearest nearest' lo (lo + cnt) (closest (peak_at gt v lo (lo + cnt) p)) /\
    written next next' lo (lo + cnt) (following (peak_at gt v lo (lo + cnt) p)).
Proof. exact @find_spec. Qed.
Print Assumptions C47_peaks.

Example C47_example : ordering Z.gtb /\
  findNearestAndNextPeaks Z.gtb 10 [9; 1; 5; 2; 2; 1; 7; 7; 0; 3] 1 8 1 (Some (repeat (-1) 10)) (Some (repeat (-1) 10)) =
    Some (Some [-1; 2; 2; 2; 6; 6; 6; 6; 6; -1], Some [-1; 2; 2; 6; 6; 6; 6; 7; 8; -1]).
Proof.
  split; [|vm_compute; reflexivity]. split; intros *; rewrite ?Z.gtb_ltb, ?Z.ltb_lt, ?Z.ltb_ge, ?Z.ltb_irrefl; lia.
Qed.

(** C49. However many frames and resets: each frame is classified from the last values of each
    bin and from the frame [lag] earlier, exactly [lag] + 1 blocks are in use, all different. *)
Theorem C49_classifier : forall P l,
  (1 <= horizontalFilterLength P)%nat -> (1 <= verticalFilterLength P)%nat -> Forall (enough P) l ->
  exists s0 s rs, create P = Some s0 /\ run P s0 l = Some (s, rs) /\ history_class P [] l rs /\
    length (live (heap s)) = S (horizontalFilterLag P) /\ NoDup (vf s :: vfQueue s) /\ live (heap s) ≡ₚ vf s :: vfQueue s.
Proof. exact (fun P l Hh Hv => history P Hh Hv l). Qed.
Print Assumptions C49_classifier.

(** A steady tone in bin 1, then a click: the click shows up one frame late. *)
Definition example_parameters : parameters := Parameters 5 3 1 3 2 2 1.
Definition example_calls : list ccall :=
  [Classify [0; 90; 0; 0; 0]; Classify [0; 90; 0; 0; 0]; Classify [50; 90; 50; 50; 50]; Classify [0; 90; 0; 0; 0]; Forget; Classify [0; 90; 0; 0; 0]; Classify [50; 50; 50; 50; 50; 7]; Classify [0; 0; 0; 0; 0]].
Example C49_example : Forall (enough example_parameters) example_calls /\
  (s ← create example_parameters; snd <$> run example_parameters s example_calls) = Some
    [[Residual; Harmonic; Residual; Residual; Residual];
     [Residual; Harmonic; Residual; Residual; Residual];
     [Residual; Harmonic; Residual; Residual; Residual];
     [Percussive; Residual; Percussive; Percussive; Percussive];
     [Residual; Harmonic; Residual; Residual; Residual];
     [Residual; Harmonic; Residual; Residual; Residual];
     [Percussive; Residual; Percussive; Percussive; Percussive]].
Proof. split; [repeat constructor; cbn; lia|vm_compute; reflexivity]. Qed.

(** C50, what holds: the boundaries follow the smoothed classes, lie in the spectrum, and the
    upper two are ordered.  Not: that the lower one is below the upper two (next theorem). *)
Theorem C50_segmentation_partial : forall n fft rate frames,
  (1 <= n)%nat -> 0 < fft -> (0 < rate)%Q -> Forall (fun cls => 2 * (Z.of_nat (length cls) - 1) < fft) frames ->
  exists ss, segments fft rate (newFilter n) frames = Some ss /\ Forall2 (segmented n fft rate) frames ss.
Proof. exact (fun n fft rate frames Hn Hf Hr => segments_ok n fft rate frames Hn Hf Hr _ (ex_intro _ [] (conj (Forall_nil_2 _) eq_refl))). Qed.
Print Assumptions C50_segmentation_partial.
(** The frames before make no difference. *)
Theorem C50_memoryless : forall n fft rate frames ss,
  (1 <= n)%nat -> segments fft rate (newFilter n) frames = Some ss ->
  Forall2 (fun cls s => segments fft rate (newFilter n) [cls] = Some [s]) frames ss.
Proof.
  intros n fft rate frames ss Hn H. apply (segments_same n fft rate frames Hn) in H; [|exists []; done]. eapply Forall2_impl; [exact H|]. intros cls s Hs. cbn beta in Hs.
  cbn [segments]. destruct (segment _ _ _ _) as [[g s']|]; [|done]. cbn in Hs |- *. by injection Hs as ->.
Qed.
Print Assumptions C50_memoryless.

Example C50_example :
  let frames := [repeat Percussive 8 ++ repeat Harmonic 6 ++ repeat Percussive 6 ++ repeat Residual 10; repeat Harmonic 30; repeat Residual 12 ++ repeat Percussive 18] in
  Forall (fun cls => 2 * (Z.of_nat (length cls) - 1) < 64) frames /\
  (map (fun s => (Qred (percussiveBelow s), Qred (percussiveAbove s), Qred (residualAbove s))) <$> segments 64 6400 (newFilter 6) frames) =
    Some [(700, 1300, 1900); (0, 2900, 2900); (0, 1000, 2900)]%Q.
Proof. split; [repeat (apply Forall_cons_2; [vm_compute; reflexivity|]); apply Forall_nil_2|vm_compute; reflexivity]. Qed.

(** C50 is false as to order: percussive below and residual above with nothing between gives a
    percussiveBelow above residualAbove, and percussiveAbove 0 "from the bottom up". *)
Theorem C50_ordered_refuted : exists n fft rate cls s,
  (1 <= n)%nat /\ 0 < fft /\ (0 < rate)%Q /\ 2 * (Z.of_nat (length cls) - 1) < fft /\
  segments fft rate (newFilter n) [cls] = Some [s] /\ ~ (percussiveBelow s <= percussiveAbove s)%Q /\ ~ (percussiveBelow s <= residualAbove s)%Q.
Proof.
  exists 18%nat, 2048, (44100 # 1)%Q, (repeat Percussive 100 ++ repeat Residual 600). eexists.
  split; [lia|]. split; [lia|]. split; [done|]. split; [vm_compute; reflexivity|]. split; [vm_compute; reflexivity|].
  split; vm_compute; intros H; by apply H.
Qed.
Print Assumptions C50_ordered_refuted.
