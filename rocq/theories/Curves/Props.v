(** C87: what the R2 engine's onset detectors report. *)
From stdpp Require Import prelude list numbers sorting.
From Coq Require Import ZArith QArith Qround Lia.
From Verif.Filters Require Import Model Spec MMProofs.
From Verif.Curves Require Import Model Spec Proofs More.
From stdpp Require Import list numbers list_numbers sorting.
Local Open Scope Z_scope.

(** Every report of a new detector is the one the specification gives for the frames seen. *)
Theorem C87_report rt fft t frames : 0 <= rt -> 0 < fft -> Forall (wide fft) frames ->
  exists d, run (newDetector rt fft) (SetType t :: (Frame <$> frames)) =
    Some (d, reported t (heard rt fft) frames <$> seq 0 (length frames)).
Proof.
  intros Hr Hf W. cbn [run].
  destruct (run_frames 0 rt fft t frames Hr Hf W (length frames) 0 (setType (newDetector rt fft) t) ltac:(lia)) as (d & E).
  { apply inv_start; try done; split; try done; exact (mm_new_inv _ (fun _ => false) 0 19 _). }
  rewrite drop_0 in E. rewrite E. exists d. do 2 f_equal. apply list_fmap_ext. intros. apply reportedFrom_0.
Qed.
Print Assumptions C87_report.

Definition frame (l : list Z) : list Z := (fun x => x * 10 ^ 12) <$> l.
(** 8 points at 44.1 kHz: bins 1 and 2 are heard. *)
Example C87_heard : heard 44100 8 = 2. Proof. reflexivity. Qed.
Definition swell : list (list Z) := frame <$> [[0; 1; 1; 0; 0]; [0; 1; 2; 9; 9]; [0; 2; 3; 0; 0]; [0; 3; 5; 0; 0]; [0; 4; 9; 0; 0]; [0; 6; 20; 0; 0]; [0; 6; 21; 0; 0]].
Example C87_report_example :
  Forall (wide 8) swell /\
  (snd <$> run (newDetector 44100 8) (SetType SoftDetector :: (Frame <$> swell))) = Some [0; 0; 0; 0; 0; 0; 1 # 2]%Q /\
  (snd <$> run (newDetector 44100 8) (SetType PercussiveDetector :: (Frame <$> swell))) = Some [2 # 2; 1 # 2; 2 # 2; 2 # 2; 1 # 2; 2 # 2; 0 # 2]%Q /\
  (snd <$> run (newDetector 44100 8) (Frame <$> swell)) = Some [2 # 2; 1 # 2; 2 # 2; 2 # 2; 1 # 2; 2 # 2; 1 # 2]%Q.
Proof. split; [repeat constructor; vm_compute; discriminate|]. vm_compute. split_and!; reflexivity. Qed.

(** No call reads or writes outside an array, whatever order the calls come in. *)
Theorem C87_safe rt fft os : 0 <= rt -> 0 < fft -> fitting fft os ->
  exists d vs, run (newDetector rt fft) os = Some (d, vs).
Proof.
  intros Hr Hf H. destruct (sane_run rt os Hr fft _ Hf (sane_new rt fft Hf) H) as (_ & d & vs & E & _). eauto.
Qed.
Print Assumptions C87_safe.

(** Reports are between nothing and one; the soft detector only says a half. *)
Lemma reported_range t sz frames i : (0 <= reported t sz frames i <= 1)%Q /\
  (t = SoftDetector -> reported t sz frames i = 0%Q \/ reported t sz frames i = (1 # 2)%Q) /\
  (t = CompoundDetector -> ~ (0 < reported t sz frames i <= 35 # 100)%Q).
Proof.
  pose proof (percussion_range sz (frameBefore frames i) (frameAt frames i)) as P.
  assert (S : forall hs, (softly hs i = 0%Q \/ softly hs i = (1 # 2)%Q)) by (intros; unfold softly; destruct (decide _); auto).
  split_and!.
  - destruct t; cbn.
    + exact (proj1 P).
    + unfold louder. destruct (Qlt_le_dec _ _); [destruct (Qlt_le_dec _ _)|]; [exact (proj1 P)|..]; destruct (S (highs sz <$> frames)) as [->| ->]; discriminate.
    + destruct (S (highs sz <$> frames)) as [->| ->]; discriminate.
  - destruct t; cbn.
    + exact (proj2 P).
    + unfold louder. destruct (Qlt_le_dec _ _); [destruct (Qlt_le_dec _ _)|]; [exact (proj2 P)|..]; destruct (S (highs sz <$> frames)) as [->| ->]; discriminate.
    + destruct (S (highs sz <$> frames)) as [->| ->]; discriminate.
  - intros ->. apply S.
  - intros ->. cbn. unfold louder.
    destruct (Qlt_le_dec _ _) as [A|A]; [destruct (Qlt_le_dec _ _) as [B|B]|].
    + intros [_ C]. exact (Qlt_not_le _ _ A C).
    + destruct (S (highs sz <$> frames)) as [->| ->]; intros [C D]; [discriminate|]. revert D. unfold Qle; cbn. lia.
    + destruct (S (highs sz <$> frames)) as [->| ->]; intros [C D]; [discriminate|]. revert D. unfold Qle; cbn. lia.
Qed.
Theorem C87_range rt fft t frames : 0 <= rt -> 0 < fft -> Forall (wide fft) frames ->
  exists d vs, run (newDetector rt fft) (SetType t :: (Frame <$> frames)) = Some (d, vs) /\ length vs = length frames /\
    Forall (fun v => (0 <= v <= 1)%Q /\ (t = SoftDetector -> v = 0%Q \/ v = (1 # 2)%Q) /\
                     (t = CompoundDetector -> ~ (0 < v <= 35 # 100)%Q)) vs.
Proof.
  intros Hr Hf W. destruct (C87_report rt fft t frames Hr Hf W) as [d E]. eexists d, _. split; [exact E|].
  split; [by rewrite fmap_length, seq_length|]. apply Forall_fmap, Forall_forall. intros i _. apply reported_range.
Qed.
Print Assumptions C87_range.

Definition reports (rt fft : Z) (t : kind) (frames : list (list Z)) : option (list Q) :=
  snd <$> run (newDetector rt fft) (SetType t :: (Frame <$> frames)).
Lemma reports_ok rt fft t frames : 0 <= rt -> 0 < fft -> Forall (wide fft) frames ->
  reports rt fft t frames = Some (reported t (heard rt fft) frames <$> seq 0 (length frames)).
Proof. intros Hr Hf W. unfold reports. destruct (C87_report rt fft t frames Hr Hf W) as [d E]. rewrite E. reflexivity. Qed.
Lemma reports_same rt fft t frames frames' : 0 <= rt -> 0 < fft -> Forall (wide fft) frames -> Forall (wide fft) frames' ->
  length frames = length frames' -> (forall i, reported t (heard rt fft) frames i = reported t (heard rt fft) frames' i) ->
  is_Some (reports rt fft t frames) /\ reports rt fft t frames = reports rt fft t frames'.
Proof.
  intros Hr Hf W W' L H. rewrite !reports_ok by done. split; [eauto|]. rewrite L. f_equal. apply list_fmap_ext. auto.
Qed.

(** What is above 16 kHz makes no difference. *)
Lemma reported_hearing t sz frames frames' :
  Forall2 (fun m m' => forall n, 0 <= n <= sz -> level m n = level m' n) frames frames' ->
  forall i, reported t sz frames i = reported t sz frames' i.
Proof.
  intros F i.
  assert (A : forall j n, 0 <= n <= sz -> level (frameAt frames j) n = level (frameAt frames' j) n).
  { intros j n Hn. unfold frameAt. destruct (frames !! j) as [m|] eqn:E.
    - destruct (Forall2_lookup_l _ _ _ _ _ F E) as (m' & -> & G). by apply G.
    - apply lookup_ge_None in E. rewrite (Forall2_length _ _ _ F) in E. apply lookup_ge_None in E as ->. done. }
  assert (P : percussion sz (frameBefore frames i) (frameAt frames i) = percussion sz (frameBefore frames' i) (frameAt frames' i)).
  { apply percussion_ext; [|by apply A]. intros n Hn. destruct i; cbn; [done|by apply A]. }
  assert (H : highs sz <$> frames = highs sz <$> frames').
  { clear P A. induction F as [|m m' l l' G _ IH]; [done|]. rewrite !fmap_cons, IH, (highs_ext sz m m' G). done. }
  unfold reported. rewrite P, H. done.
Qed.
Theorem C87_hearing rt fft t frames frames' : 0 <= rt -> 0 < fft -> Forall (wide fft) frames -> Forall (wide fft) frames' ->
  Forall2 (fun m m' => forall n, 0 <= n <= heard rt fft -> level m n = level m' n) frames frames' ->
  is_Some (reports rt fft t frames) /\ reports rt fft t frames = reports rt fft t frames'.
Proof.
  intros Hr Hf W W' F. apply reports_same; try done; [by eapply Forall2_length|by apply reported_hearing].
Qed.
Print Assumptions C87_hearing.
Example C87_hearing_example : Forall2 (fun m m' => forall n, 0 <= n <= 2 -> level m n = level m' n)
  [frame [1; 2; 3; 4; 5]] [frame [1; 2; 3; 0; 900]].
Proof.
  constructor; [|constructor]. intros n Hn. assert (n = 0 \/ n = 1 \/ n = 2) as [->|[->| ->]] by lia; reflexivity.
Qed.

(** The level of the recording makes no difference, as long as no bin crosses 10^-8. *)
Definition turned (sz a b : Z) (m m' : list Z) : Prop :=
  forall n, 0 <= n <= sz -> level m' n * b = level m n * a /\ (10 ^ 4 < level m n <-> 10 ^ 4 < level m' n).
Lemma reported_loudness t sz a b frames frames' : 0 < a -> 0 < b -> Forall2 (turned sz a b) frames frames' ->
  forall i, reported t sz frames i = reported t sz frames' i.
Proof.
  intros Ha Hb F i.
  assert (A : forall j n, 0 <= n <= sz -> level (frameAt frames' j) n * b = level (frameAt frames j) n * a /\
     (10 ^ 4 < level (frameAt frames j) n <-> 10 ^ 4 < level (frameAt frames' j) n)).
  { intros j. unfold frameAt. destruct (frames !! j) as [m|] eqn:E.
    - destruct (Forall2_lookup_l _ _ _ _ _ F E) as (m' & -> & G). exact G.
    - apply lookup_ge_None in E. rewrite (Forall2_length _ _ _ F) in E. apply lookup_ge_None in E as ->. done. }
  assert (P : percussion sz (frameBefore frames i) (frameAt frames i) = percussion sz (frameBefore frames' i) (frameAt frames' i)).
  { apply (percussion_pr a b Ha Hb); [|apply A]. destruct i; cbn; [done|apply A]. }
  assert (H : softly (highs sz <$> frames) i = softly (highs sz <$> frames') i).
  { apply (soft_pr a b Ha Hb). clear P A. induction F as [|m m' l l' G _ IH]; [constructor|].
    rewrite !fmap_cons. constructor; [|exact IH]. apply (highs_pr a b). intros n Hn. apply (G n Hn). }
  unfold reported. rewrite P, H. done.
Qed.
Theorem C87_loudness rt fft t a b frames frames' : 0 <= rt -> 0 < fft -> Forall (wide fft) frames -> Forall (wide fft) frames' ->
  0 < a -> 0 < b -> Forall2 (turned (heard rt fft) a b) frames frames' ->
  is_Some (reports rt fft t frames) /\ reports rt fft t frames = reports rt fft t frames'.
Proof.
  intros Hr Hf W W' Ha Hb F. apply reports_same; try done; [by eapply Forall2_length|intros i; by apply (reported_loudness t (heard rt fft) a b)].
Qed.
Print Assumptions C87_loudness.
Example C87_loudness_example : Forall2 (turned 2 3 2) (frame <$> [[0; 4; 2]; [0; 8; 6]]) (frame <$> [[0; 6; 3]; [0; 12; 9]]).
Proof.
  repeat constructor; assert (n = 0 \/ n = 1 \/ n = 2) as [->|[->| ->]] by lia; vm_compute; try reflexivity; intros; reflexivity || discriminate || assumption.
Qed.

(** Without that proviso it does make one: a hiss of 2 x 10^-9 heard ten times louder is noticed. *)
Theorem C87_loudness_refuted : exists rt fft t frames frames',
  Forall (wide fft) frames /\ Forall (wide fft) frames' /\
  Forall2 (fun m m' => m' = Z.mul 10 <$> m) frames frames' /\
  reports rt fft t frames = Some [0%Q] /\ reports rt fft t frames' = Some [2 # 2]%Q.
Proof.
  exists 44100, 8, CompoundDetector, [[0; 2000; 2000; 0; 0]], [[0; 20000; 20000; 0; 0]].
  split; [repeat constructor; vm_compute; discriminate|]. split; [repeat constructor; vm_compute; discriminate|].
  split; [repeat constructor|]. split; vm_compute; reflexivity.
Qed.
Print Assumptions C87_loudness_refuted.

(** Only the last 25 frames matter, wherever in the stream they come. *)
Lemma recent_window xs i : (18 <= i < length xs)%nat -> recent xs i = (fun k => nth0 xs (i - 18 + k)) <$> seq 0 19.
Proof.
  intros H. unfold recent. replace (S i - 19)%nat with (i - 18)%nat by lia.
  apply list_eq. intros k. rewrite list_lookup_fmap, lookup_drop.
  destruct (decide (k < 19)%nat) as [G|G].
  - rewrite lookup_take by lia. rewrite lookup_seq_lt by lia. cbn [fmap option_fmap option_map]. unfold nth0.
    destruct (lookup_lt_is_Some_2 xs (i - 18 + k)) as [x E]; [lia|]. change (0 + k)%nat with k. rewrite E. done.
  - rewrite lookup_take_ge by lia. rewrite lookup_seq_ge by lia. done.
Qed.
Lemma changes_nth0 hs i : (1 <= i < length hs)%nat -> nth0 (changes hs) i = nth0 hs i - nth0 hs (i - 1).
Proof.
  intros H. destruct (lookup_lt_is_Some_2 hs i) as [h E]; [lia|].
  unfold nth0 at 1 2. rewrite (changes_lookup hs i h E), E. cbn [default from_option].
  destruct i as [|j]; [lia|]. replace (S j - 1)%nat with j by lia. done.
Qed.
Lemma changes_length hs : length (changes hs) = length hs.
Proof. unfold changes. rewrite zip_with_length. cbn. lia. Qed.

Section local.
Variables (hs hs' : list Z) (i i' : nat) (w : nat).
Hypotheses (Hi : (i < length hs)%nat) (Hi' : (i' < length hs')%nat).
Hypothesis (H : forall k, (k <= w)%nat -> nth0 hs (i - k) = nth0 hs' (i' - k)).
Hypotheses (Hw : (w <= i)%nat) (Hw' : (w <= i')%nat).

Lemma strength_local j : (j + 19 <= w)%nat -> strength hs (i - j) = strength hs' (i' - j).
Proof.
  intros Hj.
  assert (C : forall k, (k + 1 <= w)%nat -> nth0 (changes hs) (i - k) = nth0 (changes hs') (i' - k)).
  { intros k Hk. rewrite !changes_nth0 by lia. rewrite (H k) by lia.
    replace (i - k - 1)%nat with (i - (k + 1))%nat by lia. replace (i' - k - 1)%nat with (i' - (k + 1))%nat by lia.
    rewrite (H (k + 1)) by lia. done. }
  assert (R : recent hs (i - j) = recent hs' (i' - j)).
  { rewrite !recent_window by lia. apply list_fmap_ext. intros ? k Hk%elem_of_list_lookup_2%elem_of_seq.
    replace (i - j - 18 + k)%nat with (i - (j + 18 - k))%nat by lia.
    replace (i' - j - 18 + k)%nat with (i' - (j + 18 - k))%nat by lia. apply H. lia. }
  assert (R' : recent (changes hs) (i - j) = recent (changes hs') (i' - j)).
  { rewrite !recent_window by (rewrite changes_length; lia). apply list_fmap_ext. intros ? k Hk%elem_of_list_lookup_2%elem_of_seq.
    replace (i - j - 18 + k)%nat with (i - (j + 18 - k))%nat by lia.
    replace (i' - j - 18 + k)%nat with (i' - (j + 18 - k))%nat by lia. apply C. lia. }
  unfold strength. rewrite R, R', (H j), (C j) by lia. done.
Qed.
Lemma falls_local j : (j + 20 <= w)%nat -> falls hs (i - j) <-> falls hs' (i' - j).
Proof.
  intros Hj. unfold falls. rewrite strength_local by lia.
  destruct (i - j)%nat as [|x] eqn:E; [lia|]. destruct (i' - j)%nat as [|x'] eqn:E'; [lia|]. cbn [before].
  replace x with (i - (j + 1))%nat by lia. replace x' with (i' - (j + 1))%nat by lia.
  rewrite strength_local by lia. done.
Qed.
End local.

Lemma reported_memory t sz frames frames' i i' :
  (24 <= i < length frames)%nat -> (24 <= i' < length frames')%nat ->
  (forall k, (k <= 24)%nat -> frames !! (i - k)%nat = frames' !! (i' - k)%nat) ->
  reported t sz frames i = reported t sz frames' i'.
Proof.
  intros Hi Hi' H.
  assert (P : percussion sz (frameBefore frames i) (frameAt frames i) = percussion sz (frameBefore frames' i') (frameAt frames' i')).
  { f_equal; [|unfold frameAt; specialize (H O ltac:(lia)); rewrite !Nat.sub_0_r in H; by rewrite H].
    destruct i as [|x]; [lia|]. destruct i' as [|x']; [lia|]. cbn [frameBefore]. unfold frameAt.
    specialize (H 1%nat ltac:(lia)). replace (S x - 1)%nat with x in H by lia. replace (S x' - 1)%nat with x' in H by lia.
    by rewrite H. }
  set (hs := highs sz <$> frames). set (hs' := highs sz <$> frames').
  assert (L : length hs = length frames) by apply fmap_length.
  assert (L' : length hs' = length frames') by apply fmap_length.
  assert (G : forall k, (k <= 24)%nat -> nth0 hs (i - k) = nth0 hs' (i' - k)).
  { intros k Hk. unfold nth0, hs, hs'. rewrite !list_lookup_fmap, (H k Hk). done. }
  assert (S : softly hs i = softly hs' i').
  { unfold softly.
    assert (B : before hs i = before hs' i').
    { destruct i as [|x]; [lia|]. destruct i' as [|x']; [lia|]. cbn [before].
      pose proof (strength_local hs hs' (S x) (S x') 24 ltac:(lia) ltac:(lia) G ltac:(lia) ltac:(lia) 1 ltac:(lia)) as E.
      replace (S x - 1)%nat with x in E by lia. replace (S x' - 1)%nat with x' in E by lia. exact E. }
    assert (F : forall j, (j <= 4)%nat -> falls hs (i - j) <-> falls hs' (i' - j)).
    { intros j Hj. apply (falls_local hs hs' i i' 24); try lia. exact G. }
    pose proof (F O ltac:(lia)) as F0. rewrite !Nat.sub_0_r in F0.
    assert (E : soft hs i <-> soft hs' i').
    { unfold soft. rewrite !Forall_cons, !Forall_nil, F0, B.
      rewrite (F 1%nat), (F 2%nat), (F 3%nat), (F 4%nat) by lia. intuition lia. }
    destruct (decide (soft hs i)), (decide (soft hs' i')); tauto. }
  unfold reported. fold hs hs'. rewrite P, S. done.
Qed.
Theorem C87_memory rt fft t frames frames' i i' : 0 <= rt -> 0 < fft -> Forall (wide fft) frames -> Forall (wide fft) frames' ->
  (24 <= i < length frames)%nat -> (24 <= i' < length frames')%nat ->
  (forall k, (k <= 24)%nat -> frames !! (i - k)%nat = frames' !! (i' - k)%nat) ->
  exists v, (reports rt fft t frames ≫= fun vs => vs !! i) = Some v /\ (reports rt fft t frames' ≫= fun vs => vs !! i') = Some v.
Proof.
  intros Hr Hf W W' Hi Hi' H. rewrite !reports_ok by done. cbn [mbind option_bind].
  rewrite !list_lookup_fmap, !lookup_seq_lt by lia. cbn [fmap option_fmap option_map].
  eexists. split; [reflexivity|]. f_equal. symmetry. by apply reported_memory.
Qed.
Print Assumptions C87_memory.
(** and the 25th does: the reports at frame 24 differ with frame 0. *)
Example C87_memory_tight :
  let tail := [58; 43; 4; 10; 27; 50; 59; 39; 46; 14; 13; 5; 56; 43; 58; 11; 30; 57; 103; 136; 179; 244; 334; 389] in
  let at24 x := (snd <$> run (newDetector 44100 4) (SetType SoftDetector :: ((fun v => Frame [0; v; 0]) <$> x :: tail))) ≫= (fun vs => vs !! 24%nat) in
  heard 44100 4 = 1 /\ at24 1 = Some (1 # 2)%Q /\ at24 100 = Some 0%Q.
Proof. vm_compute. split_and!; reflexivity. Qed.

(** The silence detector says so exactly when every bin it hears is at most 10^-6. *)
Theorem C87_silence rt fft mag : 0 <= rt -> 0 < fft -> wide fft mag ->
  exists q, silent (lastPerceivedBin rt fft) mag = Some q /\
    (q = true <-> forall n, 0 <= n <= heard rt fft -> level mag n <= 10 ^ 6).
Proof.
  intros Hr Hf W. destruct (heard_ok rt fft Hr Hf) as [-> Hb]. unfold wide in W. unfold silent.
  assert (G : forall k n, 0 <= n -> n + Z.of_nat k <= Z.of_nat (length mag) ->
    exists q, quiet k n mag = Some q /\ (q = true <-> forall j, n <= j < n + Z.of_nat k -> level mag j <= 10 ^ 6)).
  { induction k as [|k IH]; intros n Hn Hk; cbn [quiet].
    - eexists; split; [reflexivity|]. split; [intros _; lia|done].
    - rewrite at_level by lia. cbn [mbind option_bind]. unfold silentThresh.
      destruct (Z.ltb_spec (10 ^ 6) (level mag n)) as [A|A].
      + eexists; split; [reflexivity|]. split; [discriminate|]. intros B. specialize (B n ltac:(lia)). lia.
      + destruct (IH (n + 1) ltac:(lia) ltac:(lia)) as (q & E & B). exists q. split; [exact E|]. rewrite B. split.
        * intros C j Hj. destruct (decide (j = n)) as [->|]; [exact A|apply C; lia].
        * intros C j Hj. apply C. lia. }
  destruct (G (Z.to_nat (heard rt fft + 1)) 0 ltac:(lia) ltac:(lia)) as (q & E & B).
  exists q. split; [exact E|]. rewrite B. split; intros C j Hj; apply C; lia.
Qed.
Print Assumptions C87_silence.
Example C87_silence_example : silent (lastPerceivedBin 44100 8) (frame [0; 1; 0; 0; 0]) = Some false.
Proof. reflexivity. Qed.

(** A loud tone above 16 kHz counts as silence. *)
Theorem C87_silence_refuted : exists rt fft mag,
  wide fft mag /\ silent (lastPerceivedBin rt fft) mag = Some true /\ Exists (fun x => 10 ^ 12 < x) mag.
Proof.
  exists 44100, 8, (frame [0; 0; 0; 100; 0]). split; [unfold wide; cbn; lia|]. split; [reflexivity|].
  do 3 apply Exists_cons_tl. apply Exists_cons_hd. vm_compute. reflexivity.
Qed.
Print Assumptions C87_silence_refuted.

(** After a reset a detector reports what a new one would from the fifth frame on; the percussive
    detector from the first. What is missing is the first four frames of the others. *)
Theorem C87_reset_partial rt fft os t frames : 0 <= rt -> 0 < fft -> fitting fft os ->
  let now := sizeAfter fft os in
  Forall (wide now) frames ->
  exists d vs0 vs,
    run (newDetector rt fft) (os ++ Reset :: SetType t :: (Frame <$> frames)) = Some (d, vs0 ++ vs) /\
    length vs = length frames /\
    (exists d0, run (newDetector rt fft) os = Some (d0, vs0)) /\
    forall i, (i < length frames)%nat -> (4 <= i)%nat \/ t = PercussiveDetector ->
      vs !! i = Some (reported t (heard rt now) frames i).
Proof.
  intros Hr Hf F now W.
  destruct (sane_run rt os Hr fft _ Hf (sane_new rt fft Hf) F) as (Hn & d0 & vs0 & E0 & S0). fold now in Hn, S0.
  destruct (sane_reset rt now d0 Hn S0) as [_ SF SL _ _ SC].
  pose proof S0 as [R0 F0 _ [w [HF PF]] [w' [HG PG]] C0].
  destruct (run_frames (risingCount d0) rt now t frames Hr Hn W (length frames) 0 (setType (reset d0) t) ltac:(lia)) as (d & E).
  { apply inv_start; try done; cbn.
    - rewrite F0. done.
    - split; [exact (mm_reset_inv _ (fun _ => false) 0 19 _ _ HF)|exact PF].
    - split; [exact (mm_reset_inv _ (fun _ => false) 0 19 _ _ HG)|exact PG]. }
  rewrite drop_0 in E. eexists d, vs0, _. split_and!.
  - eapply run_app; [exact E0|]. exact E.
  - rewrite fmap_length, seq_length. done.
  - eauto.
  - intros i Hi Hc. rewrite list_lookup_fmap, lookup_seq_lt by lia. cbn [fmap option_fmap option_map]. f_equal.
    change (0 + i)%nat with i. destruct Hc as [Hc| ->]; [by apply reportedFrom_late|done].
Qed.
Print Assumptions C87_reset_partial.

(** The count of rising frames outlives a reset, so an onset can be reported in the first four
    frames after one which a new detector does not see. *)
Theorem C87_reset_refuted : exists rt fft os t frames,
  0 <= rt /\ 0 < fft /\ fitting fft os /\ sizeAfter fft os = fft /\ Forall (wide fft) frames /\
  (snd <$> run (newDetector rt fft) (os ++ Reset :: SetType t :: (Frame <$> frames))) = Some ((const 0%Q <$> os) ++ [2 # 2; 2 # 2; 1 # 2]%Q) /\
  (snd <$> run (newDetector rt fft) (SetType t :: (Frame <$> frames))) = Some [2 # 2; 2 # 2; 0]%Q.
Proof.
  exists 44100, 8, (Frame <$> replicate 4 [0; 0; 0; 0; 0]), CompoundDetector,
    (frame <$> [[0; 10; 10; 0; 0]; [0; 15; 30; 0; 0]; [0; 10; 30; 0; 0]]).
  split; [discriminate|]. split; [reflexivity|].
  split; [repeat split; vm_compute; discriminate|]. split; [reflexivity|].
  split; [repeat constructor; vm_compute; discriminate|].
  split; vm_compute; reflexivity.
Qed.
Print Assumptions C87_reset_refuted.
