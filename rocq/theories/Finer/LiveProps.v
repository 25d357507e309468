(** Properties C48 and C75: the live pitch shifter. *)
From stdpp Require Import prelude list numbers.
From Coq Require Import ZArith QArith Qround Lia Lqa.
From Verif Require Import Base.Arith Finer.GuideModel Finer.EngineModel Finer.EngineSpec Finer.EngineShape Finer.LiveModel Finer.LiveSpec Finer.LiveProofs Finer.LiveSession.
From stdpp Require Import list.
Local Open Scope Z_scope.

(** An ideal resampler, for the cases below. *)
Definition reservoir : resampler Q :=
  Resampler Q 0%Q (fun r cap n q _ => let k := Z.max 0 (Z.min cap (Qfloor (q * (r + inject_Z n)))) in (k, Qred (r + inject_Z n - inject_Z k / q)%Q)) (fun _ q => q) (fun _ => 0%Q).
Lemma reservoir_fair : fair reservoir.
Proof. split; [intros; cbn [reservoir rres fst]; lia|]. intros r q H. cbn. lra. Qed.
Lemma reservoir_ideal : ideal reservoir.
Proof.
  exists (fun r => r). split; [done|]. split; [done|]. intros r cap n q f Hq Hr Hc Hn. cbn [reservoir rres fst snd]. assert (0 <= Qfloor (q * (r + inject_Z n))).
  { apply floor_least. change (inject_Z 0) with 0%Q. assert (0 <= inject_Z n)%Q by (change 0%Q with (inject_Z 0); by rewrite <- Zle_Qle). nra. }
  rewrite Z.max_r by lia. split; [done|]. apply Qred_correct.
Qed.
Definition try {A} (medium : bool) (rate : Q) (l : list lop) (f : lshape -> live Q -> list (Z * Z * Z) -> A) : option A :=
  L ← newLive medium rate; '(s, k) ← run reservoir L (live0 reservoir L) l; Some (f L s k).

(** C48.  At every rate, with any resampler that keeps to the space it is given, and for every
    sequence of blocks, resets and pitch scales above zero: every call of shift returns, with one
    whole block of 512; no level passes its buffer, nothing is lost on the way out, the output
    never holds more than 562, and every frame lies within the buffers it is read from and added to. *)
Theorem C48_blocks : forall medium rate, exists L, newLive medium rate = Some L /\
  forall R (RS : resampler R), fair RS -> forall l, Forall above_zero l ->
  exists s k, run RS L (live0 RS L) l = Some (s, k) /\ zlen k = shifts l /\ Forall one_block k /\
    0 <= inFill s <= 4 * source L /\ 0 <= outFill s <= 562 /\ 562 <= 4 * source L /\ lost s = 0 /\
    Forall (fun e => 1 <= e.1 /\ 1 <= e.2 <= frame L /\ (if medium then frame L + e.1 <= source L else frame L <= source L)) (frames s).
Proof.
  intros medium rate. destruct (new_live medium rate) as (L & E & HL & Hm). exists L. split; [done|]. intros R RS HF l Hl.
  destruct (run_ok RS L HL HF l Hl (live0 RS L) (live0_ok RS L HL HF)) as (s & k & E' & [O1 O2 O3 O4 O5 O6 O7] & K1 & K2). exists s, k. destruct (sizes L HL) as (A1 & A2 & A3 & A4 & A5 & A6 & A7).
  do 7 (split; [done || (unfold room in *; lia)|]). eapply Forall_impl; [exact O5|]. intros e [F1 F2]. cbn. destruct medium; lia.
Qed.
Print Assumptions C48_blocks.
Example C48_blocks_case : fair reservoir /\ Forall above_zero [Shift; SetPitch 100; Shift; ResetLive; SetPitch (1 # 3); Shift] /\
  try true 44100 [Shift; SetPitch 100; Shift; ResetLive; SetPitch (1 # 3); Shift] (fun L s k => (inFill s, outFill s, k)) = Some (2560, 0, [(0, 512, 0); (0, 512, 0); (0, 512, 0)]).
Proof. split; [exact reservoir_fair|]. split; [repeat constructor|vm_compute; reflexivity]. Qed.

(** C48: all of the input taken, all of the output made from it.  For resamplers that lose nothing
    and hold nothing back, pitch scales within three octaves either way, and a pitch scale at the
    first block (of a session) that leaves space for that block, which is always so up to 3.5:
    every block is taken whole and what comes out is all sound, for ever; between the calls the
    input buffer holds the window and at most 50 less, the output buffer at most 51.  Missing: the
    rest, which is false, below. *)
Theorem C48_takes_partial : forall medium rate L, newLive medium rate = Some L ->
  forall {R} (RS : resampler R), fair RS -> ideal RS -> forall l, Forall within l -> starts_low L 1 true l ->
  exists s k, run RS L (live0 RS L) l = Some (s, k) /\ Forall (eq (0, 512, 0)) k /\ refused s = 0 /\ spilt s = 0 /\
    (firstProcess s = false -> source L - 50 <= inFill s <= source L /\ 0 <= outFill s <= 51).
Proof.
  intros medium rate L E R RS HF (store & S0 & S1 & SI) l Hl Hlow. pose proof (live_sized _ _ _ E) as HL.
  destruct (run_steady RS L HL HF store S1 SI l Hl (live0 RS L) (live0_ok RS L HL HF) (live0_steady RS L store S1)) as (s & k & E' & (T1 & T2 & T3 & T4) & K).
  { unfold live0, measureResamplerDelay. cbn [rin rout pitch]. repeat match goal with |- context [rres RS ?a ?b ?c ?d ?e] => destruct (rres RS a b c d e) end. exact Hlow. }
  exists s, k. do 4 (split; [done|]). intros Hf. rewrite Hf in T4. tauto.
Qed.
Print Assumptions C48_takes_partial.
Example C48_takes_case : ideal reservoir /\ Forall within [SetPitch (7 # 3); Shift; SetPitch (1 # 8); Shift; SetPitch 8; Shift; Shift] /\
  exists L, newLive false 8000 = Some L /\ starts_low L 1 true [SetPitch (7 # 3); Shift; SetPitch (1 # 8); Shift; SetPitch 8; Shift; Shift] /\
  try false 8000 [SetPitch (7 # 3); Shift; SetPitch (1 # 8); Shift; SetPitch 8; Shift; Shift] (fun L s k => (source L, inFill s, outFill s, k)) =
    Some (1024, 1020, 3, [(0, 512, 0); (0, 512, 0); (0, 512, 0); (0, 512, 0)]).
Proof.
  split; [exact reservoir_ideal|]. split; [repeat constructor; vm_compute; discriminate|]. eexists. split; [vm_compute; reflexivity|]. split; [cbn; repeat split; intros; (discriminate || (vm_compute; discriminate))|vm_compute; reflexivity].
Qed.
(** Any pitch scale up to three and a half leaves that space. *)
Theorem C48_low : forall medium rate L p, newLive medium rate = Some L -> (0 < p)%Q -> (p <= 7 # 2)%Q -> starts_low L 1 true [SetPitch p; Shift].
Proof.
  intros medium rate L p E H1 H2. destruct (sizes L (live_sized _ _ _ E)) as (A1 & A2 & A3 & A4 & A5 & A6 & A7). cbn [starts_low]. split; [|done]. intros _. rewrite inject_Z_mult. change (inject_Z 4) with 4%Q.
  assert (1024 <= inject_Z (source L))%Q by (change 1024%Q with (inject_Z 1024); rewrite <- Zle_Qle; lia). nra.
Qed.
Print Assumptions C48_low.
(** Two octaves up from the start, at 44100: the whole first block is dropped.  Far down, at 8000:
    blocks are dropped later.  Far up, at 8000: a block of output that is 16 samples of sound and
    496 made up, although there had been input all along. *)
Theorem C48_takes_refuted : exists l1 l2 l3, Forall above_zero l1 /\ Forall above_zero l2 /\ Forall above_zero l3 /\ ideal reservoir /\
  try false 44100 l1 (fun L s k => (shifts l1, refused s)) = Some (1, 512) /\ try false 8000 l2 (fun L s k => (shifts l2, refused s)) = Some (12, 1024) /\
  try true 8000 l3 (fun L s k => (refused s, k)) = Some (0, [(0, 512, 0); (0, 16, 496)]).
Proof.
  exists [SetPitch 4; Shift], (SetPitch (1 # 1000) :: replicate 12 Shift), [SetPitch (341 # 100); Shift; SetPitch 12; Shift].
  split; [repeat constructor|]. split; [repeat constructor|]. split; [repeat constructor|]. split; [exact reservoir_ideal|]. split; [vm_compute; reflexivity|]. split; [vm_compute; reflexivity|vm_compute; reflexivity].
Qed.
Print Assumptions C48_takes_refuted.

(** C75.  With the pitch unchanged, at every rate and however long the stream, each frame begins
    as far into the output as it did into the input buffer, whose first sample of sound comes
    after [front] of silence; and that is the delay reported.  Missing: other pitch scales, for
    which it is false, below; there, only that the delay reported is not below zero. *)
Theorem C75_delay_partial : forall medium rate L, newLive medium rate = Some L -> forall {R} (RS : resampler R), fair RS -> 
  (ideal RS -> forall n, (0 < n)%nat -> exists s, run RS L (live0 RS L) (replicate n Shift) = Some (s, replicate n (0, 512, 0)) /\
    Forall (fun e => e.1 = e.2) (places 0 0 (rev (frames s))) /\ front s = getStartDelay L s /\ inFill s = source L /\ outFill s = 0) /\
  (forall l s k, Forall above_zero l -> run RS L (live0 RS L) l = Some (s, k) -> 0 <= startTotal L s).
Proof.
  intros medium rate L E R RS HF. pose proof (live_sized _ _ _ E) as HL. split.
  - intros (store & S0 & S1 & SI) n Hn.
    destruct (run_still RS L HL HF store SI n (live0 RS L) (live0_ok RS L HL HF) (live0_still RS L store S0 S1 SI)) as (s & E' & _ & (T1 & T2 & T3 & T4 & T5 & T6 & T7 & T8) & Tf).
    rewrite Tf in T8 by (by right). destruct T8 as [T8 T9]. exists s. split; [done|]. split.
    { assert (H : forall l x, Forall (fun e : Z * Z => e.1 = e.2) l -> Forall (fun e => e.1 = e.2) (places x x l)).
      { induction l as [|[i o] l IH]; intros x Hl; [constructor|]. apply Forall_cons in Hl as [Hl1 Hl2]. cbn in Hl1. subst o. constructor; [done|]. by apply IH. }
      apply H. apply Forall_rev. exact T4. }
    split; [|done]. destruct (sizes L HL) as (A1 & A2 & A3 & A4 & A5 & A6 & A7). unfold getStartDelay, startTotal. rewrite T1, T2, T3, T9. change (outRatio 1) with 1%Q. change (ltq 1 1) with false. cbv iota.
    assert (Qfloor (inject_Z (source L + 0) * 1) = source L) as ->. { rewrite <- (Qfloor_Z (source L)) at 2. apply Qfloor_comp. rewrite Z.add_0_r. ring. } symmetry. rewrite Z.add_0_r. apply Z.mod_small. lia.
  - intros l s k Hl Hr. destruct (run_ok RS L HL HF l Hl (live0 RS L) (live0_ok RS L HL HF)) as (s' & k' & E' & O & _). rewrite Hr in E'. injection E' as <- <-. by apply (total_nonneg L HL).
Qed.
Print Assumptions C75_delay_partial.
Example C75_delay_case : try true 8000 (replicate 3 Shift) (fun L s k => (places 0 0 (rev (frames s)) !! 20%nat, front s, getStartDelay L s, k)) =
  Some (Some (1280, 1280), 1088, 1088, replicate 3 (0, 512, 0)).
Proof. vm_compute. reflexivity. Qed.
(** An octave up at 44100: the frame whose middle is the first input is output with its middle
    at 3072, while the delay reported is 2816.  An octave down: the frame whose
    middle is the first input, its middle at 1536 before resampling, so 3072; reported, 3584. *)
Theorem C75_delay_refuted : exists l1 l2, ideal reservoir /\
  try false 44100 l1 (fun L s k => (front s, frame L, getStartDelay L s, places 0 0 (rev (frames s)) !! 8%nat)) = Some (4096, 2048, 2816, Some (3072, 2048)) /\ 3072 + 2048 / 2 = 4096 /\ 2048 + 2048 / 2 = 2816 + 256 /\
  try false 44100 l2 (fun L s k => (front s, frame L, getStartDelay L s, places 0 0 (rev (frames s)) !! 2%nat)) = Some (2048, 2048, 3584, Some (1024, 512)) /\ 1024 + 2048 / 2 = 2048 /\ (512 + 2048 / 2) * 2 = 3584 - 512.
Proof.
  exists (SetPitch 2 :: replicate 6 Shift), (SetPitch (1 # 2) :: replicate 6 Shift). split; [exact reservoir_ideal|]. split; [vm_compute; reflexivity|]. split; [reflexivity|]. split; [reflexivity|]. split; [vm_compute; reflexivity|]. split; reflexivity.
Qed.
Print Assumptions C75_delay_refuted.
