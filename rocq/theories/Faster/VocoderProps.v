(** Properties C39, C64, C66 and C67: overlap-add and the R2 engine as a plain function. *)
From stdpp Require Import prelude.
From Coq Require Import ZArith QArith Qround Lia Lqa.
From Verif Require Import Base.Arith Calculator.Spec Calculator.Model Faster.Sizes Faster.Model Faster.Core Faster.Chunks Faster.Stream Faster.Count Faster.Runs Faster.RunsProofs Faster.StreamProps
  Faster.OlaSpec Faster.Ola Faster.VocoderSpec Faster.Vocoder Faster.OlaRuns.
Local Open Scope Z_scope.

(** C39: whatever frames are added with whatever shifts, what comes out is the sum of
    all frames at their positions over the sum of all weights, in order, without the
    start delay; and draining brings out everything up to the end of the last frame.
    Stated for the case without resampling after the stretch. *)
Theorem C39_overlap_add : forall {A S R K} (D : dsp A S R K) P c ops,
  sane D P -> after P = false -> 0 <= startSkip P -> wf P c -> capok P c -> blank D P c -> inputSize c = None -> draining c = false ->
  Forall (fun o => window P <= zlen (o_buf o) /\ 0 <= o_shift o <= window P) ops ->
  let F := layout 0 (frameOf D P <$> ops) in let G := layout 0 (weightOf D P <$> ops) in
  let out n := drop (Z.to_nat (startSkip P)) (ola (add D) (zero D) (one D) (quot D) F G n) in
  exists d, written D P c ops = Some d /\ outbuf d = out (span (frameOf D P <$> ops)) /\
    forall sis, Forall (fun si => 0 <= si <= window P) sis ->
    exists l e n, drained D P (set_drain d true) sis = Some (l, e) /\ span (frameOf D P <$> ops) <= n <= extent F /\ outbuf e = out n /\
      (l = true -> n = extent F) /\ (extent F - span (frameOf D P <$> ops) < zlen sis -> l = true).
Proof. exact @ola_runs. Qed.
Print Assumptions C39_overlap_add.

(** Three frames of eight with shifts 3, 8 and 0, drained in steps of 2 and 5. *)
Definition sumDsp : dsp Z unit unit unit :=
  Dsp _ _ _ _ 0 1 Z.add Z.sub (fun a b => 100 * a + b) (fun x => x / 2)
    (fun s x => (x, s)) (fun s x _ _ _ => (x, s)) (fun _ => replicate 8 1)
    (fun r x _ _ _ => (x, r)) (fun k _ => (2, 2, false, k)).
Definition rtParams : params := Params 8 2 true 1 1 false false false [].
Definition exOps : list (op Z unit) :=
  [Op [1; 2; 3; 4; 5; 6; 7; 8] tt 3 3 false; Op [10; 20; 30; 40; 50; 60; 70; 80] tt 8 8 true; Op [5; 5; 5; 5; 5; 5; 5; 5] tt 1 0 false].
Example C39_example : sane sumDsp rtParams /\ blank sumDsp rtParams (plainChan 8 9) /\ wf rtParams (plainChan 8 9) /\ capok rtParams (plainChan 8 9) /\
  (fun x => x ≫= fun d => drained sumDsp rtParams (set_drain d true) [2; 0; 5]) (written sumDsp rtParams (plainChan 8 9) exOps)
    ≫= (fun '(l, e) => Some (l, outbuf e)) =
  Some (true, [102; 201; 301; 1402; 2502; 3602; 4702; 5802; 6001; 7001; 8001; 501; 501; 501; 501; 501; 501; 501; 501]).
Proof.
  split; [constructor; cbn; try done; intros; rewrite zlen_replicate; lia|].
  split; [by constructor|]. split; [constructor; try split; done|]. split; [done|]. vm_compute. done.
Qed.

(** C66: until the final block, whatever the block sizes and whenever output is
    retrieved, the samples retrieved and waiting are those the plain function gives for
    the whole input so far: windows at multiples of the input increment, analysed
    and modified in turn, overlap-added at the positions the profile says, without
    the start delay.  For increments not longer than the window, no resampling. *)
Theorem C66_plain_vocoder : forall {A S R K} (D : dsp A S R K) P c cs,
  sane D P -> before P = false -> after P = false -> (forall k, advance P k <= window P) -> 0 <= startSkip P ->
  ready P c -> blank D P c ->
  exists out d, calls D P c cs = Some (out, d) /\
    out ++ outbuf d = drop (Z.to_nat (startSkip P)) (stretched D P (spec c) (inbuf c ++ inputs cs)).
Proof.
  intros A S R K D P c cs HP Hb Haf Hadv Hsk Hr Hbl. destruct (calls_ok D P HP Hb cs c Hr) as (out & d & E & _).
  exists out, d. split; [done|]. by apply calls_vocoder.
Qed.
Print Assumptions C66_plain_vocoder.
Example C66_example : sane exDsp exParams /\ (forall k, advance exParams k <= 8) /\ startSkip exParams = 4 /\ ready exParams (plainChan 8 9) /\
  blank exDsp exParams (plainChan 8 9) /\
  stretched exDsp exParams tt (inbuf (plainChan 8 9) ++ inputs exCalls) = [0; 0; 0; 0; 2; 5; 6; 7] /\
  (fun x => (fst x, outbuf (snd x))) <$> calls exDsp exParams (plainChan 8 9) exCalls = Some ([2], [5; 6; 7]).
Proof.
  split; [by apply plain_sane|]. split.
  { intros k. unfold advance, phaseAdvance. cbn [increments increment exParams plainParams].
    assert (H : forall j x, getZ [3; -3; 2; 3; 2; 2] j = Some x -> Z.abs x <= 8).
    { intros j x. unfold getZ. destruct (0 <=? j); [|done]. intros Hx. apply elem_of_list_lookup_2 in Hx. set_unfold. lia. }
    destruct (getZ _ (entry exParams k + 1)) eqn:E1; [by apply (H _ _ E1)|].
    destruct (getZ _ (entry exParams k)) eqn:E2; [by apply (H _ _ E2)|]. lia. }
  split; [done|]. split; [apply (start_ready exDsp); [by apply plain_sane|by apply plain_start]|]. split; [by constructor|].
  vm_compute. done.
Qed.

(** C64: the last windows, which reach past the end of the input, should be completed with
    silence.  They are not: the buffer keeps what the previous frame left there
    (StretcherProcess.cpp:290-293 peek only what is available).  The engine
    below passes frames through and records the ones it is given. *)
Definition logDsp (w : Z) : dsp Z (list (list Z)) unit unit :=
  Dsp _ _ _ _ 0 1 Z.add Z.sub Z.div (fun x => x / 2)
    (fun s x => (x, s ++ [x])) (fun s x _ _ _ => (x, s)) (fun _ => replicate (Z.to_nat w) 1)
    (fun r x _ _ _ => (x, r)) (fun k _ => (2, 2, false, k)).
Definition logChan (w cap : Z) : channel Z (list (list Z)) unit :=
  Chan (replicate (Z.to_nat (w / 2)) 0) cap [] cap (replicate (Z.to_nat w) 0) (replicate (Z.to_nat w) 0)
    (1 :: replicate (Z.to_nat (w - 1)) 0) 0 [] tt 0 0 0 None 0 false false.
(** The windows of [stream] at multiples of [i], followed by silence. *)
Definition paddedWindow (w i : Z) (stream : list Z) (k : Z) : list Z :=
  take (Z.to_nat w) (drop (Z.to_nat (k * i)) stream ++ replicate (Z.to_nat w) 0).
Theorem C64_silent_tail_refuted : exists P c xs frames,
  sane (logDsp 8) P /\ start (logDsp 8) P c /\
  (fun x => spec (snd x)) <$> wholeOutput (logDsp 8) P c [] xs = Some frames /\
  frames !! 3%nat = Some [3; 4; 5; 6; 7; 8; 7; 8] /\ paddedWindow 8 2 (inbuf c ++ xs) 3 = [3; 4; 5; 6; 7; 8; 0; 0] /\
  paddedWindow 8 2 (inbuf c ++ xs) 3 ∉ frames.
Proof.
  exists (plainParams 8 2 1 []), (logChan 8 16), [1; 2; 3; 4; 5; 6; 7; 8].
  exists [[0; 0; 0; 0; 1; 2; 3; 4]; [0; 0; 1; 2; 3; 4; 5; 6]; [1; 2; 3; 4; 5; 6; 7; 8]; [3; 4; 5; 6; 7; 8; 7; 8];
    [5; 6; 7; 8; 7; 8; 7; 8]; [5; 6; 7; 8; 7; 8; 7; 8]; [5; 6; 7; 8; 7; 8; 7; 8]; [5; 6; 7; 8; 7; 8; 7; 8]].
  split; [constructor; done|].
  split; [by constructor|].
  split; [vm_compute; reflexivity|]. split; [done|]. split; [done|].
  change (paddedWindow _ _ _ _) with [3; 4; 5; 6; 7; 8; 0; 0]. intros H.
  repeat (apply elem_of_cons in H as [H|H]; [discriminate H|]). by apply elem_of_nil in H.
Qed.
Print Assumptions C64_silent_tail_refuted.

Definition logParams : params := plainParams 8 2 1 [].
Lemma log_vocoder n : forall s stream k, snd (vocoder (logDsp 8) logParams s stream k n) =
  s ++ ((fun j => take 8 (drop (Z.to_nat ((k + Z.of_nat j) * 2)) stream)) <$> seq 0 n).
Proof.
  induction n as [|n IH]; intros s stream k; cbn [vocoder].
  - by rewrite app_nil_r.
  - cbn [analyse modify logDsp]. cbn [increment window logParams plainParams].
    specialize (IH (s ++ [take (Z.to_nat 8) (drop (Z.to_nat (k * 2)) stream)]) stream (k + 1)).
    destruct (vocoder _ _ _ _ _ n) as [[fs ws] s']. cbn [snd] in *. subst s'. rewrite <- app_assoc. f_equal. cbn [seq fmap list_fmap app].
    f_equal; [do 3 f_equal; lia|]. rewrite <- seq_shift. change (list_fmap _ _ ?f (Datatypes.S <$> ?l)) with (f <$> (Datatypes.S <$> l)). rewrite <- list_fmap_compose. apply list_fmap_ext. intros i j _. cbn. do 3 f_equal. lia.
Qed.
(** What does hold: as long as the final block has not been given, every window analysed is
    complete: they are the windows of the input at successive multiples of the increment
    (for any engine by C66; here as seen by the recording one). *)
Theorem C64_full_windows_partial : forall cap cs, 8 <= cap ->
  exists out d, calls (logDsp 8) logParams (logChan 8 cap) cs = Some (out, d) /\
    let stream := [0; 0; 0; 0] ++ inputs cs in
    spec d = (fun j => paddedWindow 8 2 stream (Z.of_nat j)) <$> seq 0 (Z.to_nat (windows logParams (zlen stream))).
Proof.
  intros cap cs Hcap.
  assert (HP : sane (logDsp 8) logParams) by by constructor.
  assert (Hr : ready logParams (logChan 8 cap)).
  { constructor; try done. constructor; try done. split; [change (0 <= cap); lia|done]. }
  destruct (calls_ok (logDsp 8) logParams HP eq_refl cs _ Hr) as (out & d & E & _). exists out, d. split; [done|]. cbv zeta.
  rewrite (calls_state (logDsp 8) logParams (logChan 8 cap) cs out d); try done.
  - change (inbuf (logChan 8 cap)) with [0; 0; 0; 0]. set (stream := [0; 0; 0; 0] ++ inputs cs).
    rewrite log_vocoder. cbn [app spec logChan]. apply list_fmap_ext. intros i j Hj. apply lookup_seq in Hj as [-> Hj].
    unfold paddedWindow. rewrite Z.add_0_l. cbn [plus]. symmetry. apply take_app_le. rewrite drop_length.
    unfold windows in Hj. cbn [window increment logParams plainParams] in Hj.
    destruct (Z.ltb_spec (zlen stream) 8); [lia|].
    pose proof (Z.mul_div_le (zlen stream - 8) 2 ltac:(lia)). unfold zlen in *. lia.
  - intros k. unfold advance, phaseAdvance. cbn. unfold getZ. repeat case_match; try done; by rewrite lookup_nil in *.
Qed.
Print Assumptions C64_full_windows_partial.
Example C64_example : (fun x => spec (snd x)) <$> calls (logDsp 8) logParams (logChan 8 8) [Process [1; 2; 3]; Process [4; 5; 6; 7]; Retrieve 1] =
  Some [[0; 0; 0; 0; 1; 2; 3; 4]; [0; 0; 1; 2; 3; 4; 5; 6]].
Proof. vm_compute. done. Qed.

(** C67: the weight a sample is divided by (StretcherProcess.cpp:1052) should never be
    zero.  With a window that is zero at its first sample only (the Hann window,
    Window.h:149-151) it is not as long as every shift is shorter than the window. *)
Definition weights (w : list Q) (sis : list Z) : list (Z * list Q) := layout 0 ((fun si => (w, si)) <$> sis).
Definition weightAt (w : list Q) (sis : list Z) (i : Z) : Q := sumAt Qplus (if i =? 0 then 1%Q else 0%Q) (weights w sis) i.

Lemma sum_mono (w : list Q) : Forall (fun x => 0 <= x)%Q w -> forall sis pos (init : Q) i,
  (init <= sumAt Qplus init (layout pos ((fun si => (w, si)) <$> sis)) i)%Q.
Proof.
  intros Hw. induction sis as [|si sis IH]; intros pos init i; cbn [fmap list_fmap layout]; [apply Qle_refl|].
  unfold sumAt in *. cbn [foldl]. destruct (getZ w (i - pos)) as [x|] eqn:Ex; [|apply IH].
  assert (0 <= x)%Q.
  { unfold getZ in Ex. destruct (0 <=? i - pos); [|done]. rewrite Forall_lookup in Hw. by apply (Hw _ _ Ex). }
  specialize (IH (pos + si) (init + x)%Q i). lra.
Qed.
Lemma sum_pos (w : list Q) : (forall x, getZ w 0 = Some x -> 0 <= x)%Q -> (forall j x, 0 < j -> getZ w j = Some x -> (0 < x)%Q) ->
  forall sis pos (init : Q) i, Forall (fun si => 0 <= si < zlen w) sis -> pos <= i < pos + sumZ sis -> (0 <= init)%Q -> (i = pos -> (0 < init)%Q) ->
  (0 < sumAt Qplus init (layout pos ((fun si => (w, si)) <$> sis)) i)%Q.
Proof.
  intros H0 H1.
  assert (Hw : Forall (fun x => 0 <= x)%Q w).
  { apply Forall_lookup. intros j x Hx. rewrite <- getZ_lookup in Hx. destruct (Z.eq_dec (Z.of_nat j) 0) as [E|E].
    - rewrite E in Hx. by apply H0.
    - specialize (H1 (Z.of_nat j) x ltac:(lia) Hx). lra. }
  induction sis as [|si sis IH]; intros pos init i Hall Hi Hn Hp; cbn [fmap list_fmap layout].
  - change (sumZ []) with 0 in Hi. lia.
  - apply Forall_cons in Hall as [Hs Hall]. change (sumZ (si :: sis)) with (si + sumZ sis) in Hi.
    pose proof (sum_mono w Hw sis (pos + si)) as Hm.
    unfold sumAt in *. cbn [foldl].
    assert (Hgo : forall init', (init <= init')%Q -> (i = pos + si -> (0 < init')%Q) -> pos + si <= i ->
      (0 < foldl (fun a '(o, f) => match getZ f (i - o) with Some x => (a + x)%Q | None => a end) init' (layout (pos + si) ((fun si => (w, si)) <$> sis)))%Q).
    { intros init' Hle Hpos Hge. apply IH; try done; try lia. lra. }
    destruct (Z.eq_dec i pos) as [->|Hne].
    + specialize (Hp eq_refl). rewrite Z.sub_diag. destruct (getZ w 0) as [x|] eqn:Ex.
      * specialize (Hm (init + x)%Q pos). specialize (H0 _ eq_refl). lra.
      * specialize (Hm init pos). lra.
    + destruct (Z.le_gt_cases (pos + si) i).
      * destruct (getZ w (i - pos)) as [x|] eqn:Ex.
        -- specialize (H1 (i - pos) x ltac:(lia) Ex). apply Hgo; try lra; try lia. 
        -- apply Hgo; try lra; try lia. intros ->. exfalso. replace (pos + si - pos) with si in Ex by lia.
           destruct (getZ_is w si) as [x Hx]; [lia|]. congruence.
      * destruct (getZ_is w (i - pos)) as [x Ex]; [lia|]. rewrite Ex. specialize (H1 (i - pos) x ltac:(lia) Ex).
        specialize (Hm (init + x)%Q i). lra.
Qed.

Theorem C67_weight_positive_partial : forall w sis i,
  (forall x, getZ w 0 = Some x -> 0 <= x)%Q -> (forall j x, 0 < j -> getZ w j = Some x -> (0 < x)%Q) ->
  Forall (fun si => 0 <= si < zlen w) sis -> 0 <= i < sumZ sis -> (0 < weightAt w sis i)%Q.
Proof.
  intros w sis i H0 H1 Hall Hi. unfold weightAt, weights. apply sum_pos; try done.
  - destruct (i =? 0); lra.
  - intros ->. cbn. lra.
Qed.
Print Assumptions C67_weight_positive_partial.
Example C67_example : let w := [0; 1 # 2; 1; 1 # 2]%Q in
  Forall (fun si => 0 <= si < zlen w) [3; 0; 2; 3] /\ Qeq (weightAt w [3; 0; 2; 3] 3) (1 # 2) /\ Qeq (weightAt w [3; 0; 2; 3] 4) 1.
Proof. split; [|by split; vm_compute]. repeat (constructor; [split; [lia|done]|]). constructor. Qed.

(** With a shift as long as the window it is zero: the sample where the next frame begins
    is 0/0.  Such shifts come from the stretch calculator when a key-frame map asks for
    six times the duration somewhere: at 44100 Hz the window is 2048, the increment 341. *)
Local Definition qDsp : dsp Q unit unit unit :=
  Dsp Q unit unit unit 0%Q 1%Q Qplus Qminus Qdiv (fun x => x) (fun s x => (x, s)) (fun s x _ _ _ => (x, s)) (fun _ => [])
    (fun r x _ _ _ => (x, r)) (fun k _ => (0, 0, false, k)).
Theorem C67_weight_positive_refuted : exists s m l,
  calculateSizes (Config false false false false false 2048 (44100 # 48000) 1 1 0 0) = Some s /\ Sizes.window s = 2048 /\ Sizes.increment s = 341 /\
  admissible 341 m /\ Calculator.Model.calculate (setKeyFrameMap (create 44100 341 true) m) 1 (replicate 100 0%Q) = Some l /\
  forall w x, zlen w = 2048 -> getZ w 0 = Some x -> (x == 0)%Q -> (weightAt w (Z.abs <$> tail l) 2048 == 0)%Q.
Proof.
  eexists _, [(3410, 20480)], _. split; [vm_compute; reflexivity|]. split; [done|]. split; [done|].
  split; [split; [done|]; constructor; [right; cbn; lia|constructor]|]. split; [vm_compute; reflexivity|].
  intros w x Hw Hx Hz. unfold weightAt, weights. cbn [tail fmap list_fmap Z.abs].
  match goal with |- context [layout 0 ?L] => match L with ?a :: ?b :: ?r =>
    replace (layout 0 L) with ([(0, w); (2048, w)] ++ layout 4096 r) by reflexivity; set (rest := layout 4096 r) end end.
  change Qplus with (add qDsp).
  rewrite (sumAt_app qDsp).
  rewrite (sumAt_outside qDsp).
  - unfold sumAt. cbn [foldl add qDsp]. change (2048 - 2048) with 0. rewrite Hx, getZ_out by lia. change (2048 =? 0) with false. cbv iota. lra.
  - unfold rest. repeat (constructor; [left; cbn; lia|]). constructor.
Qed.
Print Assumptions C67_weight_positive_refuted.
