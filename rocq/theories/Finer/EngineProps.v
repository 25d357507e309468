(** Properties of a stretcher with the finer engine: C40 to C45, C73 and C74, and the finer
    engine's part of C31, C35 and C65. *)
From stdpp Require Import prelude list numbers.
From Coq Require Import ZArith QArith Qround Lia Lqa.
From Verif Require Import Base.Arith MathMisc.Model Finer.GuideModel Finer.GuideProofs Finer.EngineModel Finer.EngineSpec Finer.EngineShape Finer.EngineProofs Finer.EngineSession Finer.EngineTotal Finer.EngineMore Finer.EngineKeys.
From stdpp Require Import list.
Local Open Scope Z_scope.

(** For the concrete cases: a resampler without delay, exact on the whole; [curve] is used at one
    ratio at most in each, and has there its value rounded. *)
Definition plain : resampler Z :=
  Resampler Z 0 (fun r cap n q _ => (Z.max 0 (Z.min cap (cround (inject_Z (r + n) * q) - cround (inject_Z r * q))), r + n)) (fun _ q => q) (fun _ => 0).
Lemma plain_fair : fair plain.
Proof. split; [intros; cbn [plain rres fst]; lia|]. intros r q H. cbn. lra. Qed.
Definition session {A} (rt sh hc hq : bool) (rate at_curve : Q) (t p : dbl) (l : list op) (f : @eng Z -> Z -> A) : option A :=
  E ← newShape rt sh hc hq rate (fun _ => at_curve); '(s, a) ← run plain E (engine0 plain E t p) l; Some (f s a).

(** C40. *)
Theorem C40_buffers : forall rt sh hc hq r cv, exists E g, newShape rt sh hc hq r cv = Some E /\ newGuide (validRate r) sh = Some g /\ forall ratio,
  Forall (fun e => 0 <= e.1 /\ 0 < e.2 /\ e.1 + e.2 <= windowSource E) (analysisCuts g (useReadahead E (inhopFor E ratio)) (inhopFor E ratio)) /\
  Forall (fun e => let '(from, to, w, fft) := e in
    0 <= from /\ 0 < w /\ from + w <= fft /\ 0 <= to /\ to + w <= longestFft E /\ 2 * from = fft - w /\ 2 * to = longestFft E - w) (synthesisCuts g) /\
  Forall (fun l => 0 <= b0min l /\ b0min l <= b1max l /\ b1max l <= lfft l / 2) (bandLimit g).
Proof.
  intros *. destruct (new_shape rt sh hc hq r cv) as (E & m & c & H & _). destruct (cuts_fit _ _ _ _ _ _ _ 1 H) as (g & Hg & _). exists E, g. split; [done|]. split; [done|].
  intros ratio. destruct (cuts_fit _ _ _ _ _ _ _ ratio H) as (g' & Hg' & C1 & C2). assert (g' = g) as -> by congruence. split; [done|]. split; [done|].
  destruct (valid_rate r) as [V1 V2]. exact (limits_fit _ _ _ V1 V2 Hg).
Qed.
Print Assumptions C40_buffers.
(** At 44.1 kHz: the readahead frame begins 200 samples on. *)
Example C40_example : exists E g, newShape true false false false 44100 (fun _ => 256%Q) = Some E /\ newGuide 44100 false = Some g /\ windowSource E = 4096 /\
  analysisCuts g (useReadahead E 200) 200 = [(0, 4096); (1536, 1024); (1224, 2048); (1024, 2048)] /\
  synthesisCuts g = [(1024, 1024, 2048, 4096); (0, 1024, 2048, 2048); (0, 1536, 1024, 1024)].
Proof. eexists _, _. split; [vm_compute; reflexivity|]. split; [vm_compute; reflexivity|]. split_and!; vm_compute; reflexivity. Qed.

(** C41, in every state: the ratios are positive and the input hop within its limits; with a
    combined ratio up to the longest preferred output hop, the nominal output hop is too, and the
    one used stays within the accumulator.  Missing: higher ratios, refuted below. *)
Theorem C41_hops_partial : forall {R} (RS : resampler R) rt sh hc hq r cv E s, newShape rt sh hc hq r cv = Some E -> fair RS -> reached RS E s ->
  (0 < timeRatio s)%Q /\ (0 < pitchScale s)%Q /\ 1 <= inhop s <= maxIn E /\ 1 <= (outhopFor RS E s).1 /\
  ((ratioOf s <= inject_Z (maxOut E))%Q -> (inject_Z (inhop s) * ratioOf s <= inject_Z (maxOut E))%Q /\ (outhopFor RS E s).1 <= longestFft E).
Proof.
  intros * H F Hr. destruct (shaped _ _ _ _ _ _ _ H) as (m & c & Z0 & _). destruct (reached_idle RS E m c s Z0 F Hr) as [got I]. pose proof (i_ok _ _ _ I) as O. destruct O as [B O1 O2 O3].
  split; [done|]. split; [done|]. split; [rewrite O3; by eapply inhop_range|]. destruct (outhopFor RS E s) as [o k] eqn:Eo. cbn [fst].
  destruct (outhop_range RS E m c s o k Z0 F (i_ok _ _ _ I) Eo) as (H1 & _). split; [done|]. intros W. split.
  - rewrite O3. eapply nominal_limit; [exact Z0| |done]. by apply Qmult_lt_0_compat.
  - by eapply outhop_fits; [exact Z0|exact F|exact (i_ok _ _ _ I)| |exact Eo].
Qed.
Print Assumptions C41_hops_partial.
(** C41, what a ratio becomes: nothing that is not a positive number is ever in force. *)
Theorem C41_ratios : (forall t p, (0 < (sanitise t p).1 /\ 0 < (sanitise t p).2)%Q) /\ (forall t p, (0 < t -> 0 < p -> sanitise (Fin t) (Fin p) = (t, p))%Q) /\
  (forall t p, (t <= 0 -> 0 < p -> sanitise (Fin t) (Fin p) = (1, p))%Q) /\ (forall t p, (0 < t -> p <= 0 -> sanitise (Fin t) (Fin p) = (t, 1))%Q).
Proof.
  split; [exact sanitise_pos|]. split; [exact sanitise_same|].
  assert (G : forall q, (q <= 0)%Q -> ltq 0 q = false) by (intros q Hq; unfold ltq; apply negb_false_iff, Qle_bool_iff; done).
  assert (G2 : forall q, (0 < q)%Q -> ltq 0 q = true) by (intros q Hq; unfold ltq; apply negb_true_iff; destruct (Qle_bool q 0) eqn:Eq; [apply Qle_bool_iff in Eq; lra|done]).
  split; intros t p H1 H2; unfold sanitise, positiveOr1, notPositive; [rewrite (G _ H1), (G2 _ H2)|rewrite (G2 _ H1), (G _ H2)]; reflexivity.
Qed.
Print Assumptions C41_ratios.
(** C41 is false: at eight kilohertz and a ratio of 5000 the output hop is 5000 where the longest
    preferred is 64, and the first frame overruns the accumulator; and a NaN for the time ratio
    undoes the pitch scale too. *)
Theorem C41_hops_refuted : exists rate (t : Q) E, newShape true false false false rate (fun _ => 43173%Q) = Some E /\
  (outhopFor plain E (engine0 plain E (Fin t) (Fin 1))).1 = 5000 /\ maxOut E = 64 /\ longestFft E = 2048 /\
  run plain E (engine0 plain E (Fin t) (Fin 1)) [Process 2047 false] <> None /\ run plain E (engine0 plain E (Fin t) (Fin 1)) [Process 2048 false] = None /\
  sanitise NaN (Fin 2) = (1%Q, 1%Q).
Proof. exists 8000%Q, 5000%Q. eexists. split; [vm_compute; reflexivity|]. split_and!; vm_compute; (reflexivity || discriminate). Qed.
Print Assumptions C41_hops_refuted.

(** C42, over every first and second pass with a map, if any, not beginning with frame 0: nothing
    comes before the second pass, then what was retrieved, what waits and what was lost make no
    more than the length wanted, and exactly what was made less the delay, cut at that length,
    unless a single frame is longer than the whole.  With the pitch unchanged nothing is lost.
    Missing: that enough is made; next theorem. *)
Theorem C42_length_partial : forall {R} (RS : resampler R) sh hc hq r cv E, newShape false sh hc hq r cv = Some E -> fair RS ->
  forall t p l1 s1 g1 l2 s2 g2, run RS E (engine0 RS E t p) l1 = Some (s1, g1) -> Forall counts l1 -> Forall first_pass l1 -> starts s1 ->
  run RS E s1 l2 = Some (s2, g2) -> Forall counts l2 -> Forall second_pass l2 -> begun s2 ->
  g1 = 0 /\ 0 <= lost s2 /\ (0 < aim s1 -> g2 + outFill s2 + lost s2 <= aim s1) /\
  (whole E s2 -> g2 + outFill s2 + lost s2 = cut (aim s1) (Z.max 0 (made s2 - cround (inject_Z (windowSource E / 2) / pitchScale s1)))) /\
  ((pitchScale s1 == 1)%Q -> lost s2 = 0).
Proof.
  intros * H F * R1 C1 F1 St R2 C2 F2 Bg. destruct (shaped _ _ _ _ _ _ _ H) as (m & c & Z0 & Er & _).
  destruct (offline_length RS E m c t p l1 s1 g1 l2 s2 g2 Z0 F Er R1 C1 F1 St R2 C2 F2 Bg) as (A1 & A2 & A3 & A4 & A5).
  split; [done|]. split; [done|]. split; [done|]. split; [done|]. intros Hp.
  pose proof (run_idle RS E m c l1 0 _ _ _ Z0 F C1 ltac:(eapply Forall_impl; [exact F1|by intros []]) (engine0_idle RS E m c t p Z0) R1) as I1.
  destruct (run_calm RS E m c l2 _ s1 s2 g2 Z0 F ltac:(congruence) C2 ltac:(eapply Forall_impl; [exact F2|by intros []]) ltac:(eapply Forall_impl; [exact F2|by intros []]) I1 Hp R2) as [_ ->].
  destruct (i_fresh _ _ _ I1 ltac:(eapply first_isFirst; [exact F1| |exact R1]; left; unfold engine0; match goal with |- mode (calculateHop E ?s t p) = _ => destruct (calculateHop_fields E s t p) as (-> & _) end; done)) as (_ & _ & _ & _ & _ & _ & _ & -> & _).
  done.
Qed.
Print Assumptions C42_length_partial.
(** C42, a sound in one block with the pitch unchanged: all that was wanted, exactly, when it is
    at least one hop and the error of rounding the hop does not add up to more than half the
    accumulator; else see below. *)
Theorem C42_one_block_partial : forall {R} (RS : resampler R) sh hc hq r cv E, newShape false sh hc hq r cv = Some E -> fair RS ->
  forall t n k s a, (0 < t)%Q -> 1 <= n <= 524288 -> 0 <= k ->
  let T := cround (inject_Z n * t) in let h := inhopFor E (t * 1) in let pad := windowSource E / 2 in
  firstHop E t <= T ->
  (inject_Z (n + pad + h) <= 2 * inject_Z h * (inject_Z pad * t + inject_Z (longestFft E - pad)))%Q ->
  run RS E (engine0 RS E (Fin t) (Fin 1)) [Study n; Process n true; Retrieve k] = Some (s, a) -> a = Z.min k T.
Proof. intros * H F * Ht Hn Hk T h pad H1 H2. destruct (shaped _ _ _ _ _ _ _ H) as (m & c & Z0 & Er & _). exact (one_block RS E m c t n k s a Z0 F Er Ht Hn Hk H1 H2). Qed.
Print Assumptions C42_one_block_partial.
Example C42_example : exists E, newShape false false false false 44100 (fun _ => 444%Q) = Some E /\ firstHop E (5 # 4) = 255 /\
  Qle_bool (inject_Z (100000 + windowSource E / 2 + inhopFor E ((5 # 4) * 1))) (2 * inject_Z (inhopFor E ((5 # 4) * 1)) * (inject_Z (windowSource E / 2) * (5 # 4) + inject_Z (longestFft E - windowSource E / 2))) = true /\
  session false false false false 44100 444 (Fin (5 # 4)) (Fin 1) [Study 100000; Process 100000 true; Retrieve 200000] (fun s a => (a, available s)) = Some (125000, -1) /\
  session false false false false 44100 444 (Fin 2) (Fin (3 # 4)) [Study 30000; Study 10000; Process 10000 false; Retrieve 5000; Process 30000 true; Retrieve 200000] (fun s a => (a, available s, made s - cround (inject_Z 2048 / (3 # 4)))) = Some (80000, -1, 87369).
Proof. eexists. split; [vm_compute; reflexivity|]. split_and!; vm_compute; reflexivity. Qed.
(** C42 is false: fifty samples at unity give nothing at all; at eight kilohertz and ratio 1.15 a
    block of 524288 is a hundred frames short; at a pitch scale of 0.75 a block of 200000 is
    seventy frames short, as the output buffer is grown for what the frame makes before
    resampling, not after. *)
Theorem C42_length_refuted :
  session false false false false 44100 256 (Fin 1) (Fin 1) [Study 50; Process 50 true; Retrieve 1000] (fun s a => (target s, a, available s, made s)) = Some (50, 0, -1, 6400) /\
  session false false false false 8000 256 (Fin (23 # 20)) (Fin 1) [Study 524288; Process 524288 true; Retrieve 1000000] (fun s a => (target s, a, available s, lost s)) = Some (602931, 602831, -1, 0) /\
  session false false false false 44100 (215287 # 1000) (Fin 1) (Fin (3 # 4)) [Study 200000; Process 200000 true; Retrieve 1000000] (fun s a => (target s, a, available s, lost s)) = Some (200000, 199930, -1, 70).
Proof. split_and!; vm_compute; reflexivity. Qed.
Print Assumptions C42_length_refuted.

(** C43, studied sounds and maps that ascend from (0, 0) to the whole lengths: as long as no more
    than one key frame is passed from the beginning of one block to that of the next, the ratio in
    force for each block is the slope of the segment its beginning is in, and the pitch scale the
    caller's.  Missing: longer blocks, maps from 0, sounds only announced; all refuted. *)
Theorem C43_key_frames_partial : forall {R} (RS : resampler R) sh hc hq r cv E, newShape false sh hc hq r cv = Some E -> fair RS ->
  forall t p l1 s1 g1 l2 s2 g2 n f, run RS E (engine0 RS E t p) l1 = Some (s1, g1) -> Forall counts l1 -> Forall first_pass l1 -> mode s1 = Studying -> keys s1 <> [] ->
  rising 0 0 (keys s1) (studied s1) (aim s1) ->
  run RS E s1 l2 = Some (s2, g2) -> Forall counts l2 -> Forall second_pass l2 -> mode s2 <> Finished -> gentle RS E 0 s1 (l2 ++ [Process n f]) ->
  let s := prepareOffline RS E s2 in
  timeRatio s = slope (keys s1) (studied s1) (aim s1) (consumed s2) /\ pitchScale s = pitchScale s1 /\ inhop s = inhopFor E (ratioOf s).
Proof. intros * H F *. destruct (shaped _ _ _ _ _ _ _ H) as (m & c & Z0 & Er & _). exact (key_frames RS E m c t p l1 s1 g1 l2 s2 g2 n f Z0 F Er). Qed.
Print Assumptions C43_key_frames_partial.
(** Twice as long, the first half three times: blocks of 1000 change over at the key frame. *)
Definition key_blocks (k : nat) : list op := [Study 20000; KeyFrames [(10000, 30000)]] ++ replicate k (Process 1000 false).
Example C43_example : rising 0 0 [(10000, 30000)] 20000 40000 /\
  session false false false false 44100 444 (Fin 2) (Fin 1) (key_blocks 11) (fun s a => (Qred (timeRatio s), consumed s <? 10000)) = Some (3%Q, true) /\
  session false false false false 44100 444 (Fin 2) (Fin 1) (key_blocks 15) (fun s a => (Qred (timeRatio s), consumed s <? 10000)) = Some (1%Q, false) /\
  (exists E s1 s2 g, newShape false false false false 44100 (fun _ => 444%Q) = Some E /\ run plain E (engine0 plain E (Fin 2) (Fin 1)) (key_blocks 0) = Some (s1, 0) /\ mode s1 = Studying /\
    run plain E s1 [Process 6000 false] = Some (s2, g) /\ mode s2 = Processing /\ gentle plain E 0 s1 ([Process 6000 false] ++ [Process 6000 false])).
Proof.
  split; [cbn; lia|]. split; [vm_compute; reflexivity|]. split; [vm_compute; reflexivity|]. eexists _, _, _, _. split; [vm_compute; reflexivity|]. split; [vm_compute; reflexivity|]. split; [reflexivity|].
  split; [vm_compute; reflexivity|]. split; [reflexivity|]. cbn [app gentle]. split; [vm_compute; discriminate|]. intros s' a Hs. vm_compute in Hs. injection Hs as <- <-. split; [vm_compute; discriminate|]. done.
Qed.
(** C43 is false: in one block the whole sound is stretched three times and then cut at the
    length wanted; with a first key frame of 0 the time ratio becomes 1 and so does the pitch
    scale; and when the length was announced, not studied, the ratio after the last key frame is
    1, whatever is left to fill. *)
Theorem C43_key_frames_refuted :
  slope [(10000, 30000)] 20000 40000 15000 == 1 /\
  session false false false false 44100 444 (Fin 2) (Fin 1) [Study 20000; KeyFrames [(10000, 30000)]; Process 20000 true; Retrieve 1000000]
    (fun s a => (Qred (timeRatio s), inhop s, forallb (fun e => e.1.2 =? 444) (trail s), a, target s)) = Some (3%Q, 148, true, 40000, 40000) /\
  session false false false false 44100 444 (Fin 2) (Fin 2) [Study 20000; KeyFrames [(0, 0); (10000, 25000)]; Process 1000 false] (fun s a => (timeRatio s, pitchScale s)) = Some (1%Q, 1%Q) /\
  slope [(10000, 25000)] 20000 40000 12000 == (3 # 2) /\
  session false false false false 44100 444 (Fin 2) (Fin 1) ([Expected 20000; KeyFrames [(10000, 25000)]] ++ replicate 15 (Process 1000 false)) (fun s a => (timeRatio s, target s, 10000 <? consumed s)) = Some (1%Q, 40000, true).
Proof. split_and!; vm_compute; reflexivity. Qed.
Print Assumptions C43_key_frames_refuted.

(** C44, in every state: buffers grow as required and never shrink. *)
Theorem C44_growth : forall {R} (RS : resampler R) rt sh hc hq r cv E s n, newShape rt sh hc hq r cv = Some E -> fair RS -> reached RS E s -> 0 <= n ->
  (inFill (ensureInbuf s n) = inFill s /\ inSize s <= inSize (ensureInbuf s n) /\ inFill s + n <= inSize (ensureInbuf s n)) /\
  (outFill (ensureOutbuf s n) = outFill s /\ outSize s <= outSize (ensureOutbuf s n) /\ outFill s + n <= outSize (ensureOutbuf s n)).
Proof.
  intros * H F Hr Hn. destruct (shaped _ _ _ _ _ _ _ H) as (m & c & Z0 & _). destruct (reached_idle RS E m c s Z0 F Hr) as [got I]. destruct (i_ok _ _ _ I) as [[] _ _ _].
  split; (split; [done|]); apply grown_ge; lia.
Qed.
Print Assumptions C44_growth.
(** C44, in every state, for a block up to 524288 when the engine does not resample before
    stretching: all of it is consumed or waiting, behind the padding of an offline sound's first
    block, and all consumed when it was the last.  Missing: larger blocks, refuted below; input
    that goes through the resampler, which is not modelled sample by sample. *)
Theorem C44_block_kept_partial : forall {R} (RS : resampler R) rt sh hc hq r cv E s n f s', newShape rt sh hc hq r cv = Some E -> fair RS -> reached RS E s ->
  mode s <> Finished -> (resampling E (prepareOffline RS E s)).1 = false -> 0 <= n <= 524288 -> process RS E s n f = Some s' ->
  consumed s' + inFill s' = consumed s + inFill s + (if rt then 0 else match mode s with JustCreated | Studying => windowSource E / 2 | _ => 0 end) + n /\ (f = true -> inFill s' = 0).
Proof.
  intros * H F Hr Hm Hb Hn Hp. destruct (shaped _ _ _ _ _ _ _ H) as (m & c & Z0 & Er & _). destruct (reached_idle RS E m c s Z0 F Hr) as [got I]. destruct I as [O Fr _ _].
  destruct (process_taken RS E m c s n f s' Z0 F O Fr (reached_drained RS E m c s Z0 F Hr) Hm Hb Hn Hp) as [T1 T2]. split; [|done].
  rewrite (prepare_taken RS E m c s Z0 O Fr), Er in T1. unfold taken in T1. lia.
Qed.
Print Assumptions C44_block_kept_partial.
Example C44_example :
  session true false false false 44100 256 (Fin 1) (Fin 1) [Process 500000 false; Process 300 false; Retrieve 100] (fun s a => (consumed s + inFill s, a + outFill s, inSize s)) = Some (500300, 496384, 500000) /\
  session false false false false 44100 256 (Fin 1) (Fin 1) [Study 500000; Process 200000 false; Process 300000 true; Retrieve 400000] (fun s a => (consumed s, inFill s, a + outFill s)) = Some (502048, 0, 500000).
Proof. split; vm_compute; reflexivity. Qed.
(** C44 is false: of a block of 600000, in real time or not, only 524288 are taken. *)
Theorem C44_block_kept_refuted :
  session true false false false 44100 256 (Fin 1) (Fin 1) [Process 600000 false] (fun s a => consumed s + inFill s) = Some 524288 /\
  session false false false false 44100 256 (Fin 1) (Fin 1) [Study 600000; Process 600000 true; Retrieve 600000] (fun s a => (consumed s - 2048, target s, a)) = Some (524288, 600000, 528384).
Proof. split; vm_compute; reflexivity. Qed.
Print Assumptions C44_block_kept_refuted.

(** C45, over all options and pitch scales: never both; without a resampler neither; at unity
    neither but in real time with high consistency; and there always after, in every state, so
    that it never switches. *)
Theorem C45_one_resampling : (forall E have p, areWeResampling E have p <> (true, true)) /\ (forall E p, areWeResampling E false p = (false, false)) /\
  (forall E have p, (p == 1)%Q -> realTime E = false \/ highConsistency E = false -> areWeResampling E have p = (false, false)) /\
  (forall E have p, realTime E = false -> (areWeResampling E have p).1 = false) /\
  (forall {R} (RS : resampler R) sh hq r cv E s, newShape true sh true hq r cv = Some E -> fair RS -> reached RS E s -> resampling E s = (false, true)).
Proof.
  split. { intros. unfold areWeResampling. repeat case_match; done. } split; [done|].
  split. { intros E have p Hp Hc. unfold areWeResampling. apply Qeq_bool_iff in Hp. rewrite Hp. destruct have; [|done]. destruct Hc as [->|Hc]; [done|]. rewrite Hc. by destruct (realTime E). }
  split. { intros E have p Hr. unfold areWeResampling. rewrite Hr. by destruct have. }
  intros * H F Hr. destruct (shaped _ _ _ _ _ _ _ H) as (m & c & Z0 & Er & _ & Eh & _). destruct (reached_idle RS E m c s Z0 F Hr) as [got I].
  pose proof (o_rt E s (o_base E s (i_ok _ _ _ I)) Er) as Hs. unfold resampling. rewrite bool_decide_true by done. unfold areWeResampling. by rewrite Er, Eh.
Qed.
Print Assumptions C45_one_resampling.
Example C45_example : map (fun p => option_map (fun E => areWeResampling E true p) (newShape true false false false 44100 (fun _ => 256%Q))) [1 # 2; 1; 2]%Q = [Some (false, true); Some (false, false); Some (true, false)] /\
  map (fun p => option_map (fun E => areWeResampling E true p) (newShape true false false true 44100 (fun _ => 256%Q))) [1 # 2; 1; 2]%Q = [Some (true, false); Some (false, false); Some (false, true)].
Proof. split; vm_compute; reflexivity. Qed.

(** C31 for the finer engine: in every real-time state with nothing to read, when not resampling,
    the samples asked for are at least one and, supplied, give output.  Missing: with the
    resampler, whose own delay is not modelled. *)
Theorem C31_finer_partial : forall {R} (RS : resampler R) sh hc hq r cv E s s', newShape true sh hc hq r cv = Some E -> fair RS -> reached RS E s ->
  resampling E s = (false, false) -> mode s <> Finished -> available s = 0 ->
  1 <= samplesRequired E s /\ (process RS E s (samplesRequired E s) false = Some s' -> 1 <= available s').
Proof.
  intros * H F Hr Hn Hm Ha. destruct (shaped _ _ _ _ _ _ _ H) as (m & c & Z0 & Er & _). destruct (reached_idle RS E m c s Z0 F Hr) as [got I].
  apply (required_yields RS E m c s s' Z0 F Er (i_ok _ _ _ I) (i_fresh _ _ _ I) (reached_drained RS E m c s Z0 F Hr)); try done.
  destruct Hr as (t & p & l & a & C & Hr). pose proof (engine0_idle RS E m c t p Z0) as I0. eapply run_skip; [exact Z0|exact F|exact Er|exact C|exact I0| |exact Hr].
  destruct (i_fresh _ _ _ I0 ltac:(left; unfold engine0; match goal with |- mode (calculateHop E ?s t p) = _ => destruct (calculateHop_fields E s t p) as (-> & _) end; done)) as (_ & _ & _ & _ & _ & _ & ? & _). done.
Qed.
Print Assumptions C31_finer_partial.
Example C31_finer_example : exists E, newShape true false false false 44100 (fun _ => 256%Q) = Some E /\
  session true false false false 44100 256 (Fin 1) (Fin 1) [Process 5000 false; Retrieve 9999] (fun s a => (a, available s, samplesRequired E s)) = Some (1024, 0, 120) /\
  session true false false false 44100 256 (Fin 1) (Fin 1) [Process 5000 false; Retrieve 9999; Process 120 false] (fun s a => available s) = Some 256.
Proof. eexists. split; [vm_compute; reflexivity|]. split; vm_compute; reflexivity. Qed.

(** C35 for the finer engine, in every state: the counts of a new stretcher with the ratios in
    force; only the buffers, which are empty, may be larger, and the resampler is reset.
    Missing: the caller's ratios, next. *)
Theorem C35_finer_partial : forall {R} (RS : resampler R) rt sh hc hq r cv E s, newShape rt sh hc hq r cv = Some E -> fair RS -> reached RS E s ->
  reset RS E s = withRes (withOut (withIn (engine0 RS E (Fin (timeRatio s)) (Fin (pitchScale s))) 0 (inSize s)) 0 (outSize s)) (rreset RS <$> res s).
Proof. intros * H F Hr. destruct (shaped _ _ _ _ _ _ _ H) as (m & c & Z0 & _). destruct (reached_idle RS E m c s Z0 F Hr) as [got I]. exact (reset_new RS E s (i_ok _ _ _ I)). Qed.
Print Assumptions C35_finer_partial.
(** C35 is false of the finer engine: after a session with a key-frame map the next sound is
    stretched by the slope of the map's last segment used, not by the caller's ratio. *)
Definition second_sound : list op := [Study 10000; Process 10000 true; Retrieve 100000].
Theorem C35_finer_refuted :
  session false false false false 44100 444 (Fin 2) (Fin 1) second_sound (fun s a => a) = Some 20000 /\
  session false false false false 44100 444 (Fin 2) (Fin 1) ([Study 20000; KeyFrames [(10000, 30000)]; Process 20000 true; Reset] ++ second_sound) (fun s a => a) = Some 30000.
Proof. split; vm_compute; reflexivity. Qed.
Print Assumptions C35_finer_refuted.

(** C65 for the finer engine, real time, pitch unchanged: whatever was made is retrieved or waits.
    Missing: other pitch scales, refuted below; high consistency, where all goes through the
    resampler. *)
Theorem C65_finer_partial : forall {R} (RS : resampler R) sh hq r cv E t l s a, newShape true sh false hq r cv = Some E -> fair RS ->
  Forall counts l -> Forall one_session l -> Forall no_pitch l -> run RS E (engine0 RS E t (Fin 1)) l = Some (s, a) -> a + outFill s = made s.
Proof.
  intros * H F Hc Ho Hp Hr. destruct (shaped _ _ _ _ _ _ _ H) as (m & c & Z0 & Er & _ & Eh & _). pose proof (engine0_idle RS E m c t (Fin 1) Z0) as I0.
  destruct (i_fresh _ _ _ I0 ltac:(left; unfold engine0; match goal with |- mode (calculateHop E ?s t (Fin 1)) = _ => destruct (calculateHop_fields E s t (Fin 1)) as (-> & _) end; done)) as (B1 & _ & B3 & _ & _ & _ & B7 & B8 & _).
  assert (U : unpitched (engine0 RS E t (Fin 1))).
  { unfold engine0, calculateHop, sanitise, unpitched. destruct (positiveOr1 t); reflexivity. }
  destruct (run_all RS E m c l 0 _ s a Z0 F Er Hc Ho I0 ltac:(split; [done|]; unfold made; by rewrite B1, B3) Hr) as [A1 A2].
  destruct (run_calm RS E m c l 0 _ s a Z0 F ltac:(done) Hc Ho Hp I0 U Hr) as [_ L].
  pose proof (i_account _ _ _ (run_idle RS E m c l 0 _ s a Z0 F Hc Ho I0 Hr)) as (_ & _ & A3). specialize (A3 A1). rewrite L, B8 in A3. lia.
Qed.
Print Assumptions C65_finer_partial.
Example C65_finer_example : session true false false false 44100 256 (Fin (5 # 4)) (Fin 1) [Process 100000 false; Retrieve 77; TimeRatio (Fin 1); Process 50000 true; Retrieve 100] (fun s a => (a, outFill s, made s)) = Some (177, 178040, 178217).
Proof. vm_compute. reflexivity. Qed.
(** C65 is false of the finer engine: at a pitch scale of 0.4, a caller who retrieves after one
    block of 200000 gets 126 frames fewer than were made; one who retrieves every 1000, all. *)
Theorem C65_finer_refuted :
  session true false false false 44100 (147454 # 1000) (Fin 1) (Fin (2 # 5)) [Process 200000 false; Retrieve 1000000] (fun s a => made s - a) = Some 126 /\
  session true false false false 44100 (147454 # 1000) (Fin 1) (Fin (2 # 5)) (mjoin (replicate 200 [Process 1000 false; Retrieve 1000000])) (fun s a => made s - a) = Some 0.
Proof. split; vm_compute; reflexivity. Qed.
Print Assumptions C65_finer_refuted.

(** C73, a real-time stream with the pitch unchanged and a ratio that makes the input hop a whole
    number of output frames (as every whole ratio does): the total does not depend on the blocks
    or the retrievals.  Missing: other ratios, refuted next. *)
Theorem C73_blocks_partial : forall {R} (RS : resampler R) sh hq r cv E t l s a o, newShape true sh false hq r cv = Some E -> fair RS ->
  (forall r q, (q == 1)%Q -> (reff RS r q == 1)%Q) -> (0 < t)%Q -> (inject_Z o == inject_Z (inhopFor E (t * 1)) * t)%Q ->
  Forall counts l -> Forall streaming l -> run RS E (engine0 RS E (Fin t) (Fin 1)) l = Some (s, a) ->
  a + outFill s = o * frames (windowSource E) (inhopFor E (t * 1)) (given l).
Proof. intros * H F Hq Ht Ho Hc Hs Hr. destruct (shaped _ _ _ _ _ _ _ H) as (m & c & Z0 & Er & _ & Eh & _). exact (stream_total RS E m c t l s a o Z0 F Hq Er Eh Ht Ho Hc Hs Hr). Qed.
Print Assumptions C73_blocks_partial.
Example C73_example : exists E, newShape true false false false 44100 (fun _ => 326%Q) = Some E /\ inhopFor E (2 * 1) = 163 /\ frames (windowSource E) 163 20000 = 98 /\
  session true false false false 44100 326 (Fin 2) (Fin 1) [Process 20000 false; Retrieve 5] (fun s a => a + outFill s) = Some (326 * 98) /\
  session true false false false 44100 326 (Fin 2) (Fin 1) (replicate 200 (Process 100 false)) (fun s a => a + outFill s) = Some (326 * 98).
Proof. eexists. split; [vm_compute; reflexivity|]. split_and!; vm_compute; reflexivity. Qed.
(** C73 is false: the output hop is chosen once per block, so that at eight kilohertz and ratio
    1.15 a second and a half given at once makes 20601 frames, and in blocks of 100, 20683. *)
Theorem C73_blocks_refuted :
  session true false false false 8000 256 (Fin (23 # 20)) (Fin 1) [Process 20000 false] (fun s a => (a + outFill s, length (trail s))) = Some (20601, 327%nat) /\
  session true false false false 8000 256 (Fin (23 # 20)) (Fin 1) (replicate 200 (Process 100 false)) (fun s a => (a + outFill s, length (trail s))) = Some (20683, 327%nat).
Proof. split; vm_compute; reflexivity. Qed.
Print Assumptions C73_blocks_refuted.

(** C74, over every list of calls with a combined ratio, at each block, of at most the longest
    preferred output hop: all of them return, and no frame overruns the accumulator.  Missing:
    higher ratios, C41. *)
Theorem C74_returns_partial : forall {R} (RS : resampler R) rt sh hc hq r cv E t p l, newShape rt sh hc hq r cv = Some E -> fair RS ->
  Forall counts l -> moderate RS E (engine0 RS E t p) l -> is_Some (run RS E (engine0 RS E t p) l).
Proof. intros * H F Hc Hm. destruct (shaped _ _ _ _ _ _ _ H) as (m & c & Z0 & _). exact (run_some RS E m c l 0 _ Z0 F Hc (engine0_idle RS E m c t p Z0) Hm). Qed.
Print Assumptions C74_returns_partial.
Example C74_example : exists E, newShape true false false false 44100 (fun _ => 256%Q) = Some E /\ moderate plain E (engine0 plain E (Fin 2) (Fin (5 # 4))) [Process 6000 false; TimeRatio (Inf true); Process 6000 true; Reset] /\
  session true false false false 44100 256 (Fin 2) (Fin (5 # 4)) [Process 6000 false; TimeRatio (Inf true); Process 6000 true; Reset] (fun s a => (timeRatio s, pitchScale s)) = Some (1%Q, 1%Q).
Proof.
  eexists. split; [vm_compute; reflexivity|]. split; [|vm_compute; reflexivity].
  split; [vm_compute; discriminate|]. intros s a Hs. vm_compute in Hs. injection Hs as <- <-. split; [done|]. intros s a Hs. vm_compute in Hs. injection Hs as <- <-.
  split; [vm_compute; discriminate|]. intros s a Hs. split; [done|]. done.
Qed.
