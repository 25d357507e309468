(** Property C77: what a channel plays in real time is a fixed function of what all
    channels are given. *)
From stdpp Require Import prelude.
From Coq Require Import ZArith QArith Qround Lia Lqa.
From Verif Require Import Base.Arith Faster.Model Faster.Core Faster.Chunks Faster.Stream Faster.Count Faster.OlaSpec Faster.Ola Faster.VocoderSpec Faster.Vocoder
  Faster.RealTimeRuns Faster.RealTime Faster.RealTimeCalls Faster.StreamProps Faster.RealTimeProps Faster.RtVocoderSpec Faster.RtVocoder.
From stdpp Require Import list.
Local Open Scope Z_scope.

Section Props.
Context {A S R K : Type} (D : dsp A S R K).
Notation chan := (channel A S R).

(** The hypotheses: channels as construction or reset() leaves them. *)
Definition started P cap (e : engine A S R K) : Prop := opened P cap e /\ Forall (blank D P) (chans e).

Lemma started_playing P cap (e : engine A S R K) : sane D P -> 0 <= startSkip P -> started P cap e ->
  playing D P cap 0 (calc e) (spec <$> chans e) (fun _ => []) (fun _ => []) 0 e.
Proof.
  intros HP Hsk [(Hall & Hne & Hf) Hbl]. pose proof (sane_incr _ _ HP). pose proof (sane_window _ _ HP). constructor; try done.
  exists []. split; [done|]. intros i c Hc. rewrite Forall_lookup in Hall, Hbl. destruct (Hall i c Hc) as ([] & Hw & Hk). destruct (Hbl i c Hc).
  constructor; try done; try lia.
  - constructor; [done| |lia|lia]. split; [|done]. rewrite idle_out, (@zlen_nil A).
    pose proof (need_mono P 0 (window P) (sane_pitch _ _ HP) ltac:(lia)). 
    enough (0 <= need P 0) by lia. unfold need. destruct (Qeq_bool _ _); [done|].
    assert (Qfloor (inject_Z 0 / pitchScale P) = 0) as ->; [|done]. unfold Qdiv. change (inject_Z 0) with 0%Q.
    rewrite (Qfloor_comp _ 0%Q); [done|]. ring.

  - constructor; [done| | |by constructor|by constructor].
    + intros j Hj. rewrite bl_acc. rewrite getZ_replicate by (unfold zlen in *; lia). done.
    + intros j Hj. rewrite bl_wacc, zlen_cons, zlen_replicate in Hj. rewrite bl_wacc.
      change (one D :: ?l) with ([one D] ++ l). rewrite getZ_app. change (zlen [one D]) with 1. change (span (framesOf P i [])) with 0.
      destruct (Z.ltb_spec j 1), (Z.eqb_spec (0 + j) 0) as [Hz|Hz]; try lia; [by replace j with 0 by lia|]. rewrite getZ_replicate by lia. done.
  - split; [|rewrite idle_outCount, idle_out; symmetry; apply zlen_0; rewrite zlen_firstn; lia].
    rewrite idle_outCount. unfold capped, theo. rewrite idle_size. done.
Qed.

Lemma heard_next P k ss x n i : sane D P -> calm D (window P) -> exists tail, heard D P k ss x (Datatypes.S n) i = heard D P k ss x n i ++ tail.
Proof.
  intros HP HC. unfold heard. cbn [played].
  assert (Hpos : let '(cs, _, _) := played D P k ss x n in 0 <= span (framesOf P i cs) /\ span (weightsOf D P cs) = span (framesOf P i cs)).
  { induction n as [|n IH]; [done|]. cbn [played]. destruct (played D P k ss x n) as [[cs k1] ss1].
    set (sp := imap _ ss1). pose proof (HC k1 (snd <$> sp)) as Hsi. destruct (calculate D k1 _) as [[[p si] reset] k2].
    rewrite framesOf_app, weightsOf_app, !span_app. destruct IH as [IH1 IH2].
    replace (span (framesOf P i [Chunk _ si])) with si by (unfold span; cbn; lia).
    replace (span (weightsOf D P [Chunk _ si])) with si by (unfold span; cbn; lia). lia. }
  destruct (played D P k ss x n) as [[cs k1] ss1]. destruct Hpos as [Hpos Hsp].
  set (sp := imap _ ss1). pose proof (HC k1 (snd <$> sp)) as Hsi. destruct (calculate D k1 _) as [[[p si] reset] k2].
  rewrite framesOf_app, weightsOf_app, !span_app, !ola_from, !layout_app.
  replace (span (framesOf P i [Chunk _ si])) with si by (unfold span; cbn; lia). rewrite olaFrom_add by lia.
  cbn [framesOf weightsOf fmap list_fmap layout frames hop]. rewrite !Z.add_0_l, Hsp. 
  change (framesOf P i [Chunk ?a si]) with [(take (Z.to_nat (window P)) (default [] (a !! i)), si)]. cbn [layout].
  rewrite olaFrom_later by done. eexists. reflexivity.
Qed.
Lemma heard_prefix P k ss x n m i : sane D P -> calm D (window P) -> (n <= m)%nat -> heard D P k ss x n i `prefix_of` heard D P k ss x m i.
Proof.
  intros HP HC. induction 1 as [|m _ IH]; [done|]. etransitivity; [exact IH|]. destruct (heard_next P k ss x m i HP HC) as [t ->]. by exists t.
Qed.
End Props.

(** C77: until the final block, what each channel has delivered and holds ready is what the
    plain function gives of the first [m] chunks, where [m] chunks are complete in the
    input; and all complete chunks have been processed if the blocks are never longer than
    the increment. *)
Theorem C77_realtime_plain_vocoder : forall {A S R K} (D : dsp A S R K) P cap e cs,
  sane D P -> calm D (window P) -> before P = false -> after P = false -> 0 <= startSkip P -> window P <= cap ->
  started D P cap e -> Forall (fits (length (chans e))) cs -> ended cs = false ->
  exists rs e' m, rtCalls D P e cs = Some (rs, e') /\ length (chans e') = length (chans e) /\
    Z.of_nat m <= windows P (zlen (given cs 0)) /\
    (Forall (small (increment P)) cs -> Z.of_nat m = windows P (zlen (given cs 0))) /\
    forall i c, chans e' !! i = Some c ->
      returned rs i ++ outbuf c = skipn_z (startSkip P) (heard D P (calc e) (spec <$> chans e) (given cs) m i).
Proof.
  intros A S R K D P cap e cs HP HC Hb Haf Hsk Hcap Hst Hfit Hend.
  pose proof (sane_incr _ _ HP) as Hinc. pose proof (sane_window _ _ HP) as Hwin.
  destruct (C29_realtime_every_block_taken D P cap e cs HP HC Hb Hcap (proj1 Hst) Hfit) as (rs & e' & j & E & _ & Hlen & _).
  assert (Hfd : Forall feeds cs).
  { clear -Hend. induction cs as [|a cs IH]; [done|]. destruct a; cbn in *; try done; constructor; try done; by apply IH. }
  destruct (calls_playing D P cap (calc e) (spec <$> chans e) HP Hb Haf Hsk HC Hcap cs 0 0 (fun _ => []) (fun _ => []) 0 e rs e')
    as (m & L & G & _ & Hl & HLG & HT & Hlow); try done.
  { by rewrite fmap_length. } { by apply started_playing. } { lia. }
  exists rs, e', m. split; [done|]. split; [done|]. cbn [app] in *.
  assert (Hne : chans e <> []) by apply (proj1 Hst). assert (Hne' : (0 < length (chans e))%nat) by (destruct (chans e); [done|cbn; lia]).
  assert (HL : zlen (given cs 0) = L) by (apply (HLG 0%nat); by rewrite fmap_length). rewrite HL.
  destruct HT as [P1 P2 (q & Hq & P3)].
  assert (Hm : (0 < m)%nat -> (Z.of_nat m - 1) * increment P + window P <= L).
  { destruct (chans e') as [|c0 ?]; [done|]. apply (pl_len _ _ _ _ _ _ _ _ _ _ (P3 0%nat c0 eq_refl)). }
  assert (HL0 : 0 <= L) by (rewrite <- HL; apply zlen_nonneg).
  split; [|split].
  - unfold windows. destruct m as [|m]; [destruct (Z.ltb_spec L (window P)); [done|]; pose proof (Z.div_pos (L - window P) (increment P)); lia|].
    specialize (Hm ltac:(lia)). destruct (Z.ltb_spec L (window P)); [nia|].
    enough (Z.of_nat m <= (L - window P) / increment P) by lia. apply Z.div_le_lower_bound; lia.
  - intros Hs. specialize (Hlow Hs ltac:(lia)). unfold windows.
    destruct (Z.ltb_spec L (window P)).
    + destruct m as [|m]; [done|]. specialize (Hm ltac:(lia)). nia.
    + destruct m as [|m]; [lia|]. specialize (Hm ltac:(lia)).
      enough (Z.of_nat m = (L - window P) / increment P) by lia. apply (Z.div_unique _ _ _ (L - window P - increment P * Z.of_nat m)); lia.
  - intros i c Hc. destruct (P3 i c Hc) as [? ? Hsz ? ? ? ? ? HO ? [T1 T2]]. rewrite T2. unfold heard. change (fun i => given cs i) with (given cs) in Hq. rewrite Hq, ola_from.
    pose proof (ao_pos _ _ _ _ _ HO) as Hpos. unfold theo, capped in T1. rewrite Hsz in T1. change (0 <? 0) with false in T1. cbv iota in T1.
    rewrite zlen_olaFrom in T1 by done. rewrite T1. set (y := olaFrom _ _ _ _ _).
    assert (Hy : zlen y = span (framesOf P i q)) by (apply zlen_olaFrom; done). apply take_ge. unfold skipn_z. rewrite drop_length. unfold zlen in Hy. lia.
Qed.
Print Assumptions C77_realtime_plain_vocoder.

(** So the sizes of the blocks and the moments of retrieval only decide how far ahead the
    output is: of two ways of giving the same input, one has just played on further. *)
Theorem C77_block_sizes_immaterial : forall {A S R K} (D : dsp A S R K) P cap e cs1 cs2,
  sane D P -> calm D (window P) -> before P = false -> after P = false -> 0 <= startSkip P -> window P <= cap ->
  started D P cap e -> Forall (fits (length (chans e))) cs1 -> Forall (fits (length (chans e))) cs2 -> ended cs1 = false -> ended cs2 = false ->
  (forall i, given cs1 i = given cs2 i) ->
  exists rs1 e1 rs2 e2, rtCalls D P e cs1 = Some (rs1, e1) /\ rtCalls D P e cs2 = Some (rs2, e2) /\
    ((forall i c1 c2, chans e1 !! i = Some c1 -> chans e2 !! i = Some c2 -> (returned rs1 i ++ outbuf c1) `prefix_of` (returned rs2 i ++ outbuf c2)) \/
     (forall i c1 c2, chans e1 !! i = Some c1 -> chans e2 !! i = Some c2 -> (returned rs2 i ++ outbuf c2) `prefix_of` (returned rs1 i ++ outbuf c1))) /\
    (Forall (small (increment P)) cs1 -> Forall (small (increment P)) cs2 ->
     forall i c1 c2, chans e1 !! i = Some c1 -> chans e2 !! i = Some c2 -> returned rs1 i ++ outbuf c1 = returned rs2 i ++ outbuf c2).
Proof.
  intros A S R K D P cap e cs1 cs2 HP HC Hb Haf Hsk Hcap Hst Hf1 Hf2 He1 He2 Hg.
  destruct (C77_realtime_plain_vocoder D P cap e cs1 HP HC Hb Haf Hsk Hcap Hst Hf1 He1) as (rs1 & e1 & m1 & E1 & _ & _ & A1 & B1).
  destruct (C77_realtime_plain_vocoder D P cap e cs2 HP HC Hb Haf Hsk Hcap Hst Hf2 He2) as (rs2 & e2 & m2 & E2 & _ & _ & A2 & B2).
  exists rs1, e1, rs2, e2. split; [done|]. split; [done|].
  assert (Hh : forall n i, heard D P (calc e) (spec <$> chans e) (given cs1) n i = heard D P (calc e) (spec <$> chans e) (given cs2) n i).
  { intros n i. unfold heard. by rewrite (played_ext D P _ _ (given cs1) (given cs2) n Hg). }
  assert (Hdrop : forall n (a b : list A), a `prefix_of` b -> skipn_z n a `prefix_of` skipn_z n b).
  { intros n a b [t ->]. unfold skipn_z. rewrite skipn_app. by eexists. }
  split.
  - destruct (Nat.le_ge_cases m1 m2) as [H|H]; [left|right]; intros i c1 c2 Hc1 Hc2; rewrite (B1 i c1 Hc1), (B2 i c2 Hc2), Hh; apply Hdrop; by apply heard_prefix.
  - intros S1 S2 i c1 c2 Hc1 Hc2. rewrite (B1 i c1 Hc1), (B2 i c2 Hc2), Hh. do 2 f_equal. specialize (A1 S1). specialize (A2 S2). rewrite Hg in A1. lia.
Qed.
Print Assumptions C77_block_sizes_immaterial.

(** Two channels, window 8, increment 2; the same 35 samples in blocks of 35 and in pieces. *)
Example C77_case :
  let D := plainDsp 8 in let P := rtParams 8 2 in let e := rtEngine 2 8 8 in
  let cs1 := [Feed (stereo (seqZ 1 35))] in
  let cs2 := [Feed (stereo (seqZ 1 2)); Feed (stereo (seqZ 3 9)); Take 1; Feed (stereo []); Feed (stereo (seqZ 12 24)); Available; Take 5] in
  (sane D P /\ calm D (window P) /\ before P = false /\ after P = false /\ 0 <= startSkip P /\ window P <= 8 /\ started D P 8 e /\
   Forall (fits (length (chans e))) cs1 /\ Forall (fits (length (chans e))) cs2 /\ ended cs1 = false /\ ended cs2 = false /\ (forall i, given cs1 i = given cs2 i)) /\
  (fun x => (fun c => outbuf c) <$> chans (snd x)) <$> rtCalls D P e cs1 = (fun x => imap (fun i c => returned (fst x) i ++ outbuf c) (chans (snd x))) <$> rtCalls D P e cs2 /\
  (fun x => (fun c => length (outbuf c)) <$> chans (snd x)) <$> rtCalls D P e cs1 = Some [28%nat; 28%nat].
Proof.
  split; [|split; vm_compute; reflexivity].
  split; [by apply rt_sane|]. split; [by apply rt_calm|]. split; [done|]. split; [done|]. split; [vm_compute; done|]. split; [done|].
  split. { split; [by apply rt_opened|]. apply Forall_replicate. by constructor. }
  split; [repeat constructor; cbn [fits]; try done; apply stereo_fits|].
  split; [repeat constructor; cbn [fits]; try done; apply stereo_fits|]. split; [done|]. split; [done|].
  intros [|[|i]]; reflexivity.
Qed.
