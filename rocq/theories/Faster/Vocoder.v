(** The streaming machine computes the plain vocoder function. *)
From stdpp Require Import prelude.
From Coq Require Import ZArith QArith Qround Lia Lqa.
From Verif Require Import Base.Arith Faster.Model Faster.Core Faster.Chunks Faster.Stream Faster.Count Faster.OlaSpec Faster.Ola Faster.VocoderSpec Faster.Runs Faster.RunsProofs.
Local Open Scope Z_scope.

Section Vocoder.
Context {A S R K : Type} (D : dsp A S R K).
Notation chan := (channel A S R).
Implicit Types (P : params) (c d e : chan) (F G : list (Z * list A)).
Notation sane := (sane D).

(** ** One chunk *)
Lemma writeOutput_spec P c x th : spec (writeOutput P c x th) = spec c /\ fltbuf (writeOutput P c x th) = fltbuf c.
Proof. unfold writeOutput. repeat case_match; done. Qed.
Lemma writeChunk_spec P c si last d : writeChunk D P c si last = Some d -> spec d = spec c /\ fltbuf d = fltbuf c.
Proof.
  intros E. unfold writeChunk in E.
  destruct (v_zip (quot D) (acc c) (wacc c) si) as [a|]; [|done]. change (Some a ≫= ?f) with (f a) in *. cbv beta in *.
  destruct (v_shift D a (fill c) si) as [a'|]; [|done]. change (Some a' ≫= ?f) with (f a') in *. cbv beta in *.
  destruct (v_shift D (wacc c) (fill c) si) as [w'|]; [|done]. change (Some w' ≫= ?f) with (f w') in *. cbv beta in *.
  injection E as <-.
  destruct (after P).
  - destruct (resample D _ _ _ _ _) as [o r]. pose proof (writeOutput_spec P (set_rsm c r (Z.max (rbSize c) (cceil (inject_Z si / pitchScale P)))) o (theo P c)) as [H1 H2].
    destruct (si <? fill c), (draining c); done.
  - pose proof (writeOutput_spec P c (firstn_z si a) (theo P c)) as [H1 H2]. destruct (si <? fill c), (draining c); done.
Qed.

Lemma pcfc_acc P c p si reset l d pos F G : sane P -> wf P c -> capok P c -> 0 <= si <= window P -> after P = false ->
  draining c = false -> accOK D c pos F G ->
  processChunkForChannel D P c p si reset = Some (l, d) ->
  let r := modify D (spec c) (fltbuf c) p reset si in
  let F' := F ++ [(pos, firstn_z (window P) (fst r))] in
  let G' := G ++ [(pos, firstn_z (window P) (shape D si))] in
  accOK D d (pos + si) F' G' /\ spec d = snd r /\ zlen (fltbuf d) = zlen (fltbuf c) /\
  outbuf d = outbuf c ++ fst (emit P (outCount c) (olaFrom D F' G' pos si) (theo P c)) /\
  outCount d = snd (emit P (outCount c) (olaFrom D F' G' pos si) (theo P c)).
Proof.
  intros HP Hc Hk Hsi Haf Hdr HO E r F' G'. unfold processChunkForChannel in E. rewrite Hdr in E.
  destruct (synthesise D P c p si reset) as [c1|] eqn:Es; [|done]. change (Some ?x ≫= ?f) with (f x) in E. cbv beta in E.
  pose proof (synthesise_acc D P c p si reset c1 pos F G HP Hc HO Es) as HO1. fold r F' G' in HO1.
  destruct (synthesise_ok D P c p si reset HP Hc) as (c1' & Es' & Hw1 & Hs1 & Hf1 & Ho1 & Hk1 & Hn1 & Hcm1 & Hch1).
  rewrite Es in Es'. injection Es' as <-.
  assert (Hsp : spec c1 = snd r /\ zlen (fltbuf c1) = zlen (fltbuf c)).
  { unfold synthesise in Es. fold r in Es. pose proof (sane_modify _ _ HP (spec c) (fltbuf c) p reset si) as Hm. fold r in Hm.
    pose proof (sane_shape _ _ HP si). pose proof (wf_flt _ _ Hc). pose proof (sane_incr _ _ HP). pose proof (sane_window _ _ HP).
    destruct r as [f s]. cbn [fst snd] in *.
    destruct (v_zip (add D) (acc c) f (window P)) as [a|]; [|done]. change (Some a ≫= ?f) with (f a) in *. cbv beta in *.
    destruct (v_zip (add D) (wacc c) (shape D si) (window P)) as [w|]; [|done]. change (Some w ≫= ?f) with (f w) in *. cbv beta in *.
    injection Es as <-. cbn [spec fltbuf set_acc set_flt]. split; [done|].
    destruct (smoothing P); [|done]. rewrite zlen_app, zlen_firstn, zlen_skipn. lia. }
  unfold drainShift in E. rewrite (same_drain _ _ Hs1), Hdr in E. fold (need P si) in E.
  match type of E with context [writeChunk D P ?x si false] => set (c2 := x) in E end.
  destruct (writeChunk D P c2 si false) as [c3|] eqn:Ew; [|done]. change (Some ?x ≫= ?f) with (f x) in E. cbv beta iota in E.
  injection E as <- <-.
  pose proof (need_mono P si (window P) (sane_pitch _ _ HP) ltac:(lia)) as Hm. pose proof (zlen_nonneg (outbuf c1)).
  destruct Hk as [Hcap1 Hcap2].
  assert (H2 : wf P c2 /\ fill c2 = fill c1 /\ outbuf c2 = outbuf c /\ outCount c2 = outCount c /\ inputSize c2 = inputSize c /\
    need P si <= outCap c2 - zlen (outbuf c2) /\ accOK D c2 pos F' G' /\ spec c2 = spec c1 /\ fltbuf c2 = fltbuf c1).
  { unfold c2. destruct (Z.ltb_spec (outCap c1 - zlen (outbuf c1)) (need P si)).
    - split; [by destruct Hw1|]. cbn [outbuf outCap outCount fill inputSize set_outCap].
      rewrite Ho1, Hk1 in *. split; [done|]. split; [done|]. split; [done|]. split; [apply Hs1|]. split; [lia|]. split; [by destruct HO1|done].
    - rewrite Ho1, Hk1 in *. split; [done|]. split; [done|]. split; [done|]. split; [done|]. split; [apply Hs1|]. split; [lia|done]. }
  clearbody c2. destruct H2 as (Hw2 & Hf2 & Ho2 & Hn2 & Hi2 & Hroom & HO2 & Hsp2 & Hfl2).
  destruct (writeChunk_out D P c2 si false c3 pos F' G' HP Hw2 Haf ltac:(lia) ltac:(lia) Hroom HO2 Ew) as (J1 & J2 & J3).
  destruct (writeChunk_spec P c2 si false c3 Ew) as [J4 J5].
  assert (Et : theo P c2 = theo P c) by (unfold theo; by rewrite Hi2).
  split; [done|]. split; [rewrite J4, Hsp2; apply Hsp|]. split; [rewrite J5, Hfl2; apply Hsp|].
  rewrite J2, J3, Ho2, Hn2, Et. done.
Qed.

Lemma shiftAt_advance P c k : chunkOf P c = entry P k ->
  phaseAt P (chunkOf P c) = phaseAdvance P k /\ shiftAt P (chunkOf P c) = advance P k /\ resetAt P (chunkOf P c) = startsAfresh P k.
Proof. intros ->. done. Qed.

Lemma processChunk_acc P c k l d pos F G : sane P -> wf P c -> capok P c -> 0 <= chunkCount c -> after P = false ->
  draining c = false -> zlen (fltbuf c) = window P -> window P <= zlen (inbuf c) -> chunkOf P c = entry P k -> advance P k <= window P ->
  accOK D c pos F G -> processChunk D P c = Some (l, d) ->
  let '(sp, s1) := analyse D (spec c) (firstn_z (window P) (inbuf c)) in
  let r := modify D s1 sp (phaseAdvance P k) (startsAfresh P k) (advance P k) in
  let F' := F ++ [(pos, firstn_z (window P) (fst r))] in
  let G' := G ++ [(pos, firstn_z (window P) (shape D (advance P k)))] in
  accOK D d (pos + advance P k) F' G' /\ spec d = snd r /\ zlen (fltbuf d) = window P /\
  outbuf d = outbuf c ++ fst (emit P (outCount c) (olaFrom D F' G' pos (advance P k)) (theo P c)) /\
  outCount d = snd (emit P (outCount c) (olaFrom D F' G' pos (advance P k)) (theo P c)).
Proof.
  intros HP Hc Hk Hch Haf Hdr Hfl Hin Hent Hadv HO E.
  pose proof (sane_incr _ _ HP) as Hinc. pose proof (sane_window _ _ HP) as Hwin.
  unfold processChunk in E. rewrite Hdr in E.
  destruct (peekChunk_ok P c Hc) as (c0 & f & E0 & Ec0 & Hf & Ef). rewrite E0 in E. change (Some ?x ≫= ?f) with (f x) in E. cbv beta in E.
  replace (Z.min (zlen (inbuf c)) (window P)) with (window P) in Ef by lia.
  rewrite (skipn_z_all _ (fltbuf c)), app_nil_r in Ef by lia.
  assert (Hch0 : chunkCount c0 = chunkCount c) by (by rewrite Ec0).
  destruct (getIncrements_get P c0 ltac:(lia)) as (got & Eg). rewrite Eg in E. change (Some ?x ≫= ?f) with (f x) in E. cbv beta iota in E.
  assert (Hent0 : chunkOf P c0 = entry P k) by (unfold chunkOf in *; by rewrite Hch0).
  destruct (shiftAt_advance P c0 k Hent0) as (H1 & H2 & H3). rewrite H1, H2, H3 in E.
  assert (Hfl0 : fltbuf (set_chunk c0 (chunkOf P c0)) = firstn_z (window P) (inbuf c)) by (rewrite Ec0; cbn; done).
  assert (Hsp0 : spec (set_chunk c0 (chunkOf P c0)) = spec c) by (by rewrite Ec0).
  rewrite Hfl0, Hsp0 in E.
  pose proof (sane_analyse _ _ HP (spec c) (firstn_z (window P) (inbuf c))) as Han.
  rewrite zlen_firstn in Han.
  destruct (analyse D _ _) as [sp s1]. cbn [fst] in Han. rewrite (proj2 (Z.leb_le _ _)) in E by lia.
  set (c1 := set_flt (set_chunk c0 (chunkOf P c0)) sp s1) in E.
  assert (Hsi : 0 <= advance P k) by (rewrite <- H2; apply shiftAt_nonneg; lia).
  destruct (processChunkForChannel D P c1 _ _ _) as [[l1 e]|] eqn:Ee; [|done].
  change (Some ?x ≫= ?f) with (f x) in E. cbv beta iota in E. injection E as <- <-.
  assert (HO1 : accOK D c1 pos F G) by (unfold c1; rewrite Ec0; destruct HO; by constructor).
  assert (Hw1 : wf P c1).
  { clear -Hc Han Hin Hinc Hwin Ec0 Hfl. subst c0 c1. destruct Hc. constructor; cbn [fltbuf acc wacc fill set_flt set_in set_chunk]; lia. }
  assert (Hk1 : capok P c1) by (unfold c1; by rewrite Ec0).
  assert (Hd1 : draining c1 = false) by (unfold c1; by rewrite Ec0).
  destruct (pcfc_acc P c1 _ _ _ l1 e pos F G HP Hw1 Hk1 (conj Hsi Hadv) Haf Hd1 HO1 Ee) as (J1 & J2 & J3 & J4 & J5).
  change (spec c1) with s1 in *. change (fltbuf c1) with sp in *.
    assert (Et : theo P c1 = theo P c) by (unfold c1; rewrite Ec0; done).
    assert (Eo : outbuf c1 = outbuf c) by (unfold c1; rewrite Ec0; done).
    assert (En : outCount c1 = outCount c) by (unfold c1; rewrite Ec0; done).
    rewrite Et, Eo, En in *. split; [by destruct J1|]. split; [done|]. split; [cbn; lia|]. done.
Qed.

(** ** The plain function, one chunk more *)
Lemma layout_app (pos : Z) (fs gs : list (list A * Z)) : layout pos (fs ++ gs) = layout pos fs ++ layout (pos + span fs) gs.
Proof.
  revert pos. induction fs as [|[f n] fs IH]; intros pos; cbn [app layout].
  - unfold span. cbn. by rewrite Z.add_0_r.
  - rewrite IH. replace (span ((f, n) :: fs)) with (n + span fs) by done. by rewrite Z.add_assoc.
Qed.
Lemma span_app (fs gs : list (list A * Z)) : span (fs ++ gs) = span fs + span gs.
Proof. unfold span. rewrite fmap_app. induction (snd <$> fs) as [|x l IH]; [done|].
  change (sumZ ((x :: l) ++ ?m)) with (x + sumZ (l ++ m)). change (sumZ (x :: l)) with (x + sumZ l). lia. Qed.

Lemma vocoder_snoc P stream n : forall s k fs ws s', vocoder D P s stream k n = (fs, ws, s') ->
  let '(sp, s1) := analyse D s' (firstn_z (window P) (skipn_z ((k + Z.of_nat n) * increment P) stream)) in
  let si := advance P (k + Z.of_nat n) in
  let r := modify D s1 sp (phaseAdvance P (k + Z.of_nat n)) (startsAfresh P (k + Z.of_nat n)) si in
  vocoder D P s stream k (Datatypes.S n) =
    (fs ++ [(firstn_z (window P) (fst r), si)], ws ++ [(firstn_z (window P) (shape D si), si)], snd r).
Proof.
  induction n as [|n IH]; intros s k fs ws s' E.
  - cbn in E. injection E as <- <- <-. rewrite Z.add_0_r. cbn [vocoder]. unfold firstn_z, skipn_z.
    destruct (analyse D s _) as [sp s1]. destruct (modify D _ _ _ _ _) as [f s2]. done.
  - cbn [vocoder] in E. destruct (analyse D s _) as [sp s1] eqn:Ea. destruct (modify D s1 sp _ _ _) as [f s2] eqn:Em.
    destruct (vocoder D P s2 stream (k + 1) n) as [[fs1 ws1] s3] eqn:Ev. injection E as <- <- <-.
    specialize (IH s2 (k + 1) fs1 ws1 s3 Ev). replace (k + 1 + Z.of_nat n) with (k + Z.of_nat (Datatypes.S n)) in IH by lia.
    destruct (analyse D s3 _) as [sp4 s4]. cbv zeta in *. 
    change (vocoder D P s stream k (Datatypes.S (Datatypes.S n))) with
      (let '(spectrum, s) := analyse D s (take (Z.to_nat (window P)) (drop (Z.to_nat (k * increment P)) stream)) in
       let si := advance P k in
       let '(frame, s) := modify D s spectrum (phaseAdvance P k) (startsAfresh P k) si in
       let '(fs, ws, s) := vocoder D P s stream (k + 1) (Datatypes.S n) in
       ((take (Z.to_nat (window P)) frame, si) :: fs, (take (Z.to_nat (window P)) (shape D si), si) :: ws, s)).
    rewrite Ea. cbv zeta iota beta. rewrite Em. cbv iota beta. rewrite IH. done.
Qed.
Lemma vocoder_more P stream b n : 0 <= increment P -> forall s k, 0 <= k -> (0 < Z.of_nat n -> (k + Z.of_nat n - 1) * increment P + window P <= zlen stream) ->
  vocoder D P s (stream ++ b) k n = vocoder D P s stream k n.
Proof.
  intros Hi. induction n as [|n IH]; intros s k Hk Hn; [done|]. cbn [vocoder].
  assert (E : take (Z.to_nat (window P)) (drop (Z.to_nat (k * increment P)) (stream ++ b)) =
              take (Z.to_nat (window P)) (drop (Z.to_nat (k * increment P)) stream)).
  { specialize (Hn ltac:(lia)). pose proof (zlen_nonneg stream). unfold zlen in *.
    destruct (Z.le_gt_cases (window P) 0); [by replace (Z.to_nat (window P)) with 0%nat by lia|].
    assert (k * increment P <= (k + Z.of_nat (Datatypes.S n) - 1) * increment P) by nia.
    rewrite drop_app_le by lia. rewrite take_app_le; [done|]. rewrite drop_length. lia. }
  rewrite E. destruct (analyse D s _) as [sp s1]. destruct (modify D _ _ _ _ _) as [f s2]. rewrite IH; [done|lia|].
  intros. replace (k + 1 + Z.of_nat n - 1) with (k + Z.of_nat (Datatypes.S n) - 1) by lia. apply Hn. lia.
Qed.

(** ** Over the stream *)
Lemma olaFrom_add F G pos n m : 0 <= n -> 0 <= m -> olaFrom D F G pos (n + m) = olaFrom D F G pos n ++ olaFrom D F G (pos + n) m.
Proof.
  intros Hn Hm. apply getZ_ext; [rewrite zlen_app, !zlen_olaFrom by lia; lia|]. rewrite zlen_olaFrom by lia. intros i Hi.
  rewrite getZ_app, zlen_olaFrom by lia. destruct (Z.ltb_spec i n); [by rewrite !getZ_olaFrom by lia|].
  rewrite !getZ_olaFrom by lia. by replace (pos + n + (i - n)) with (pos + i) by lia.
Qed.
Lemma olaFrom_later F G pos (f w : list A) : 0 <= pos -> olaFrom D (F ++ [(pos, f)]) (G ++ [(pos, w)]) 0 pos = olaFrom D F G 0 pos.
Proof.
  intros Hp. apply getZ_ext; [by rewrite !zlen_olaFrom by lia|]. rewrite zlen_olaFrom by lia. intros i Hi.
  rewrite !getZ_olaFrom by lia. rewrite !sumAt_app. unfold sumAt at 1 3. cbn [foldl]. by rewrite !(getZ_out _ (0 + i - pos)) by lia.
Qed.
Lemma ola_from F G n : ola (add D) (zero D) (one D) (quot D) F G n = olaFrom D F G 0 n.
Proof. unfold ola, olaFrom. rewrite <- list_fmap_compose. apply list_fmap_ext. done. Qed.

(** The state after [m] chunks of [stream]. *)
Record tracks P (s0 : S) (stream gone : list A) (m : nat) c : Prop := Tracks {
  tr_inv : inv P c; tr_flt : zlen (fltbuf c) = window P; tr_size : inputSize c = None; tr_drain : draining c = false;
  tr_chunk : chunkCount c = (if zlen (increments P) =? 0 then Z.of_nat m else Z.min (Z.of_nat m) (zlen (increments P)));
  tr_in : inbuf c = skipn_z (Z.of_nat m * increment P) stream;
  tr_len : (0 < m)%nat -> (Z.of_nat m - 1) * increment P + window P <= zlen stream;
  tr_voc : exists fs ws, vocoder D P s0 stream 0 m = (fs, ws, spec c) /\ 
    accOK D c (span fs) (layout 0 fs) (layout 0 ws) /\ span ws = span fs /\
    streamed P (olaFrom D (layout 0 fs) (layout 0 ws) 0 (span fs)) gone c
}.

Lemma tracks_chunk P s0 stream gone m c l d : sane P -> after P = false -> (forall k, advance P k <= window P) ->
  0 <= startSkip P ->
  tracks P s0 stream gone m c -> window P <= zlen (inbuf c) -> processChunk D P c = Some (l, d) ->
  l = false /\ tracks P s0 stream gone (Datatypes.S m) d.
Proof.
  intros HP Haf Hadv Hsk [Hi Hfl Hsz Hdr Hch Hin Hlen (fs & ws & Hv & HO & Hsp & Hst)] Hrs E.
  pose proof (sane_incr _ _ HP) as Hinc. pose proof (sane_window _ _ HP) as Hwin. pose proof (zlen_nonneg (increments P)) as Hn.
  assert (Hent : chunkOf P c = entry P (Z.of_nat m)).
  { unfold chunkOf, entry. rewrite Hch. destruct (Z.eqb_spec (zlen (increments P)) 0); lia. }
  destruct Hi as [Hw Hk Hc0 Hfw].
  pose proof (processChunk_acc P c (Z.of_nat m) l d _ _ _ HP Hw Hk Hc0 Haf Hdr Hfl Hrs Hent (Hadv _) HO E) as Hacc.
  destruct (processChunk_ok D P c HP Hw Hk Hc0) as (l' & d' & E' & Hwd & Hkd & I1 & I2 & I3 & I4 & I5 & _ & _ & Hnd & _).
  rewrite E in E'. injection E' as <- <-. destruct (Hnd Hdr) as (Hind & -> & Hfd). destruct (Hfd Hfw) as [Hfd1 _]. split; [done|].
  pose proof (vocoder_snoc P stream m s0 0 fs ws (spec c) Hv) as Hv'. rewrite Z.add_0_l in Hv'.
  rewrite <- Hin in Hv'. destruct (analyse D (spec c) _) as [sp s1]. cbv zeta in *.
  set (si := advance P (Z.of_nat m)) in *.
  assert (Hsi : 0 <= si) by (unfold si; destruct (shiftAt_advance P c _ Hent) as (_ & <- & _); apply shiftAt_nonneg; lia).
  set (r := modify D s1 sp _ _ si) in *. clearbody r. destruct Hacc as (J1 & J2 & J3 & J4 & J5).
  set (f := firstn_z (window P) (fst r)) in *. set (w := firstn_z (window P) (shape D si)) in *. clearbody f w si.
  assert (Hlf : layout 0 (fs ++ [(f, si)]) = layout 0 fs ++ [(span fs, f)]) by (rewrite layout_app; done).
  assert (Hlw : layout 0 (ws ++ [(w, si)]) = layout 0 ws ++ [(span fs, w)]) by (rewrite layout_app; cbn [layout]; by rewrite Z.add_0_l, Hsp).
  assert (H1f : span [(f, si)] = si) by (unfold span; cbn; lia). assert (H1w : span [(w, si)] = si) by (unfold span; cbn; lia).
  constructor; try done.
  - constructor; try done. rewrite I5, Hent. unfold entry. destruct (Z.eqb_spec (zlen (increments P)) 0); lia.
  - congruence.
  - congruence.
  - rewrite I5, Hent. unfold entry. destruct (Z.eqb_spec (zlen (increments P)) 0); lia.
  - rewrite Hind, Hin, skipn_z_add by lia. f_equal. lia.
  - intros _. rewrite Hin, zlen_skipn in Hrs. pose proof (zlen_nonneg stream). lia.
  - do 2 eexists. split; [rewrite Hv', <- J2; reflexivity|]. rewrite Hlf, Hlw, !span_app, H1f, H1w, Hsp. split; [done|]. split; [done|].
    pose proof (ao_pos _ _ _ _ _ HO) as Hpos.
    rewrite olaFrom_add by lia. rewrite olaFrom_later by done. rewrite Z.add_0_l.
    apply (stream_emit P c d _ gone _ Hsk); try done.
    intros Ht. unfold theo in Ht. rewrite Hsz in Ht. lia.
Qed.

Lemma tracks_loop P s0 stream gone : sane P -> after P = false -> (forall k, advance P k <= window P) -> 0 <= startSkip P ->
  forall f m c d, tracks P s0 stream gone m c -> processChunks D f P c = Some d ->
  exists m', tracks P s0 stream gone m' d /\ zlen (inbuf d) < window P.
Proof.
  intros HP Haf Hadv Hsk. induction f as [|f IH]; intros m c d HT E; [done|]. cbn [processChunks] in E.
  unfold testInbufReadSpace in E. rewrite (tr_drain _ _ _ _ _ _ HT), (tr_size _ _ _ _ _ _ HT), andb_true_r in E.
  destruct (Z.ltb_spec (zlen (inbuf c)) (window P)).
  - injection E as <-. by exists m.
  - destruct (processChunk D P c) as [[l e]|] eqn:Ee; [|done]. change (Some ?x ≫= ?f) with (f x) in E. cbv beta iota in E.
    destruct (tracks_chunk P s0 stream gone m c l e HP Haf Hadv Hsk HT ltac:(lia) Ee) as [-> HT']. by apply (IH _ _ _ HT').
Qed.

Lemma tracks_more P s0 stream gone m c b n : 0 <= increment P -> tracks P s0 stream gone m c -> zlen stream = Z.of_nat m * increment P + zlen (inbuf c) ->
  tracks P s0 (stream ++ b) gone m (set_in c (inbuf c ++ b) n).
Proof.
  intros Hi [Hinv Hfl Hsz Hdr Hch Hin Hlen (fs & ws & Hv & HO & Hsp & Hst)] Hz. constructor; try done.
  - by apply inv_set_in.
  - cbn. rewrite Hin at 1. rewrite skipn_z_app; [done|]. pose proof (zlen_nonneg (inbuf c)). lia.
  - intros Hm. specialize (Hlen Hm). rewrite zlen_app. pose proof (zlen_nonneg b). lia.
  - exists fs, ws. split; [|by destruct HO]. rewrite vocoder_more by (done || lia). done.
Qed.
Lemma tracks_zlen P s0 stream gone m c : sane P -> tracks P s0 stream gone m c -> zlen stream = Z.of_nat m * increment P + zlen (inbuf c).
Proof.
  intros HP HT. rewrite (tr_in _ _ _ _ _ _ HT), zlen_skipn. pose proof (zlen_nonneg stream).
  pose proof (sane_incr _ _ HP). pose proof (sane_window _ _ HP). destruct m as [|m]; [lia|].
  pose proof (tr_len _ _ _ _ _ _ HT ltac:(lia)). nia.
Qed.

Lemma tracks_feed P s0 gone mid : sane P -> before P = false -> after P = false -> (forall k, advance P k <= window P) -> 0 <= startSkip P ->
  forall f stream m c input d, tracks P s0 stream gone m c -> feed D f P c input mid false = Some d ->
  exists m', tracks P s0 (stream ++ input) gone m' d /\ zlen (inbuf d) < window P.
Proof.
  intros HP Hb Haf Hadv Hsk. pose proof (sane_incr _ _ HP) as Hinc.
  induction f as [|f IH]; intros stream m c input d HT E; [done|]. cbn [feed] in E.
  unfold consumeChannel in E. rewrite Hb in E. rewrite andb_false_r in E.
  set (n := Z.min (inCap c - zlen (inbuf c)) (zlen input)) in E.
  destruct (processChunks D _ P _) as [e|] eqn:Ee; [|done]. change (Some ?x ≫= ?f) with (f x) in E. cbv beta in E.
  pose proof (tracks_more P s0 stream gone m c (firstn_z n input) (inCount c + n) ltac:(lia) HT (tracks_zlen _ _ _ _ _ _ HP HT)) as HT1.
  destruct (tracks_loop P s0 _ gone HP Haf Hadv Hsk _ _ _ _ HT1 Ee) as (m' & HT' & Hlt).
  destruct (Z.eqb_spec (zlen (skipn_z n input)) 0) as [Hz|Hz].
  - injection E as <-. exists m'. apply zlen_0 in Hz. rewrite <- (firstn_skipn_z n input), Hz, app_nil_r. done.
  - destruct (IH _ _ _ _ _ HT' E) as (m2 & HT2 & Hlt2). exists m2. split; [|done].
    by rewrite <- app_assoc, firstn_skipn_z in HT2.
Qed.

Lemma tracks_calls P s0 : sane P -> before P = false -> after P = false -> (forall k, advance P k <= window P) -> 0 <= startSkip P ->
  forall cs stream gone m c out d, tracks P s0 stream gone m c -> zlen (inbuf c) < window P -> calls D P c cs = Some (out, d) ->
  exists m', tracks P s0 (stream ++ inputs cs) (gone ++ out) m' d /\ zlen (inbuf d) < window P.
Proof.
  intros HP Hb Haf Hadv Hsk. induction cs as [|[blk|n] cs IH]; intros stream gone m c out d HT Hlt E; cbn [calls inputs] in *.
  - injection E as <- <-. exists m. by rewrite !app_nil_r.
  - unfold process in E. destruct (feed D _ P c blk false false) as [e|] eqn:Ee; [|done].
    change (Some ?x ≫= ?f) with (f x) in E. cbv beta in E.
    destruct (tracks_feed P s0 gone false HP Hb Haf Hadv Hsk _ _ _ _ _ _ HT Ee) as (m1 & HT1 & Hlt1).
    destruct (IH _ _ _ _ _ _ HT1 Hlt1 E) as (m2 & HT2). exists m2. by rewrite app_assoc.
  - destruct (calls D P _ cs) as [[o e]|] eqn:Ee; [|done]. change (Some ?x ≫= ?f) with (f x) in E. cbv beta iota in E.
    injection E as <- <-.
    destruct (fun H H2 => IH stream (gone ++ firstn_z n (outbuf c)) m _ _ _ H H2 Ee) as (m' & HT' & Hlt'); [|done|].
    + destruct HT as [Hinv Hfl Hsz Hdr Hch Hin Hlen (fs & ws & Hv & HO & Hsp & Hst)]. constructor; try done.
      * destruct Hinv as [[] [H1 H2] ? ?]. constructor; [by constructor| |done|done].
        split; [|done]. cbn. rewrite zlen_skipn. pose proof (zlen_nonneg (outbuf c)). lia.
      * exists fs, ws. split; [done|]. split; [by destruct HO|]. split; [done|]. destruct Hst as [H1 H2]. split; [done|]. cbn.
        by rewrite <- app_assoc, firstn_skipn_z.
    + exists m'. by rewrite app_assoc.
Qed.

(** A channel on which nothing has been done yet. *)
Record blank P c : Prop := Blank {
  bl_flt : zlen (fltbuf c) = window P; bl_acc : acc c = replicate (length (acc c)) (zero D);
  bl_wacc : wacc c = one D :: replicate (pred (length (wacc c))) (zero D); bl_fill : fill c = 0;
  bl_out : outbuf c = []; bl_count : outCount c = 0; bl_chunk : chunkCount c = 0
}.
Lemma blank_tracks P c : sane P -> ready P c -> blank P c -> 0 <= startSkip P -> tracks P (spec c) (inbuf c) [] 0 c.
Proof.
  intros HP [Hi Hsz Hdr Hcap Hin] [] Hsk. pose proof (zlen_nonneg (increments P)). constructor; try done; try lia.
  - destruct (Z.eqb_spec (zlen (increments P)) 0); lia.
  - exists [], []. split; [done|]. split; [|split; [done|]].
    + constructor; [done| | |by constructor|by constructor].
      * intros j Hj. rewrite bl_acc0. rewrite getZ_replicate by (unfold zlen in *; lia). done.
      * intros j Hj. rewrite bl_wacc0, zlen_cons, zlen_replicate in Hj. rewrite bl_wacc0.
        change (one D :: ?l) with ([one D] ++ l). rewrite getZ_app. change (zlen [one D]) with 1.
        destruct (Z.ltb_spec j 1), (Z.eqb_spec (span (@nil (list A * Z)) + j) 0) as [Hz|Hz]; change (span []) with 0 in Hz; try lia.
        -- by replace j with 0 by lia.
        -- rewrite getZ_replicate by lia. done.
    + split.
      * unfold capped, theo. by rewrite Hsz, bl_count0.
      * rewrite bl_count0, bl_out0. symmetry. apply zlen_0. rewrite zlen_firstn. lia.
Qed.

Lemma tracks_windows P s0 stream gone m c : sane P -> tracks P s0 stream gone m c -> zlen (inbuf c) < window P ->
  windows P (zlen stream) = Z.of_nat m.
Proof.
  intros HP HT Hlt. pose proof (sane_incr _ _ HP) as Hinc. pose proof (sane_window _ _ HP) as Hwin.
  pose proof (tracks_zlen _ _ _ _ _ _ HP HT) as Hz. pose proof (zlen_nonneg (inbuf c)).
  pose proof (tr_len _ _ _ _ _ _ HT) as Hlen.
  unfold windows. rewrite Hz. destruct (Z.ltb_spec (Z.of_nat m * increment P + zlen (inbuf c)) (window P)).
  - destruct m as [|m]; [done|]. specialize (Hlen ltac:(lia)). rewrite Hz in Hlen. nia.
  - destruct m as [|m]; [lia|]. specialize (Hlen ltac:(lia)). rewrite Hz in Hlen.
    replace (Z.of_nat (Datatypes.S m) * increment P + zlen (inbuf c) - window P)
      with (Z.of_nat m * increment P + (zlen (inbuf c) + increment P - window P)) by lia.
    rewrite Z.div_add_l by lia. rewrite Z.div_small by lia. lia.
Qed.
Lemma calls_vocoder P c cs out d : sane P -> before P = false -> after P = false -> (forall k, advance P k <= window P) -> 0 <= startSkip P ->
  ready P c -> blank P c -> calls D P c cs = Some (out, d) ->
  out ++ outbuf d = skipn_z (startSkip P) (stretched D P (spec c) (inbuf c ++ inputs cs)).
Proof.
  intros HP Hb Haf Hadv Hsk Hr Hbl E.
  destruct (tracks_calls P (spec c) HP Hb Haf Hadv Hsk cs _ [] 0 c out d (blank_tracks P c HP Hr Hbl Hsk)) as (m & HT & Hlt); [apply Hr|done|].
  pose proof (sane_incr _ _ HP) as Hinc. pose proof (sane_window _ _ HP) as Hwin.
  pose proof (tracks_windows _ _ _ _ _ _ HP HT Hlt) as Hm.
  destruct HT as [Hinv Hfl Hsz Hdr Hch Hin Hlen (fs & ws & Hv & HO & Hsp & [Hst1 Hst2])].
  unfold stretched. rewrite Hm, Nat2Z.id, Hv. rewrite ola_from.
  cbn [app] in Hst2. rewrite Hst2, Hst1. unfold capped, theo. rewrite Hsz. cbn [Z.ltb].
  pose proof (ao_pos _ _ _ _ _ HO) as Hp. change (0 <? 0) with false. cbv iota.
  rewrite zlen_olaFrom by lia. destruct (Z.le_gt_cases (span fs) (startSkip P)).
  - rewrite skipn_z_all by (rewrite zlen_olaFrom; lia). unfold firstn_z. by rewrite take_nil.
  - apply firstn_z_all. rewrite zlen_skipn, zlen_olaFrom by lia. lia.
Qed.
Lemma calls_state P c cs out d : sane P -> before P = false -> after P = false -> (forall k, advance P k <= window P) -> 0 <= startSkip P ->
  ready P c -> blank P c -> calls D P c cs = Some (out, d) ->
  let stream := inbuf c ++ inputs cs in spec d = snd (vocoder D P (spec c) stream 0 (Z.to_nat (windows P (zlen stream)))).
Proof.
  intros HP Hb Haf Hadv Hsk Hr Hbl E stream.
  destruct (tracks_calls P (spec c) HP Hb Haf Hadv Hsk cs _ [] 0 c out d (blank_tracks P c HP Hr Hbl Hsk)) as (m & HT & Hlt); [apply Hr|done|].
  unfold stream. rewrite (tracks_windows _ _ _ _ _ _ HP HT Hlt), Nat2Z.id.
  destruct (tr_voc _ _ _ _ _ _ HT) as (fs & ws & Hv & _). by rewrite Hv.
Qed.
End Vocoder.
