(** Sequences of chunks written through the overlap-add accumulator, each with any frame
    and any shift; the frames of an overlong increment broken into pieces
    (StretcherProcess.cpp:310-319) are such a sequence. *)
From stdpp Require Import prelude.
From Coq Require Import ZArith QArith Qround Lia Lqa.
From Verif Require Import Base.Arith Faster.Model Faster.Core Faster.Chunks Faster.Stream Faster.Count Faster.OlaSpec Faster.Ola Faster.Vocoder.
Local Open Scope Z_scope.

(** What one call of processChunkForChannel gets: content of fltbuf, state of the phase
    vocoder, phase increment, shift increment, phase reset. *)
Record op (A S : Type) := Op { o_buf : list A; o_state : S; o_phase : Z; o_shift : Z; o_reset : bool }.
Arguments Op {A S}. Arguments o_buf {A S}. Arguments o_state {A S}. Arguments o_phase {A S}. Arguments o_shift {A S}. Arguments o_reset {A S}.

Section OlaRuns.
Context {A S R K : Type} (D : dsp A S R K).
Notation chan := (channel A S R).
Implicit Types (P : params) (c d e : chan) (F G : list (Z * list A)).
Notation sane := (sane D).

(** The frame to be added and its weight. *)
Definition frameOf P (o : op A S) : list A * Z :=
  (take (Z.to_nat (window P)) (fst (modify D (o_state o) (o_buf o) (o_phase o) (o_reset o) (o_shift o))), o_shift o).
Definition weightOf P (o : op A S) : list A * Z := (take (Z.to_nat (window P)) (shape D (o_shift o)), o_shift o).

Fixpoint written P c (ops : list (op A S)) : option chan :=
  match ops with
  | [] => Some c
  | o :: ops =>
    x ← processChunkForChannel D P (set_flt c (o_buf o) (o_state o)) (o_phase o) (o_shift o) (o_reset o);
    let '(_, c) := (x : bool * chan) in written P c ops
  end.
(** While draining, until the last chunk. *)
Fixpoint drained P c (sis : list Z) : option (bool * chan) :=
  match sis with
  | [] => Some (false, c)
  | si :: sis =>
    x ← processChunkForChannel D P c si si false;
    let '(last, c) := (x : bool * chan) in if last then Some (true, c) else drained P c sis
  end.

Lemma pcfc_drain P c p si reset l d pos F G : sane P -> wf P c -> capok P c -> 0 <= si <= window P -> after P = false ->
  draining c = true -> fill c <= window P -> accOK D c pos F G ->
  processChunkForChannel D P c p si reset = Some (l, d) ->
  exists n, 0 <= n /\ fill d = fill c - n /\ l = (fill d =? 0) /\ (l = false -> 1 <= n) /\ accOK D d (pos + n) F G /\
  outbuf d = outbuf c ++ fst (emit P (outCount c) (olaFrom D F G pos n) (theo P c)) /\
  outCount d = snd (emit P (outCount c) (olaFrom D F G pos n) (theo P c)).
Proof.
  intros HP Hc Hk Hsi Haf Hdr Hfw HO E. unfold processChunkForChannel in E. rewrite Hdr in E.
  change (Some ?x ≫= ?f) with (f x) in E. cbv beta in E. unfold drainShift in E. rewrite Hdr in E.
  pose proof (sane_incr _ _ HP) as Hi. pose proof (sane_window _ _ HP) as Hw.
  pose proof (wf_fill _ _ Hc) as Hf.
  destruct (Z.eqb_spec (fill c) 0) as [E0|E0].
  { injection E as <- <-. exists 0. rewrite Z.add_0_r. split; [lia|]. split; [lia|]. split; [by rewrite E0|]. split; [done|].
    split; [done|]. replace (olaFrom D F G pos 0) with (@nil A) by done. unfold emit. rewrite (@zlen_nil A), Z.add_0_r.
    unfold firstn_z, skipn_z. rewrite ?take_nil, ?drop_nil.
    pose proof (zlen_nonneg (outbuf c)).
    repeat case_match; cbn [fst snd]; rewrite ?app_nil_r; split; try done; lia. }
  assert (Hgo : forall n (l' : bool), 1 <= n <= fill c ->
     (c3 ← writeChunk D P (if outCap c - zlen (outbuf c) <? need P n then set_outCap c (outCap c * 2) else c) n l'; Some (l', c3)) = Some (l, d) ->
     l' = l /\ fill d = fill c - n /\ accOK D d (pos + n) F G /\
     outbuf d = outbuf c ++ fst (emit P (outCount c) (olaFrom D F G pos n) (theo P c)) /\
     outCount d = snd (emit P (outCount c) (olaFrom D F G pos n) (theo P c))).
  { clear E. intros n l' Hn E. match type of E with context [writeChunk D P ?x n l'] => set (c2 := x) in E end.
    pose proof (need_mono P n (window P) (sane_pitch _ _ HP) ltac:(lia)) as Hm. pose proof (zlen_nonneg (outbuf c)).
    destruct Hk as [Hcap1 Hcap2].
    assert (H2 : wf P c2 /\ fill c2 = fill c /\ outbuf c2 = outbuf c /\ outCount c2 = outCount c /\ inputSize c2 = inputSize c /\
      need P n <= outCap c2 - zlen (outbuf c2) /\ accOK D c2 pos F G).
    { unfold c2. destruct (Z.ltb_spec (outCap c - zlen (outbuf c)) (need P n)).
      - split; [by destruct Hc|]. cbn [outbuf outCap outCount fill inputSize set_outCap].
        do 4 (split; [done|]). split; [lia|]. by destruct HO.
      - split; [done|]. do 4 (split; [done|]). split; [lia|done]. }
    clearbody c2. destruct H2 as (Hw2 & Hf2 & Ho2 & Hn2 & Hi2 & Hroom & HO2).
    destruct (writeChunk_ok D P c2 n l' HP Hw2 ltac:(lia) ltac:(lia) Hroom) as (d' & out & Ed & Hwd & K1).
    destruct (writeChunk D P c2 n l') as [c3|] eqn:Ew; [|done]. change (Some ?x ≫= ?f) with (f x) in E. cbv beta iota in E.
    injection E as <- <-. injection Ed as <-.
    destruct (writeChunk_out D P c2 n l' c3 pos F G HP Hw2 Haf ltac:(lia) ltac:(lia) Hroom HO2 Ew) as (J1 & J2 & J3).
    assert (Et : theo P c2 = theo P c) by (unfold theo; by rewrite Hi2).
    split; [done|]. split; [|rewrite J2, J3, Ho2, Hn2, Et; done].
    rewrite <- Hf2. tauto. }
  set (x := if si =? 0 then increment P else si) in E. assert (Hx : 1 <= x <= window P) by (unfold x; destruct (Z.eqb_spec si 0); lia).
  clearbody x.
  destruct (Z.leb_spec (fill c) x).
  - destruct (Hgo (fill c) true ltac:(lia) E) as (<- & J1 & J2 & J3). exists (fill c).
    split; [lia|]. split; [done|]. split; [|done]. rewrite J1, Z.sub_diag. done.
  - destruct (Hgo x false ltac:(lia) E) as (<- & J1 & J2 & J3). exists x.
    split; [lia|]. split; [done|]. split; [|split; [lia|done]]. symmetry. apply Z.eqb_neq. lia.
Qed.

Lemma extent_app F G : extent (F ++ G) = Z.max (extent F) (extent G).
Proof.
  unfold extent. rewrite foldr_app. induction F as [|[o f] F IH]; cbn [foldr].
  - assert (0 <= extent G); [|unfold extent in *; lia]. unfold extent. clear. induction G as [|[o f] G IH]; cbn [foldr]; lia.
  - fold (extent F) in *. fold (extent G) in *. rewrite IH. lia.
Qed.

(** What holds between chunks. *)
Record laid P (fs ws : list (list A * Z)) c : Prop := Laid {
  la_wf : wf P c; la_cap : capok P c; la_fill : fill c <= window P; la_size : inputSize c = None;
  la_acc : accOK D c (span fs) (layout 0 fs) (layout 0 ws); la_span : span ws = span fs;
  la_ext : span fs + fill c = extent (layout 0 fs);
  la_str : streamed P (olaFrom D (layout 0 fs) (layout 0 ws) 0 (span fs)) [] c
}.

Lemma written_ok P : sane P -> after P = false -> 0 <= startSkip P -> forall ops fs ws c,
  Forall (fun o => window P <= zlen (o_buf o) /\ 0 <= o_shift o <= window P) ops -> draining c = false -> laid P fs ws c ->
  exists d, written P c ops = Some d /\ draining d = false /\ laid P (fs ++ (frameOf P <$> ops)) (ws ++ (weightOf P <$> ops)) d.
Proof.
  intros HP Haf Hsk. induction ops as [|o ops IH]; intros fs ws c Hall Hdr HL; cbn [written fmap list_fmap].
  - exists c. by rewrite !app_nil_r.
  - apply Forall_cons in Hall as [[Hb Hs] Hall]. destruct HL as [Hw Hk Hfw Hsz HO Hsp Hext Hst].
    set (c0 := set_flt c (o_buf o) (o_state o)).
    assert (Hw0 : wf P c0) by (destruct Hw; by constructor).
    assert (HO0 : accOK D c0 (span fs) (layout 0 fs) (layout 0 ws)) by (by destruct HO).
    destruct (pcfc_ok D P c0 (o_phase o) (o_shift o) (o_reset o) HP Hw0 Hk Hs) as (l & d & E & Hwd & Hkd & Hsd & _ & Hl & Hfd & _).
    rewrite E. change (Some ?x ≫= ?f) with (f x). cbv beta iota.
    destruct (pcfc_acc D P c0 _ _ _ l d _ _ _ HP Hw0 Hk Hs Haf Hdr HO0 E) as (J1 & _ & _ & J4 & J5).
    change (spec c0) with (o_state o) in *. change (fltbuf c0) with (o_buf o) in *. change (draining c0) with (draining c) in *.
    change (fill c0) with (fill c) in *. change (outbuf c0) with (outbuf c) in *. change (outCount c0) with (outCount c) in *.
    unfold shiftOf in *. change (draining c0) with (draining c) in *. rewrite Hdr in *.
    change (theo P c0) with (theo P c) in *.
    set (f := firstn_z (window P) (fst (modify D _ _ _ _ _))) in *. set (w := firstn_z (window P) (shape D _)) in *.
    set (si := o_shift o) in *.
    assert (Hzf : zlen f = window P).
    { unfold f. rewrite zlen_firstn. rewrite (sane_modify _ _ HP).
      pose proof (sane_incr _ _ HP). pose proof (sane_window _ _ HP). lia. }
    assert (Hlf : layout 0 (fs ++ [(f, si)]) = layout 0 fs ++ [(span fs, f)]) by (rewrite layout_app; done).
    assert (Hlw : layout 0 (ws ++ [(w, si)]) = layout 0 ws ++ [(span fs, w)]) by (rewrite layout_app; cbn [layout]; by rewrite Z.add_0_l, Hsp).
    assert (H1f : span [(f, si)] = si) by (unfold span; cbn; lia). assert (H1w : span [(w, si)] = si) by (unfold span; cbn; lia).
    pose proof (ao_pos _ _ _ _ _ HO) as Hpos. pose proof (wf_fill _ _ Hw) as Hf0.
    destruct (IH (fs ++ [(f, si)]) (ws ++ [(w, si)]) d Hall) as (e & Ee & Hde & HLe).
    + rewrite (same_drain _ _ Hsd). done.
    + constructor; try done.
      * lia.
      * rewrite (same_size _ _ Hsd). done.
      * by rewrite Hlf, Hlw, span_app, H1f.
      * by rewrite !span_app, H1f, H1w, Hsp.
      * rewrite Hlf, span_app, H1f, extent_app. unfold extent at 2. cbn [foldr]. rewrite Hfd, Hzf. lia.
      * rewrite Hlf, Hlw, span_app, H1f, olaFrom_add by lia. rewrite olaFrom_later by done. rewrite Z.add_0_l.
        apply (stream_emit P c d _ [] _ Hsk); try done.
        -- by rewrite (same_size _ _ Hsd).
        -- intros Ht. unfold theo in Ht. rewrite Hsz in Ht. lia.
    + exists e. split; [done|]. split; [done|]. rewrite <- !app_assoc in HLe. done.
Qed.

Lemma drained_ok P F G : sane P -> after P = false -> 0 <= startSkip P -> forall sis c pos,
  Forall (fun si => 0 <= si <= window P) sis -> draining c = true -> wf P c -> capok P c -> fill c <= window P -> inputSize c = None ->
  accOK D c pos F G -> streamed P (olaFrom D F G 0 pos) [] c ->
  exists l d n, drained P c sis = Some (l, d) /\ pos <= n <= pos + fill c /\ streamed P (olaFrom D F G 0 n) [] d /\ inputSize d = None /\
    (l = true -> n = pos + fill c) /\ (fill c < zlen sis -> l = true).
Proof.
  intros HP Haf Hsk. induction sis as [|si sis IH]; intros c pos Hall Hdr Hw Hk Hfw Hsz HO Hst; cbn [drained].
  - exists false, c, pos. pose proof (wf_fill _ _ Hw). split; [done|]. split; [lia|]. split; [done|]. split; [done|]. split; [done|].
    rewrite zlen_nil. lia.
  - apply Forall_cons in Hall as [Hsi Hall].
    destruct (pcfc_ok D P c si si false HP Hw Hk Hsi) as (l & d & E & Hwd & Hkd & Hsd & _ & Hl & Hfd & _).
    rewrite E. change (Some ?x ≫= ?f) with (f x). cbv beta iota.
    destruct (pcfc_drain P c si si false l d pos F G HP Hw Hk Hsi Haf Hdr Hfw HO E) as (n & J1 & J2 & J3 & J4 & J5 & J6 & J7).
    pose proof (ao_pos _ _ _ _ _ HO) as Hpos. pose proof (wf_fill _ _ Hwd).
    assert (Hst' : streamed P (olaFrom D F G 0 (pos + n)) [] d).
    { rewrite olaFrom_add by lia. rewrite Z.add_0_l. apply (stream_emit P c d _ [] _ Hsk); try done.
      - by rewrite (same_size _ _ Hsd).
      - intros Ht. unfold theo in Ht. rewrite Hsz in Ht. lia. }
    assert (Hszd : inputSize d = None) by (by rewrite (same_size _ _ Hsd)).
    destruct l.
    + exists true, d, (pos + n). symmetry in J3. apply Z.eqb_eq in J3. split; [done|]. split; [lia|]. split; [done|]. split; [done|].
      split; [lia|done].
    + destruct (IH d (pos + n) Hall) as (l' & e & n' & Ee & Hn & Hse & Hsze & Hl1 & Hl2); try done.
      * by rewrite (same_drain _ _ Hsd).
      * lia.
      * exists l', e, n'. split; [done|]. split; [lia|]. split; [done|]. split; [done|]. specialize (J4 eq_refl).
        split; [intros Ht; specialize (Hl1 Ht); lia|]. rewrite zlen_cons. intros. apply Hl2. lia.
Qed.

Lemma streamed_all P str c : 0 <= startSkip P -> inputSize c = None -> streamed P str [] c -> outbuf c = skipn_z (startSkip P) str.
Proof.
  intros Hsk Hsz [H1 H2]. cbn [app] in H2. rewrite H2, H1. unfold capped, theo. rewrite Hsz. change (0 <? 0) with false. cbv iota.
  destruct (Z.le_gt_cases (zlen str) (startSkip P)).
  - rewrite skipn_z_all by lia. unfold firstn_z. by rewrite take_nil.
  - apply firstn_z_all. rewrite zlen_skipn. lia.
Qed.

Lemma ola_runs P c ops : sane P -> after P = false -> 0 <= startSkip P -> wf P c -> capok P c -> blank D P c ->
  inputSize c = None -> draining c = false ->
  Forall (fun o => window P <= zlen (o_buf o) /\ 0 <= o_shift o <= window P) ops ->
  let F := layout 0 (frameOf P <$> ops) in let G := layout 0 (weightOf P <$> ops) in
  let out n := drop (Z.to_nat (startSkip P)) (ola (add D) (zero D) (one D) (quot D) F G n) in
  exists d, written P c ops = Some d /\ outbuf d = out (span (frameOf P <$> ops)) /\
    forall sis, Forall (fun si => 0 <= si <= window P) sis ->
    exists l e n, drained P (set_drain d true) sis = Some (l, e) /\ span (frameOf P <$> ops) <= n <= extent F /\ outbuf e = out n /\
      (l = true -> n = extent F) /\ (extent F - span (frameOf P <$> ops) < zlen sis -> l = true).
Proof.
  intros HP Haf Hsk Hw Hk Hbl Hsz Hdr Hall F G out.
  assert (HL : laid P [] [] c).
  { destruct Hbl. constructor; try done; try lia.
    - rewrite bl_fill. pose proof (sane_incr _ _ HP). pose proof (sane_window _ _ HP). lia.
    - constructor; [done| | |by constructor|by constructor].
      * intros j Hj. rewrite bl_acc. rewrite getZ_replicate by (unfold zlen in *; lia). done.
      * intros j Hj. rewrite bl_wacc, zlen_cons, zlen_replicate in Hj. rewrite bl_wacc.
        change (one D :: ?l) with ([one D] ++ l). rewrite getZ_app. change (zlen [one D]) with 1.
        destruct (Z.ltb_spec j 1), (Z.eqb_spec (span (@nil (list A * Z)) + j) 0) as [Hz|Hz]; change (span []) with 0 in Hz; try lia.
        -- by replace j with 0 by lia.
        -- rewrite getZ_replicate by lia. done.
    - split.
      * unfold capped, theo. by rewrite Hsz, bl_count.
      * rewrite bl_count, bl_out. symmetry. apply zlen_0. rewrite zlen_firstn. lia. }
  destruct (written_ok P HP Haf Hsk ops [] [] c Hall Hdr HL) as (d & Ed & Hdd & HLd). cbn [app] in HLd.
  exists d. split; [done|].
  assert (Hout : forall n, out n = skipn_z (startSkip P) (olaFrom D F G 0 n)) by (intros n; unfold out; by rewrite ola_from).
  split; [rewrite Hout; apply streamed_all; apply Hsk || apply HLd|].
  intros sis Hsis. destruct HLd as [Hwd Hkd Hfd Hszd HOd Hspd Hextd Hstd]. fold F G in HOd, Hextd, Hstd.
  destruct (drained_ok P F G HP Haf Hsk sis (set_drain d true) (span (frameOf P <$> ops))) as (l & e & n & E & Hn & Hse & Hsze & Hl1 & Hl2); try done.
  - by destruct Hwd.
  - by destruct HOd.
  - exists l, e, n. cbn [fill set_drain] in *. rewrite Hextd in *. split; [done|]. split; [done|].
    split; [rewrite Hout; by apply streamed_all|]. split; [done|]. intros. apply Hl2. lia.
Qed.
End OlaRuns.
