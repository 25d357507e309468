(** The real-time machine computes the plain function of RtVocoderSpec.v. *)
From stdpp Require Import prelude.
From Coq Require Import ZArith QArith Qround Lia Lqa ZifyBool.
From Verif Require Import Base.Arith Faster.Model Faster.Core Faster.Chunks Faster.Stream Faster.Count Faster.OlaSpec Faster.Ola Faster.VocoderSpec Faster.Vocoder Faster.RealTimeRuns Faster.RealTime Faster.RealTimeCalls Faster.RtVocoderSpec.
From stdpp Require Import list.
Local Open Scope Z_scope.

Section RtVocoder.
Context {A S R K : Type} (D : dsp A S R K).
Notation chan := (channel A S R).
Implicit Types (P : params) (c d : chan).
Notation sane := (sane D).

(** Channel [c] after [m] chunks, given [x] and having returned [g]. *)
Record plays P cap L (x g : list A) (m : nat) (fs ws : list (list A * Z)) c : Prop := Plays {
  pl_inv : inv P c; pl_flt : zlen (fltbuf c) = window P; pl_size : inputSize c = None; pl_drain : draining c = false;
  pl_cap : inCap c = cap; pl_x : zlen x = L; pl_in : inbuf c = skipn_z (Z.of_nat m * increment P) x;
  pl_len : (0 < m)%nat -> (Z.of_nat m - 1) * increment P + window P <= L;
  pl_acc : accOK D c (span fs) (layout 0 fs) (layout 0 ws); pl_span : span ws = span fs;
  pl_str : streamed P (olaFrom D (layout 0 fs) (layout 0 ws) 0 (span fs)) g c
}.
Lemma plays_rs P cap L x g m fs ws c : sane P -> plays P cap L x g m fs ws c -> zlen (inbuf c) = L - Z.of_nat m * increment P.
Proof.
  intros HP []. pose proof (sane_incr _ _ HP). pose proof (sane_window _ _ HP). rewrite pl_in0, zlen_skipn, pl_x0.
  pose proof (zlen_nonneg x). destruct m as [|m]; [lia|]. specialize (pl_len0 ltac:(lia)). nia.
Qed.

Record playing P cap L k0 ss0 (x g : nat -> list A) (m : nat) (e : engine A S R K) : Prop := Playing {
  py_ne : chans e <> []; py_fin : finished e = false;
  py_all : exists cs, played D P k0 ss0 x m = (cs, calc e, spec <$> chans e) /\
    forall i c, chans e !! i = Some c -> plays P cap L (x i) (g i) m (framesOf P i cs) (weightsOf D P cs) c
}.

(** ** All channels take a chunk *)
Definition chunkTaken P c : chan :=
  let '(sp, s) := analyse D (spec c) (firstn_z (window P) (inbuf c)) in
  set_flt (set_in c (skipn_z (increment P) (inbuf c)) (inCount c)) sp s.
Lemma takeChunks_full P (cs : list chan) : sane P ->
  Forall (fun c => wf P c /\ zlen (fltbuf c) = window P /\ draining c = false /\ window P <= zlen (inbuf c)) cs ->
  takeChunks D P cs = Some (true, chunkTaken P <$> cs).
Proof.
  intros HP. pose proof (sane_incr _ _ HP). pose proof (sane_window _ _ HP). induction 1 as [|c cs (Hw & Hfl & Hd & Hin) _ IH]; [done|].
  cbn [takeChunks]. unfold testInbufReadSpace. rewrite (proj2 (Z.ltb_ge _ _)) by lia. cbn [andb]. rewrite Hd.
  destruct (peekChunk_ok P c Hw) as (c0 & f & E0 & Ec0 & Hf & Ef). rewrite E0. change (Some ?x ≫= ?f) with (f x). cbv beta.
  replace (Z.min (zlen (inbuf c)) (window P)) with (window P) in Ef by lia.
  rewrite (skipn_z_all _ (fltbuf c)), app_nil_r in Ef by lia. subst c0 f. cbn [spec fltbuf set_flt set_in].
  rewrite IH. cbn [fmap list_fmap]. unfold chunkTaken at 2. destruct (analyse D _ _) as [sp s]. done.
Qed.
Lemma takeChunks_none P (cs : list chan) : cs <> [] -> Forall (fun c => inputSize c = None /\ draining c = false /\ zlen (inbuf c) < window P) cs ->
  takeChunks D P cs = Some (false, cs).
Proof.
  intros Hne H. destruct H as [|c cs (H1 & H2 & H3) _]; [done|]. cbn [takeChunks]. unfold testInbufReadSpace.
  rewrite (proj2 (Z.ltb_lt _ _)) by lia. rewrite H2, H1. done.
Qed.
Lemma runChunks_each P p si reset : forall (cs : list chan) b l ds, runChunks D P cs p si reset b = Some (l, ds) ->
  Forall2 (fun c d => exists l d0, processChunkForChannel D P c p si reset = Some (l, d0) /\ d = set_chunk d0 (chunkCount d0 + 1)) cs ds.
Proof.
  induction cs as [|c cs IH]; intros b l ds E; cbn [runChunks] in E; [injection E as _ <-; constructor|].
  destruct (processChunkForChannel D P c p si reset) as [[l0 d0]|] eqn:E0; [|done]. change (Some ?x ≫= ?f) with (f x) in E. cbv beta iota in E.
  destruct (runChunks D P cs p si reset l0) as [[l1 ds1]|] eqn:E1; [|done]. change (Some ?x ≫= ?f) with (f x) in E. cbv beta iota in E.
  injection E as _ <-. constructor; [by exists l0, d0|]. by eapply IH.
Qed.

(** One channel through one chunk. *)
Lemma plays_chunk P cap L x g m fs ws c p si reset l d : sane P -> after P = false -> 0 <= startSkip P -> 0 <= si <= window P ->
  plays P cap L x g m fs ws c -> window P <= zlen (inbuf c) ->
  processChunkForChannel D P (chunkTaken P c) p si reset = Some (l, d) ->
  let '(sp, s) := analyse D (spec c) (firstn_z (window P) (inbuf c)) in
  let r := modify D s sp p reset si in
  spec d = snd r /\
  plays P cap L x g (Datatypes.S m) (fs ++ [(firstn_z (window P) (fst r), si)]) (ws ++ [(firstn_z (window P) (shape D si), si)]) (set_chunk d (chunkCount d + 1)).
Proof.
  intros HP Haf Hsk Hsi HT Hrs E. pose proof (plays_rs _ _ _ _ _ _ _ _ _ HP HT) as Hz. destruct HT as [Hi Hfl Hsz Hdr Hcap Hx Hin Hlen HO Hsp Hst].
  pose proof (sane_incr _ _ HP) as Hinc. pose proof (sane_window _ _ HP) as Hwin. destruct Hi as [Hw Hk Hc0 Hfw].
  unfold chunkTaken in E. pose proof (sane_analyse _ _ HP (spec c) (firstn_z (window P) (inbuf c))) as Han. rewrite zlen_firstn in Han.
  destruct (analyse D _ _) as [sp s]. cbn [fst] in Han. cbv zeta.
  set (c1 := set_flt _ sp s) in E.
  assert (HO1 : accOK D c1 (span fs) (layout 0 fs) (layout 0 ws)) by (destruct HO; by constructor).
  assert (Hw1 : wf P c1).
  { clear -Hw Han Hrs Hinc Hwin. subst c1. destruct Hw. constructor; cbn [fltbuf acc wacc fill set_flt set_in set_chunk]; lia. }
  assert (Hk1 : capok P c1) by done. assert (Hd1 : draining c1 = false) by done.
  destruct (pcfc_acc D P c1 _ _ _ l d _ _ _ HP Hw1 Hk1 Hsi Haf Hd1 HO1 E) as (J1 & J2 & J3 & J4 & J5).
  destruct (pcfc_ok D P c1 p si reset HP Hw1 Hk1 Hsi) as (l' & d' & E' & Hwd & Hkd & Hs & Hcd & El & Ef & Eo & Ew).
  rewrite E in E'. injection E' as <- <-.
  change (spec c1) with s in *. change (fltbuf c1) with sp in *. change (theo P c1) with (theo P c) in *.
  change (outbuf c1) with (outbuf c) in *. change (outCount c1) with (outCount c) in *. change (fill c1) with (fill c) in *.
  set (r := modify D s sp p reset si) in *. clearbody r. split; [done|].
  set (f := firstn_z (window P) (fst r)) in *. set (w := firstn_z (window P) (shape D si)) in *. clearbody f w.
  assert (Hlf : layout 0 (fs ++ [(f, si)]) = layout 0 fs ++ [(span fs, f)]) by (rewrite layout_app; done).
  assert (Hlw : layout 0 (ws ++ [(w, si)]) = layout 0 ws ++ [(span fs, w)]) by (rewrite layout_app; cbn [layout]; by rewrite Z.add_0_l, Hsp).
  assert (H1f : span [(f, si)] = si) by (unfold span; cbn; clear; lia). assert (H1w : span [(w, si)] = si) by (unfold span; cbn; clear; lia).
  destruct Hs as [Hs1 Hs2 Hs3 Hs4 Hs5]. rewrite Hd1 in *. unfold shiftOf in Ef. rewrite Hd1 in Ef.
  assert (Hcd' : chunkCount d = chunkCount c) by (rewrite Hcd; done).
  assert (N1 : 0 <= chunkCount d + 1) by (clear -Hcd' Hc0; lia). assert (N2 : fill d <= window P) by (clear -Ef Hfw Hsi; lia).
  assert (N3 : zlen (fltbuf d) = window P) by (clear -J3 Han Hrs Hwin Hinc; lia).
  assert (N4 : Z.of_nat m * increment P + increment P = Z.of_nat (Datatypes.S m) * increment P /\ 0 <= Z.of_nat m * increment P) by (clear -Hinc; nia).
  assert (N5 : (Z.of_nat (Datatypes.S m) - 1) * increment P + window P <= L) by (clear -Hrs Hz; lia).
  pose proof (ao_pos _ _ _ _ _ HO) as Hpos. assert (N6 : 0 <= si /\ 0 <= increment P) by (clear -Hsi Hinc; lia).
  destruct N4 as [N4 N7], N6 as [N6 N8].
  constructor.
  - constructor; cbn [chunkCount fill set_chunk]; [by destruct Hwd|exact Hkd|exact N1|exact N2].
  - cbn [fltbuf set_chunk]. exact N3.
  - cbn [inputSize set_chunk]. transitivity (inputSize c1); [by symmetry|done] || congruence.
  - cbn [draining set_chunk]. congruence.
  - cbn [inCap set_chunk]. rewrite Hs2. done.
  - done.
  - cbn [inbuf set_chunk]. rewrite Hs1. unfold c1. cbn [inbuf set_flt set_in]. rewrite Hin, skipn_z_add by assumption. by rewrite N4.
  - intros _. exact N5.
  - rewrite Hlf, Hlw, span_app, H1f. destruct J1. by constructor.
  - rewrite !span_app, H1f, H1w. by rewrite Hsp.
  - rewrite Hlf, Hlw, span_app, H1f.
    rewrite olaFrom_add by assumption. rewrite olaFrom_later by done. rewrite Z.add_0_l.
    assert (Hst2 : streamed P (olaFrom D (layout 0 fs) (layout 0 ws) 0 (span fs) ++ olaFrom D (layout 0 fs ++ [(span fs, f)]) (layout 0 ws ++ [(span fs, w)]) (span fs) si) g d).
    { refine (stream_emit P c d _ g _ Hsk _ _ J4 J5 Hst); [transitivity (inputSize c1); [congruence|reflexivity]|]. intros Ht. unfold theo in Ht. rewrite Hsz in Ht. clear -Ht; lia. }
    destruct Hst2 as [T1 T2]. split; done.
Qed.

Lemma framesOf_app P i (a b : list (chunk (A:=A))) : framesOf P i (a ++ b) = framesOf P i a ++ framesOf P i b.
Proof. unfold framesOf. by rewrite fmap_app. Qed.
Lemma weightsOf_app P (a b : list (chunk (A:=A))) : weightsOf D P (a ++ b) = weightsOf D P a ++ weightsOf D P b.
Proof. unfold weightsOf. by rewrite fmap_app. Qed.

Lemma playing_rs P cap L k0 ss0 x g m e i c : sane P -> playing P cap L k0 ss0 x g m e -> chans e !! i = Some c -> zlen (inbuf c) = L - Z.of_nat m * increment P.
Proof. intros HP [_ _ (cs & _ & H)] Hc. by eapply plays_rs, H. Qed.

(** One round of all channels. *)
Lemma playing_chunk P cap L k0 ss0 x g m e l k ds : sane P -> after P = false -> 0 <= startSkip P -> calm D (window P) ->
  playing P cap L k0 ss0 x g m e -> processOneChunk D P (calc e) (chans e) = Some (l, k, ds) ->
  playing P cap L k0 ss0 x g (if window P <=? L - Z.of_nat m * increment P then Datatypes.S m else m) (Engine ds k false).
Proof.
  intros HP Haf Hsk HC HT E. assert (Hrs := fun i c => playing_rs P cap L k0 ss0 x g m e i c HP HT).
  destruct HT as [Hne Hfin (cs & Hpl & Hall)]. unfold processOneChunk in E.
  destruct (Z.leb_spec (window P) (L - Z.of_nat m * increment P)) as [Hw|Hw].
  - rewrite takeChunks_full in E; [|done|].
    2: { apply Forall_lookup. intros i c Hc. specialize (Hrs i c Hc). destruct (Hall i c Hc) as [[] ? ? ? ? ? ? ? ? ? ?]. split; [done|]. split; [done|]. split; [done|]. lia. }
    change (Some ?x ≫= ?f) with (f x) in E. cbv beta iota in E.
    pose proof (HC (calc e) (spec <$> (chunkTaken P <$> chans e))) as Hsi.
    destruct (calculate D (calc e) _) as [[[p si] reset] k1] eqn:Ec.
    destruct (runChunks D P _ p si reset false) as [[l1 ds1]|] eqn:Er; [|done]. change (Some ?x ≫= ?f) with (f x) in E. cbv beta iota in E.
    injection E as <- <- <-. pose proof (runChunks_each P p si reset _ _ _ _ Er) as H2.
    assert (Hln : length ds1 = length (chans e)) by (apply Forall2_length in H2; by rewrite fmap_length in H2).
    constructor; cbn [chans finished calc]; [destruct ds1, (chans e); done|done|].
    (* the spectra *)
    set (spectra := imap (fun i s => analyse D s (take (Z.to_nat (window P)) (drop (Z.to_nat (Z.of_nat m * increment P)) (x i)))) (spec <$> chans e)).
    assert (Hspec : forall i c, chans e !! i = Some c -> spectra !! i = Some (analyse D (spec c) (firstn_z (window P) (inbuf c)))).
    { intros i c Hc. unfold spectra. rewrite list_lookup_imap, list_lookup_fmap, Hc. cbn. f_equal. f_equal.
      destruct (Hall i c Hc). by rewrite pl_in0. }
    assert (Hlsp : length spectra = length (chans e)) by (unfold spectra; by rewrite imap_length, fmap_length).
    assert (Hsnd : snd <$> spectra = spec <$> (chunkTaken P <$> chans e)).
    { apply list_eq. intros i. rewrite !list_lookup_fmap. destruct (chans e !! i) as [c|] eqn:Hc; cbn.
      - rewrite (Hspec i c Hc). cbn. f_equal. unfold chunkTaken. destruct (analyse D _ _); done.
      - rewrite lookup_ge_None_2; [done|]. rewrite Hlsp. by apply lookup_ge_None_1. }
    eexists. split.
    + cbn [played]. rewrite Hpl. fold spectra. rewrite Hsnd, Ec. f_equal.
      apply list_eq. intros i. rewrite !list_lookup_fmap. destruct (ds1 !! i) as [d|] eqn:Hd.
      * destruct (Forall2_lookup_r _ _ _ _ _ H2 Hd) as (c1 & Hc1 & (l2 & d0 & Ed0 & Ed)).
        rewrite list_lookup_fmap in Hc1. destruct (chans e !! i) as [c|] eqn:Hc; [|done]. cbn in Hc1. injection Hc1 as <-.
        rewrite (Hspec i c Hc). cbn. f_equal.
        pose proof (plays_chunk P cap L _ _ _ _ _ c p si reset l2 d0 HP Haf Hsk Hsi (Hall i c Hc) ltac:(rewrite (Hrs i c Hc); lia) Ed0) as Hp.
        destruct (analyse D _ _) as [sp s]. cbv zeta in Hp. rewrite Ed. cbn. symmetry. apply Hp.
      * rewrite lookup_ge_None_2; [done|]. rewrite Hlsp, <- Hln. by apply lookup_ge_None_1.
    + intros i d Hd. destruct (Forall2_lookup_r _ _ _ _ _ H2 Hd) as (c1 & Hc1 & (l2 & d0 & Ed0 & Ed)).
      rewrite list_lookup_fmap in Hc1. destruct (chans e !! i) as [c|] eqn:Hc; [|done]. cbn in Hc1. injection Hc1 as <-.
      pose proof (plays_chunk P cap L _ _ _ _ _ c p si reset l2 d0 HP Haf Hsk Hsi (Hall i c Hc) ltac:(rewrite (Hrs i c Hc); lia) Ed0) as Hp.
      rewrite framesOf_app, weightsOf_app. cbn [framesOf weightsOf fmap list_fmap frames hop].
      assert (Hfr : (fst <$> ((fun '(sp, s) => modify D s sp p reset si) <$> spectra)) !! i =
        Some (let '(sp, s) := analyse D (spec c) (firstn_z (window P) (inbuf c)) in fst (modify D s sp p reset si))).
      { rewrite !list_lookup_fmap, (Hspec i c Hc). cbn. by destruct (analyse D _ _). }
      change (framesOf P i [Chunk ?a ?b]) with [(take (Z.to_nat (window P)) (default [] (a !! i)), b)].
      rewrite Hfr. cbn [default]. destruct (analyse D _ _) as [sp s]. cbv zeta in Hp. rewrite Ed. apply Hp.
  - rewrite takeChunks_none in E; [|done|].
    2: { apply Forall_lookup. intros i c Hc. specialize (Hrs i c Hc). destruct (Hall i c Hc). split; [done|]. split; [done|]. lia. }
    change (Some ?x ≫= ?f) with (f x) in E. cbv beta iota in E. injection E as <- <- <-.
    constructor; cbn [chans finished calc]; try done. exists cs. done.
Qed.

(** ** Input *)
Lemma played_length P k0 ss0 x : forall n a b z, played D P k0 ss0 x n = (a, b, z) -> length z = length ss0.
Proof.
  induction n as [|n IH]; intros a b z E; cbn [played] in E; [by injection E as _ _ <-|].
  destruct (played D P k0 ss0 x n) as [[a1 b1] c1]. destruct (calculate D b1 _) as [[[p si] reset] k2]. injection E as _ _ <-.
  rewrite !fmap_length, imap_length. by eapply IH.
Qed.
Lemma played_ext P k0 ss0 x y n : (forall i, x i = y i) -> played D P k0 ss0 x n = played D P k0 ss0 y n.
Proof.
  intros H. induction n as [|n IH]; [done|]. cbn [played]. rewrite IH. destruct (played D P k0 ss0 y n) as [[a b] c].
  erewrite imap_ext; [reflexivity|]. intros. cbn. by rewrite H.
Qed.
Lemma playing_ext P cap L L' k0 ss0 x x' g g' m e : L = L' -> (forall i, x i = x' i) -> (forall i, g i = g' i) ->
  playing P cap L k0 ss0 x g m e -> playing P cap L' k0 ss0 x' g' m e.
Proof.
  intros <- Hx Hg [P1 P2 (q & Hq & P3)]. constructor; try done. exists q. split; [rewrite <- Hq; symmetry; by apply played_ext|].
  intros i c Hc. rewrite <- Hx, <- Hg. by apply P3.
Qed.
Lemma played_more P k ss (x b : nat -> list A) L n : 0 <= increment P -> (forall i, (i < length ss)%nat -> zlen (x i) = L) ->
  (0 < Z.of_nat n -> (Z.of_nat n - 1) * increment P + window P <= L) ->
  (length (snd (played D P k ss x n)) = length ss) /\ played D P k ss (fun i => x i ++ b i) n = played D P k ss x n.
Proof.
  intros Hi Hx. induction n as [|n IH]; intros Hn; [done|]. cbn [played].
  destruct IH as [IHl IH]. { intros. specialize (Hn ltac:(lia)). nia. }
  rewrite IH. destruct (played D P k ss x n) as [[cs k1] ss1]. cbn [snd] in IHl.
  assert (E : imap (fun i s => analyse D s (take (Z.to_nat (window P)) (drop (Z.to_nat (Z.of_nat n * increment P)) (x i ++ b i)))) ss1 =
              imap (fun i s => analyse D s (take (Z.to_nat (window P)) (drop (Z.to_nat (Z.of_nat n * increment P)) (x i)))) ss1).
  { apply list_eq. intros i. rewrite !list_lookup_imap. destruct (ss1 !! i) as [s|] eqn:Es; [|done]. cbn. do 2 f_equal.
    specialize (Hn ltac:(lia)). apply lookup_lt_Some in Es. specialize (Hx i ltac:(lia)). unfold zlen in Hx.
    destruct (Z.le_gt_cases (window P) 0); [by replace (Z.to_nat (window P)) with 0%nat by lia|].
    rewrite (drop_app_le (x i) (b i)) by lia. rewrite take_app_le; [done|]. rewrite drop_length. lia. }
  rewrite E. destruct (calculate D k1 _) as [[[p si] reset] k2]. cbn [snd]. split; [|done]. by rewrite !fmap_length, imap_length.
Qed.

Definition addTo (x : nat -> list A) (bs : list (list A)) : nat -> list A := fun i => x i ++ default [] (bs !! i).

(** What consumeAll does to each channel. *)
Lemma consumeAll_each P : before P = false -> forall (cs : list chan) bs i, length bs = length cs ->
  let took c b := Z.min (inCap c - zlen (inbuf c)) (zlen b) in
  consumeAll D P (fun _ => false) i cs bs false =
    (zip_with (fun c b => set_in c (inbuf c ++ firstn_z (took c b) b) (inCount c + took c b)) cs bs,
     zip_with (fun c b => skipn_z (took c b) b) cs bs).
Proof.
  intros Hb. induction cs as [|c cs IH]; intros bs i Hl took; destruct bs as [|b bs]; try done.
  cbn [consumeAll zip_with]. unfold consumeChannel. rewrite Hb, andb_false_r. cbv zeta.
  rewrite IH by (cbn in Hl; lia). done.
Qed.

Lemma plays_more P cap L x g m fs ws c b n M : sane P -> plays P cap L x g m fs ws c -> zlen b = n ->
  plays P cap (L + n) (x ++ b) g m fs ws (set_in c (inbuf c ++ b) M).
Proof.
  intros HP HT Hn. pose proof (plays_rs _ _ _ _ _ _ _ _ _ HP HT) as Hz. destruct HT as [Hi Hfl Hsz Hdr Hcap Hx Hin Hlen HO Hsp Hst].
  pose proof (zlen_nonneg (inbuf c)). pose proof (zlen_nonneg b). constructor; try done.
  - by apply inv_set_in.
  - rewrite zlen_app. lia.
  - cbn. rewrite Hin at 1. rewrite skipn_z_app; [done|]. lia.
  - intros Hm. specialize (Hlen Hm). lia.
  - by destruct HO.
Qed.

Lemma feed_playing P cap k0 ss0 g : sane P -> before P = false -> after P = false -> 0 <= startSkip P -> calm D (window P) ->
  window P <= cap ->
  forall f L x m e bs n k ds, length ss0 = length (chans e) -> (forall i, (i < length ss0)%nat -> zlen (x i) = L) ->
  playing P cap L k0 ss0 x g m e -> length bs = length (chans e) -> 0 <= n -> Forall (fun b => zlen b = n) bs ->
  L - Z.of_nat m * increment P <= cap ->
  feedRT D f P (fun _ => false) (calc e) (chans e) bs false = Some (k, ds) ->
  exists m', length ds = length (chans e) /\ playing P cap (L + n) k0 ss0 (addTo x bs) g m' (Engine ds k false) /\
    L + n - Z.of_nat m' * increment P <= cap /\ (m <= m')%nat /\
    (n <= increment P -> L - Z.of_nat m * increment P < window P -> L + n - Z.of_nat m' * increment P < window P).
Proof.
  intros HP Hb Haf Hsk HC Hcap. pose proof (sane_incr _ _ HP) as Hinc. pose proof (sane_window _ _ HP) as Hwin.
  induction f as [|f IH]; intros L x m e bs n k ds Hss HL HT Hlb Hn Hbs Hroom E; [done|]. cbn [feedRT] in E.
  rewrite consumeAll_each in E by done. cbv zeta in E.
  assert (Hrs := fun i c => playing_rs P cap L k0 ss0 x g m e i c HP HT).
  set (t := Z.min (cap - (L - Z.of_nat m * increment P)) n).
  assert (Ht : 0 <= t <= n) by lia.
  destruct HT as [Hne Hfin (cs & Hpl & Hall)].
  assert (Htook : forall i c b, chans e !! i = Some c -> bs !! i = Some b -> Z.min (inCap c - zlen (inbuf c)) (zlen b) = t).
  { intros i c b Hc Hbi. rewrite (Hrs i c Hc), (pl_cap _ _ _ _ _ _ _ _ _ (Hall i c Hc)). rewrite Forall_lookup in Hbs. by rewrite (Hbs i b Hbi). }
  match type of E with context [processOneChunk D P _ ?a] => set (cs1 := a) in E end.
  match type of E with context [forallb _ ?a] => set (rests := a) in E end.
  assert (Hrests : rests = skipn_z t <$> bs).
  { apply list_eq. intros i. unfold rests. rewrite lookup_zip_with, list_lookup_fmap.
    destruct (chans e !! i) as [c|] eqn:Hc, (bs !! i) as [b|] eqn:Hbi; cbn; try done.
    - by rewrite (Htook i c b).
    - apply lookup_ge_None_1 in Hc. apply lookup_lt_Some in Hbi. lia. }
  clearbody rests. subst rests.
  assert (Hl1 : length cs1 = length (chans e)) by (unfold cs1; rewrite zip_with_length; lia).
  assert (HT1 : playing P cap (L + t) k0 ss0 (addTo x (firstn_z t <$> bs)) g m (Engine cs1 (calc e) false)).
  { constructor; cbn [chans finished calc]; [destruct cs1, (chans e); done|done|]. exists cs. split.
    - assert (Hs1 : spec <$> cs1 = spec <$> chans e).
      { apply list_eq. intros i. rewrite !list_lookup_fmap. unfold cs1. rewrite lookup_zip_with.
        destruct (chans e !! i) as [c|] eqn:Hc; [|done]. cbn. destruct (lookup_lt_is_Some_2 bs i) as [b ->]; [|done].
        rewrite Hlb. by eapply lookup_lt_Some. }
      rewrite Hs1, <- Hpl. destruct (chans e) as [|c0 ?] eqn:Ee; [done|].
      apply (played_more P k0 ss0 x (fun i => default [] ((firstn_z t <$> bs) !! i)) L m); [lia|done|]. intros Hm0. apply (pl_len _ _ _ _ _ _ _ _ _ (Hall 0%nat c0 eq_refl)). lia.
    - intros i c1 Hc1. unfold cs1 in Hc1. rewrite lookup_zip_with in Hc1. destruct (chans e !! i) as [c|] eqn:Hc; [|done].
      destruct (bs !! i) as [b|] eqn:Hbi; [|done]. cbn in Hc1. injection Hc1 as <-. unfold addTo. rewrite list_lookup_fmap, Hbi. cbn [fmap option_fmap option_map default].
      rewrite (Htook i c b) by done. apply plays_more; [done|by apply Hall|]. rewrite Forall_lookup in Hbs. rewrite zlen_firstn, (Hbs i b Hbi). lia. }
  destruct (processOneChunk D P (calc e) cs1) as [[[l k1] ds1]|] eqn:E1; [|done]. change (Some ?x ≫= ?f) with (f x) in E. cbv beta iota in E.
  pose proof (playing_chunk P cap (L + t) k0 ss0 _ g m _ l k1 ds1 HP Haf Hsk HC HT1 E1) as HT2.
  set (m1 := if _ <=? _ then _ else _) in HT2.
  assert (Hm1 : (m <= m1)%nat /\ L + t - Z.of_nat m1 * increment P <= cap /\
    (window P <= L + t - Z.of_nat m * increment P -> m1 = Datatypes.S m) /\ (L + t - Z.of_nat m * increment P < window P -> m1 = m)).
  { unfold m1. destruct (Z.leb_spec (window P) (L + t - Z.of_nat m * increment P)); split; try lia; split; try lia; split; lia. }
  clearbody m1. destruct Hm1 as (Hm1 & Hroom1 & Hstep1 & Hstep2).
  assert (Hl2 : length ds1 = length (chans e)).
  { rewrite <- Hl1. destruct HT1 as [_ _ (q1 & Hq1 & _)], HT2 as [_ _ (q2 & Hq2 & _)]. cbn [calc chans] in *.
    apply played_length in Hq1, Hq2. rewrite fmap_length in Hq1, Hq2. lia. }
  destruct (forallb _ _) eqn:Er in E.
  - injection E as <- <-. 
    assert (t = n) as Htn.
    { destruct bs as [|b bs]; [destruct (chans e); done|]. cbn [fmap list_fmap forallb] in Er. apply andb_true_iff in Er as [Er _].
      rewrite zlen_skipn in Er. apply Forall_cons in Hbs as [Hb1 _]. lia. }
    exists m1. split; [done|]. rewrite Htn in *.
    assert (Hadd : firstn_z n <$> bs = bs).
    { apply list_eq. intros i. rewrite list_lookup_fmap. destruct (bs !! i) as [b|] eqn:Hbi; [|done]. cbn. f_equal.
      rewrite Forall_lookup in Hbs. apply take_ge. specialize (Hbs i b Hbi). unfold zlen in Hbs. lia. }
    rewrite Hadd in HT2. split; [done|]. split; [done|]. split; [done|]. lia.
  - destruct (IH (L + t) (addTo x (firstn_z t <$> bs)) m1 (Engine ds1 k1 false) (skipn_z t <$> bs) (n - t) k ds) as (m2 & H1 & H2 & H3 & H4 & H5);
      cbn [chans calc finished]; try done; try lia.
    + intros i Hi. unfold addTo. rewrite zlen_app, HL by done. rewrite list_lookup_fmap. destruct (lookup_lt_is_Some_2 bs i) as [b Hbi]; [lia|].
      rewrite Hbi. cbn. rewrite Forall_lookup in Hbs. rewrite zlen_firstn, (Hbs i b Hbi). lia.
    + by rewrite fmap_length, Hl2.
    + apply Forall_fmap. eapply Forall_impl; [exact Hbs|]. intros b Hb1. cbv beta in Hb1. change (zlen (skipn_z t b) = n - t). rewrite zlen_skipn. lia.
    + exists m2. replace (L + t + (n - t)) with (L + n) in * by lia. cbn [chans] in *. split; [lia|]. split.
      * refine (playing_ext _ _ _ _ _ _ _ _ _ _ _ _ eq_refl _ (fun _ => eq_refl) H2). intros i. unfold addTo. rewrite !list_lookup_fmap.
        destruct (bs !! i) as [b|]; cbn; [|by rewrite !app_nil_r]. by rewrite <- app_assoc, firstn_skipn_z.
      * split; [done|]. split; [lia|]. intros Hq1 Hq2. apply H5; [lia|].
        assert (t = cap - (L - Z.of_nat m * increment P)).
        { destruct (decide (t = n)) as [->|]; [|lia]. exfalso. assert (forallb (fun r : list A => zlen r =? 0) (skipn_z n <$> bs) = true); [|congruence].
          apply forallb_forall. intros r Hr. apply elem_of_list_In, elem_of_list_fmap in Hr as (b & -> & Hb1). rewrite Forall_forall in Hbs.
          rewrite zlen_skipn, (Hbs b Hb1). lia. }
        rewrite Hstep1 by lia. lia.
Qed.

(** ** Output *)
Lemma takeOut_each q t : forall (cs : list chan) n, Forall (fun c => zlen (outbuf c) = q) cs -> 0 <= n -> Z.min n q = t ->
  takeOut cs n = ((fun c => firstn_z t (outbuf c)) <$> cs, match cs with [] => n | _ => t end,
                  (fun c => set_out c (skipn_z t (outbuf c)) (outCount c)) <$> cs).
Proof.
  induction cs as [|c cs IH]; intros n H Hn Ht; [done|]. apply Forall_cons in H as [Hc H]. cbn [takeOut].
  assert (E1 : firstn_z n (outbuf c) = firstn_z t (outbuf c)).
  { destruct (Z.le_gt_cases n q); [by replace t with n by lia|]. pose proof (zlen_nonneg (outbuf c)). unfold firstn_z, zlen in *. rewrite !take_ge by lia. done. }
  assert (E2 : skipn_z n (outbuf c) = skipn_z t (outbuf c)).
  { destruct (Z.le_gt_cases n q); [by replace t with n by lia|]. by rewrite !skipn_z_all by lia. }
  pose proof (zlen_nonneg (outbuf c)). rewrite E1, E2. rewrite zlen_firstn. replace (Z.max 0 (Z.min t (zlen (outbuf c)))) with t by lia.
  rewrite (IH t) by (done || lia). cbn. by destruct cs.
Qed.

Definition feeds (a : rcall A) : Prop := match a with Finish _ => False | _ => True end.
Definition small (n : Z) (a : rcall A) : Prop := match a with Feed b => Forall (fun x => zlen x <= n) b | _ => True end.

Lemma calls_playing P cap k0 ss0 : sane P -> before P = false -> after P = false -> 0 <= startSkip P -> calm D (window P) ->
  window P <= cap ->
  forall cs L G x g m e rs e', length ss0 = length (chans e) -> (forall i, (i < length ss0)%nat -> zlen (x i) = L /\ zlen (g i) = G) ->
  playing P cap L k0 ss0 x g m e -> Forall (fits (length (chans e))) cs -> Forall feeds cs -> L - Z.of_nat m * increment P <= cap ->
  rtCalls D P e cs = Some (rs, e') ->
  exists m' L' G', (m <= m')%nat /\ length ss0 = length (chans e') /\
    (forall i, (i < length ss0)%nat -> zlen (x i ++ given cs i) = L' /\ zlen (g i ++ returned rs i) = G') /\
    playing P cap L' k0 ss0 (fun i => x i ++ given cs i) (fun i => g i ++ returned rs i) m' e' /\
    (Forall (small (increment P)) cs -> L - Z.of_nat m * increment P < window P -> L' - Z.of_nat m' * increment P < window P).
Proof.
  intros HP Hb Haf Hsk HC Hcap. pose proof (sane_incr _ _ HP) as Hinc. pose proof (sane_window _ _ HP) as Hwin.
  induction cs as [|a cs IH]; intros L G x g m e rs e' Hss Hxg HT Hfit Hfd Hroom E.
  { injection E as <- <-. exists m, L, G. split; [done|]. split; [done|]. cbn [given returned]. split.
    { intros i Hi. rewrite !app_nil_r. by apply Hxg. }
    split; [|done]. refine (playing_ext _ _ _ _ _ _ _ _ _ _ _ _ eq_refl _ _ HT); intros; by rewrite app_nil_r. }
  apply Forall_cons in Hfit as [Ha Hfit]. apply Forall_cons in Hfd as [Hf Hfd]. cbn [rtCalls] in E.
  destruct (rtCall D P e a) as [[r e1]|] eqn:E1; [|done]. change (Some ?x ≫= ?f) with (f x) in E. cbv beta iota in E.
  destruct (rtCalls D P e1 cs) as [[rs1 e2]|] eqn:E2; [|done]. change (Some ?x ≫= ?f) with (f x) in E. cbv beta iota in E.
  injection E as <- <-.
  destruct a as [b|b| |n]; cbn [rtCall] in E1; [|done| |].
  - (* process *)
    unfold processRT in E1. rewrite (py_fin _ _ _ _ _ _ _ _ _ HT) in E1.
    destruct (feedRT D _ P _ (calc e) (chans e) b false) as [[k ds]|] eqn:Ef; [|done]. change (Some ?x ≫= ?f) with (f x) in E1. cbv beta iota in E1.
    change (Some ?x ≫= ?f) with (f x) in E1. cbv beta iota in E1. injection E1 as <- <-.
    cbn [fits] in Ha. assert (Hbl : length b = length (chans e)) by apply Ha.
    assert (Hbne : b <> []) by (pose proof (py_ne _ _ _ _ _ _ _ _ _ HT); destruct b, (chans e); done).
    pose proof (blockLen_level _ _ Ha Hbne) as Hbs. set (n := Z.of_nat (blockLen b)) in *.
    assert (Hn : 0 <= n) by (unfold n; lia). clearbody n.
    destruct (feed_playing P cap k0 ss0 g HP Hb Haf Hsk HC Hcap _ L x m e b n k ds Hss ltac:(intros i Hi; apply (Hxg i Hi)) HT Hbl Hn Hbs Hroom Ef) as (m1 & Hld & HT1 & Hr1 & Hm1 & Hlow1).
    destruct (IH (L + n) G (addTo x b) g m1 (Engine ds k false) rs1 e2) as (m2 & L2 & G2 & H1 & H2 & H3 & H4 & H5); cbn [chans]; try done.
    + by rewrite Hld.
    + intros i Hi. destruct (Hxg i Hi) as [X1 X2]. split; [|done]. unfold addTo. rewrite zlen_app, X1. destruct (lookup_lt_is_Some_2 b i) as [y Hy]; [lia|].
      rewrite Hy. cbn. rewrite Forall_lookup in Hbs. by rewrite (Hbs i y Hy).
    + by rewrite Hld.
    + exists m2, L2, G2. split; [lia|]. split; [done|]. cbn [given returned]. split.
      { intros i Hi. specialize (H3 i Hi). unfold addTo in H3. by rewrite <- app_assoc in H3. }
      split; [refine (playing_ext _ _ _ _ _ _ _ _ _ _ _ _ eq_refl _ (fun _ => eq_refl) H4); intros; unfold addTo; by rewrite <- app_assoc|].
      intros Hs Hlow. apply Forall_cons in Hs as [Hs1 Hs]. apply H5; [done|]. apply Hlow1; [|done]. cbn [small] in Hs1.
      destruct b as [|b0 b]; [done|]. apply Forall_cons in Hs1 as [Hs1 _]. apply Forall_cons in Hbs as [Hbs _]. lia.
  - (* available *)
    unfold availableRT in E1. destruct HT as [P1 P2 (q & Hq & P3)]. destruct (chans e) as [|c0 cs0] eqn:Ee; [done|].
    rewrite (pl_size _ _ _ _ _ _ _ _ _ (P3 0%nat c0 eq_refl)) in E1. change (Some ?x ≫= ?f) with (f x) in E1. cbv beta iota in E1.
    change (Some ?x ≫= ?f) with (f x) in E1. cbv beta iota in E1. injection E1 as <- <-.
    destruct (IH L G x g m (Engine (c0 :: cs0) (calc e) (finished e)) rs1 e2) as (m2 & L2 & G2 & H1 & H2 & H3 & H4 & H5); cbn [chans]; try done.
    { constructor; try done. by exists q. }
    exists m2, L2, G2. split; [done|]. split; [done|]. split; [done|]. split; [done|]. intros Hs Hlow. apply Forall_cons in Hs as [_ Hs]. by apply H5.
  - (* retrieve *)
    destruct HT as [P1 P2 (q & Hq & P3)]. cbn [fits] in Ha.
    assert (Hsp : forall i, span (framesOf P i q) = sumZ (hop <$> q)).
    { intros i. unfold span, framesOf. by rewrite <- list_fmap_compose. }
    set (Q := Z.max 0 (Z.min (sumZ (hop <$> q) - startSkip P) (sumZ (hop <$> q) - startSkip P)) - G).
    assert (HQ : Forall (fun c => zlen (outbuf c) = Q) (chans e)).
    { apply Forall_lookup. intros i c Hc. destruct (P3 i c Hc) as [? ? Hsz ? ? ? ? ? HO ? [T1 T2]].
      pose proof (ao_pos _ _ _ _ _ HO) as Hpos. rewrite Hsp in *.
      unfold theo, capped in T1. rewrite Hsz in T1. rewrite zlen_olaFrom in T1 by done. cbn [Z.ltb Z.compare] in T1.
      apply (f_equal zlen) in T2. rewrite zlen_app, zlen_firstn, zlen_skipn, zlen_olaFrom in T2 by done.
      apply lookup_lt_Some in Hc. destruct (Hxg i ltac:(lia)) as [_ Hg]. unfold Q. change (0 <? 0) with false in T1. cbv iota in T1. rewrite T1 in T2. lia. }
    set (t := Z.min n Q). rewrite (takeOut_each Q t (chans e) n HQ Ha eq_refl) in E1.
    assert (Ht0 : 0 <= t).
    { destruct (chans e) as [|c0 ?]; [done|]. apply Forall_cons in HQ as [HQ _]. pose proof (zlen_nonneg (outbuf c0)). lia. }
    assert (E1' : (Frames (firstn_z t <$> ((fun c => firstn_z t (outbuf c)) <$> chans e)), Engine ((fun c => set_out c (skipn_z t (outbuf c)) (outCount c)) <$> chans e) (calc e) (finished e)) = (r, e1)).
    { destruct (chans e); [done|]. injection E1 as E1 E1'. by rewrite <- E1, <- E1'. }
    clear E1. injection E1' as <- <-. clearbody t.
    assert (Hret : forall i c, chans e !! i = Some c -> default [] ((firstn_z t <$> ((fun c => firstn_z t (outbuf c)) <$> chans e)) !! i) = firstn_z t (outbuf c)).
    { intros i c Hc. rewrite !list_lookup_fmap, Hc. cbn. rewrite firstn_firstn_z by lia. done. }
    set (fr := firstn_z t <$> _) in *.
    destruct (IH L (G + Z.max 0 (Z.min t Q)) x (fun i => g i ++ default [] (fr !! i)) m (Engine ((fun c => set_out c (skipn_z t (outbuf c)) (outCount c)) <$> chans e) (calc e) (finished e)) rs1 e2) as (m2 & L2 & G2 & H1 & H2 & H3 & H4 & H5); cbn [chans]; try done.
    + by rewrite fmap_length.
    + intros i Hi. destruct (Hxg i Hi) as [X1 X2]. split; [done|]. destruct (lookup_lt_is_Some_2 (chans e) i) as [c Hc]; [lia|].
      rewrite (Hret i c Hc), zlen_app, X2, zlen_firstn. rewrite Forall_lookup in HQ. by rewrite (HQ i c Hc).
    + constructor; cbn [chans finished calc]; [destruct (chans e); done|done|]. exists q. split.
      { rewrite Hq. f_equal. rewrite <- list_fmap_compose. by apply list_fmap_ext. }
      intros i d Hd. rewrite list_lookup_fmap in Hd. destruct (chans e !! i) as [c|] eqn:Hc; [|done]. cbn in Hd. injection Hd as <-.
      rewrite (Hret i c Hc). destruct (P3 i c Hc) as [Hinv ? ? ? ? ? ? ? HO ? [T1 T2]]. constructor; try done.
      * destruct Hinv as [[] [I1 I2] ? ?]. constructor; [by constructor| |done|done]. split; [|done]. cbn. rewrite zlen_skipn. pose proof (zlen_nonneg (outbuf c)). lia.
      * by destruct HO.
      * split; [done|]. cbn. by rewrite <- app_assoc, firstn_skipn_z.
    + by rewrite fmap_length.
    + exists m2, L2, G2. split; [done|]. split; [done|]. cbn [given returned]. split.
      { intros i Hi. specialize (H3 i Hi). by rewrite <- app_assoc in H3. }
      split; [refine (playing_ext _ _ _ _ _ _ _ _ _ _ _ _ eq_refl (fun _ => eq_refl) _ H4); intros; by rewrite <- app_assoc|].
      intros Hs Hlow. apply Forall_cons in Hs as [_ Hs]. by apply H5.
Qed.
End RtVocoder.
