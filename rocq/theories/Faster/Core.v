(** Well-formedness, safety and simulation lemmas for the R2 core. *)
From stdpp Require Import prelude.
From Coq Require Import ZArith QArith Qround Lia Lqa.
From Verif Require Import Base.Arith Faster.Model.
Local Open Scope Z_scope.

Section Lists.
Context {T : Type}.
Implicit Types l : list T.
Lemma zlen_firstn n l : zlen (firstn_z n l) = Z.max 0 (Z.min n (zlen l)).
Proof. unfold zlen, firstn_z. rewrite take_length. lia. Qed.
Lemma zlen_skipn n l : zlen (skipn_z n l) = Z.max 0 (zlen l - Z.max 0 n).
Proof. unfold zlen, skipn_z. rewrite drop_length. lia. Qed.
Lemma firstn_z_all n l : zlen l <= n -> firstn_z n l = l.
Proof. intros H. unfold firstn_z, zlen in *. apply take_ge. lia. Qed.
Lemma skipn_z_all n l : zlen l <= n -> skipn_z n l = [].
Proof. intros H. unfold skipn_z, zlen in *. apply drop_ge. lia. Qed.
Lemma firstn_z_app n l k : n <= zlen l -> firstn_z n (l ++ k) = firstn_z n l.
Proof. intros H. unfold firstn_z, zlen in *. apply take_app_le. lia. Qed.
Lemma skipn_z_app n l k : n <= zlen l -> skipn_z n (l ++ k) = skipn_z n l ++ k.
Proof. intros H. unfold skipn_z, zlen in *. apply drop_app_le. lia. Qed.
Lemma firstn_skipn_z n l : firstn_z n l ++ skipn_z n l = l.
Proof. apply take_drop. Qed.
Lemma skipn_z_0 l : skipn_z 0 l = l.
Proof. done. Qed.
Lemma skipn_z_add m n l : 0 <= m -> 0 <= n -> skipn_z m (skipn_z n l) = skipn_z (n + m) l.
Proof. intros. unfold skipn_z. rewrite drop_drop. f_equal. lia. Qed.
Lemma zlen_0 l : zlen l = 0 -> l = [].
Proof. unfold zlen. destruct l; cbn [length]; [done|lia]. Qed.
Lemma zlen_replicate n (x : T) : zlen (replicate n x) = Z.of_nat n.
Proof. unfold zlen. by rewrite replicate_length. Qed.
End Lists.

Section Core.
Context {A S R K : Type} (D : dsp A S R K).
Notation chan := (channel A S R).
Implicit Types (P : params) (c : chan).

Lemma v_zip_some (f : A -> A -> A) d s n : 0 <= n <= zlen d -> n <= zlen s ->
  v_zip f d s n = Some (zip_with f (firstn_z n d) (firstn_z n s) ++ skipn_z n d).
Proof.
  intros H1 H2. unfold v_zip.
  rewrite (proj2 (Z.leb_le 0 n)), (proj2 (Z.leb_le n (zlen d))), (proj2 (Z.leb_le n (zlen s))) by lia. done.
Qed.
Lemma v_zip_len (f : A -> A -> A) d s n l : v_zip f d s n = Some l -> zlen l = zlen d /\ 0 <= n <= zlen d /\ n <= zlen s.
Proof.
  unfold v_zip. destruct (Z.leb_spec 0 n), (Z.leb_spec n (zlen d)), (Z.leb_spec n (zlen s)); cbn [andb]; try done.
  intros E. injection E as <-. split; [|lia]. rewrite zlen_app, zlen_skipn. unfold zlen at 1.
  rewrite zip_with_length. unfold firstn_z. rewrite !take_length. unfold zlen in *. lia.
Qed.
Lemma v_shift_some d sz si : 0 <= si <= sz -> sz <= zlen d -> exists l, v_shift D d sz si = Some l /\ zlen l = zlen d.
Proof.
  intros H1 H2. unfold v_shift.
  rewrite (proj2 (Z.leb_le 0 si)), (proj2 (Z.leb_le si sz)), (proj2 (Z.leb_le sz (zlen d))) by lia. cbn [andb].
  eexists. split; [reflexivity|]. rewrite !zlen_app, !zlen_skipn, zlen_firstn, zlen_replicate. lia.
Qed.
Lemma pushed_room (b x : list A) cap : zlen b + zlen x <= cap -> pushed b x cap = b ++ x.
Proof. intros H. unfold pushed. by rewrite firstn_z_all by lia. Qed.

(** ** Conditions *)
(** Output samples allowed for a shift of [si] (StretcherProcess.cpp:488-492). *)
Definition need P (si : Z) : Z := if Qeq_bool (pitchScale P) 1 then si else Qfloor (inject_Z si / pitchScale P) + 1.

Record sane P : Prop := Sane {
  sane_incr : 1 <= increment P;
  sane_window : 4 * increment P <= window P;
  sane_pitch : (0 < pitchScale P)%Q;
  sane_analyse : forall s x, zlen (fst (analyse D s x)) = zlen x;
  sane_modify : forall s x p r si, zlen (fst (modify D s x p r si)) = zlen x;
  sane_shape : forall si, window P <= zlen (shape D si);
  (** The resampler keeps to the room reserved for it. *)
  sane_after : after P = true -> forall r x n last, zlen (fst (resample D r x n (/ pitchScale P) last)) <= need P (zlen x);
  (** Without it nothing shrinks the chunk. *)
  sane_plain : after P = false -> (pitchScale P <= 1)%Q
}.

Record wf P c : Prop := Wf {
  wf_flt : window P <= zlen (fltbuf c);
  wf_acc : window P <= zlen (acc c);
  wf_wacc : zlen (wacc c) = zlen (acc c);
  wf_fill : 0 <= fill c <= zlen (acc c)
}.
Definition capok P c : Prop := zlen (outbuf c) <= outCap c /\ need P (window P) <= outCap c.

Lemma need_mono P a b : (0 < pitchScale P)%Q -> a <= b -> need P a <= need P b.
Proof.
  intros Hp H. unfold need. destruct (Qeq_bool _ _); [done|].
  assert (Qfloor (inject_Z a / pitchScale P) <= Qfloor (inject_Z b / pitchScale P)); [|lia].
  apply Qfloor_resp_le. unfold Qdiv. apply Qmult_le_compat_r; [by apply inject_Z_inj_le|].
  apply Qlt_le_weak, Qinv_lt_0_compat. done.
Qed.
Lemma need_ge P a : (0 < pitchScale P)%Q -> (pitchScale P <= 1)%Q -> 0 <= a -> a <= need P a.
Proof.
  intros Hp H1 Ha. unfold need. destruct (Qeq_bool _ _); [done|].
  assert (a <= Qfloor (inject_Z a / pitchScale P)); [|lia].
  rewrite <- (Qfloor_Z a) at 1. apply Qfloor_resp_le. apply Qle_shift_div_l; [done|].
  assert (0 <= inject_Z a)%Q by (by apply (inject_Z_inj_le 0)). nra.
Qed.

(** ** writeOutput *)
(** What is written, and the new count, when there is room. *)
Definition emit P (oc : Z) (from : list A) (th : Z) : list A * Z :=
  let skip := startSkip P in
  let qty := zlen from in
  if skip <? oc then
    let pos := oc - skip in
    let qty := if (0 <? th) && (pos <=? th) && (th <? pos + qty) then th - pos else qty in
    (firstn_z qty from, oc + qty)
  else if oc + qty <=? skip then ([], oc + qty)
  else (skipn_z (skip - oc) from, oc + qty).

Lemma writeOutput_emit P c x th : zlen (outbuf c) + zlen x <= outCap c ->
  writeOutput P c x th = set_out c (outbuf c ++ fst (emit P (outCount c) x th)) (snd (emit P (outCount c) x th)).
Proof.
  intros H. unfold writeOutput, emit. pose proof (zlen_nonneg x).
  destruct (Z.ltb_spec (startSkip P) (outCount c)).
  - cbn [fst snd]. match goal with |- context [firstn_z ?x _] => set (q := x) end.
    assert (Hq : 0 <= q <= zlen x).
    { unfold q. destruct (_ && _) eqn:E; [|lia].
      apply andb_true_iff in E as [E E3]. apply andb_true_iff in E as [E1 E2]. lia. }
    rewrite pushed_room by (rewrite zlen_firstn; lia). f_equal.
    rewrite zlen_app, zlen_firstn. lia.
  - destruct (Z.leb_spec (outCount c + zlen x) (startSkip P)); cbn [fst snd].
    + by rewrite app_nil_r.
    + rewrite pushed_room by (rewrite zlen_skipn; lia). done.
Qed.
Lemma emit_len P oc x th : zlen (fst (emit P oc x th)) <= zlen x.
Proof.
  unfold emit. pose proof (zlen_nonneg x). destruct (_ <? _); [|destruct (_ <=? _)]; cbn [fst].
  - rewrite zlen_firstn. lia.
  - unfold zlen at 1. cbn [length]. lia.
  - rewrite zlen_skipn. lia.
Qed.

(** ** Simulation: same state, [c'] with more input behind and more output in front *)
Record sim (g b : list A) c c' : Prop := Sim {
  sim_in : inbuf c' = inbuf c ++ b; sim_out : outbuf c' = g ++ outbuf c;
  sim_flt : fltbuf c' = fltbuf c; sim_acc : acc c' = acc c; sim_wacc : wacc c' = wacc c; sim_fill : fill c' = fill c;
  sim_spec : spec c' = spec c; sim_rsm : rsm c' = rsm c; sim_rb : rbSize c' = rbSize c;
  sim_chunk : chunkCount c' = chunkCount c; sim_size : inputSize c' = inputSize c; sim_oc : outCount c' = outCount c;
  sim_drain : draining c' = draining c; sim_compl : outputComplete c' = outputComplete c
}.

Definition writes P c (si : Z) (last : bool) : option (list A * R * Z * list A) :=
  a ← v_zip (quot D) (acc c) (wacc c) si;
  if after P then
    let rb := Z.max (rbSize c) (cceil (inject_Z si / pitchScale P)) in
    let '(out, r) := resample D (rsm c) (firstn_z si a) rb (/ pitchScale P) last in Some (out, r, rb, a)
  else Some (firstn_z si a, rsm c, rbSize c, a).

Lemma writeChunk_writes P c si last : writeChunk D P c si last =
  (x ← writes P c si last;
   let '(out, r, rb, a) := (x : list A * R * Z * list A) in
   let th := match inputSize c with Some n => rint (inject_Z n * timeRatio P) | None => 0 end in
   let c1 := writeOutput P (set_rsm c r rb) out th in
   a' ← v_shift D a (fill c) si;
   w' ← v_shift D (wacc c) (fill c) si;
   Some (if si <? fill c then set_acc c1 a' w' (fill c - si)
         else let c2 := set_acc c1 a' w' 0 in if draining c then set_complete c2 true else c2)).
Proof.
  unfold writeChunk, writes. destruct (v_zip _ _ _ _) as [a|]; [|done].
  change (Some a ≫= ?f) with (f a). cbv beta.
  destruct (after P).
  - destruct (resample D _ _ _ _ _) as [out r]. reflexivity.
  - change (set_rsm c (rsm c) (rbSize c)) with (set_rsm c (rsm c) (rbSize c)).
    destruct c; reflexivity.
Qed.

Lemma writes_some P c si last : sane P -> wf P c -> 0 <= si <= zlen (acc c) ->
  exists out r rb a, writes P c si last = Some (out, r, rb, a) /\ zlen a = zlen (acc c) /\ zlen out <= need P si.
Proof.
  intros HP Hc Hsi. unfold writes. rewrite v_zip_some by (rewrite ?(wf_wacc _ _ Hc); lia).
  change (Some ?a ≫= ?f) with (f a). cbv beta.
  set (a := _ ++ _).
  assert (Ha : zlen a = zlen (acc c)).
  { destruct (v_zip_len (quot D) (acc c) (wacc c) si a) as [H _]; [|done].
    apply v_zip_some; rewrite ?(wf_wacc _ _ Hc); lia. }
  assert (Hf : zlen (firstn_z si a) = si) by (rewrite zlen_firstn; lia).
  destruct (after P) eqn:Ea.
  - pose proof (sane_after _ HP Ea (rsm c) (firstn_z si a) (Z.max (rbSize c) (cceil (inject_Z si / pitchScale P))) last) as H.
    rewrite Hf in H. destruct (resample D _ _ _ _ _) as [out r]. cbn [fst] in H. eauto 10.
  - do 4 eexists. split_and!; [reflexivity|done|]. rewrite Hf. apply need_ge; [apply HP|by apply (sane_plain _ HP)|lia].
Qed.

Lemma writes_sim P c c' g b si last : sim g b c c' -> writes P c' si last = writes P c si last.
Proof. intros []. unfold writes. by rewrite sim_acc0, sim_wacc0, sim_rsm0, sim_rb0. Qed.

Lemma writeChunk_ok P c si last : sane P -> wf P c -> 0 <= si <= fill c -> si <= window P -> need P si <= outCap c - zlen (outbuf c) ->
  exists d out, writeChunk D P c si last = Some d /\ wf P d /\
    inbuf d = inbuf c /\ inCap d = inCap c /\ outCap d = outCap c /\ inCount d = inCount c /\
    inputSize d = inputSize c /\ draining d = draining c /\ chunkCount d = chunkCount c /\
    fill d = fill c - si /\ outputComplete d = (outputComplete c || (draining c && (fill c =? si))) /\
    (after P = false -> zlen out = si) /\
    (let e := emit P (outCount c) out (match inputSize c with Some n => rint (inject_Z n * timeRatio P) | None => 0 end) in
     outbuf d = outbuf c ++ fst e /\ outCount d = snd e) /\ zlen (outbuf d) <= outCap d.
Proof.
  intros HP Hc Hsi Hw Hroom. rewrite writeChunk_writes.
  pose proof (wf_fill _ _ Hc) as Hfill.
  destruct (writes_some P c si last HP Hc ltac:(lia)) as (out & r & rb & a & Ew & Ha & Hout).
  rewrite Ew. change (Some ?x ≫= ?f) with (f x). cbv beta iota zeta.
  set (th := match inputSize c with Some n => _ | None => 0 end).
  rewrite writeOutput_emit by (cbn [outbuf outCap set_rsm]; lia).
  cbn [outbuf outCount set_rsm].
  destruct (v_shift_some a (fill c) si) as (a' & Ea & Hla); [lia|lia|].
  destruct (v_shift_some (wacc c) (fill c) si) as (w' & Ew' & Hlw); [lia|rewrite (wf_wacc _ _ Hc); lia|].
  rewrite Ea. change (Some a' ≫= ?f) with (f a'). cbv beta. rewrite Ew'. change (Some w' ≫= ?f) with (f w'). cbv beta.
  assert (Hlen : after P = false -> zlen out = si).
  { intros Ef. revert Ew. unfold writes. destruct (v_zip _ _ _ _) as [a0|]; [|done].
    change (Some a0 ≫= ?f) with (f a0). cbv beta. rewrite Ef. intros E. injection E as <- _ _ ->.
    rewrite zlen_firstn. lia. }
  assert (Hroom2 : zlen (outbuf c ++ fst (emit P (outCount c) out th)) <= outCap c).
  { rewrite zlen_app. pose proof (emit_len P (outCount c) out th). lia. }
  eexists. exists out. split; [reflexivity|].
  destruct Hc.
  destruct (Z.ltb_spec si (fill c)), (Z.eqb_spec (fill c) si); try lia; destruct (draining c) eqn:Ed;
  (split; [constructor; cbn [fltbuf acc wacc fill set_acc set_complete set_out set_rsm set_outCap]; lia|]);
  cbn [inbuf inCap outbuf outCap inCount inputSize draining chunkCount fill outputComplete outCount
       set_acc set_complete set_out set_rsm];
  rewrite ?orb_true_r, ?orb_false_r; cbn [andb];
  repeat (split; [done || lia|]); try lia; done.
Qed.

Lemma writeChunk_sim P c c' g b si last d : sane P -> wf P c -> 0 <= si <= fill c -> si <= window P -> sim g b c c' ->
  need P si <= outCap c - zlen (outbuf c) -> need P si <= outCap c' - zlen (outbuf c') ->
  writeChunk D P c si last = Some d -> exists d', writeChunk D P c' si last = Some d' /\ sim g b d d'.
Proof.
  intros HP Hc Hsi Hw Hs Hr Hr' E. rewrite writeChunk_writes in *.
  pose proof (wf_fill _ _ Hc) as Hfill.
  destruct (writes_some P c si last HP Hc ltac:(lia)) as (out & r & rb & a & Ew & Ha & Hout).
  rewrite (writes_sim P c c' g b si last Hs). rewrite Ew in *.
  change (Some ?x ≫= ?f) with (f x) in *. cbv beta iota zeta in *.
  rewrite writeOutput_emit in * by (cbn [outbuf outCap set_rsm]; lia).
  cbn [outbuf outCount set_rsm] in *.
  destruct Hs. rewrite sim_size0, sim_wacc0, sim_fill0, sim_drain0, sim_oc0.
  destruct (v_shift D a (fill c) si) as [a'|]; [|done].
  change (Some a' ≫= ?f) with (f a') in *. cbv beta in *.
  destruct (v_shift D (wacc c) (fill c) si) as [w'|]; [|done].
  change (Some w' ≫= ?f) with (f w') in *. cbv beta in *.
  injection E as <-. eexists. split; [reflexivity|].
  destruct (si <? fill c); [|destruct (draining c) eqn:?];
    (constructor; cbn; rewrite ?sim_in0, ?sim_out0, ?sim_flt0, ?sim_chunk0, ?sim_compl0, ?sim_spec0, ?sim_size0, ?sim_drain0, ?app_assoc; try done; congruence).
Qed.

(** Expected length of the whole output, zero when unknown. *)
Definition theo P c : Z := match inputSize c with Some n => rint (inject_Z n * timeRatio P) | None => 0 end.
(** [d] has [n] more samples written (before resampling) than [c]. *)
Implicit Types d : chan.
Definition wrote P c d (n : Z) : Prop := exists out, (after P = false -> zlen out = n) /\
  outbuf d = outbuf c ++ fst (emit P (outCount c) out (theo P c)) /\
  outCount d = snd (emit P (outCount c) out (theo P c)).

Record same c d : Prop := Same {
  same_in : inbuf d = inbuf c; same_incap : inCap d = inCap c; same_incount : inCount d = inCount c;
  same_size : inputSize d = inputSize c; same_drain : draining d = draining c
}.
Lemma same_refl c : same c c.
Proof. done. Qed.
Lemma same_trans c d e : same c d -> same d e -> same c e.
Proof. intros [] []. constructor; congruence. Qed.

Lemma synthesise_ok P c p si reset : sane P -> wf P c ->
  exists d, synthesise D P c p si reset = Some d /\ wf P d /\ same c d /\ fill d = Z.max (fill c) (window P) /\
    outbuf d = outbuf c /\ outCap d = outCap c /\ outCount d = outCount c /\ outputComplete d = outputComplete c /\
    chunkCount d = chunkCount c.
Proof.
  intros HP Hc. unfold synthesise. destruct Hc as [H1 H2 H3 H4].
  pose proof (sane_modify _ HP (spec c) (fltbuf c) p reset si) as Hm.
  destruct (modify D _ _ _ _ _) as [f s]. cbn [fst] in Hm.
  pose proof (sane_shape _ HP si) as Hsh.
  pose proof (sane_incr _ HP). pose proof (sane_window _ HP).
  destruct (v_zip (add D) (acc c) f (window P)) as [a|] eqn:Ea.
  2: { rewrite v_zip_some in Ea by lia. done. }
  change (Some a ≫= ?f) with (f a). cbv beta.
  destruct (v_zip (add D) (wacc c) (shape D si) (window P)) as [w|] eqn:Ew.
  2: { rewrite v_zip_some in Ew by lia. done. }
  change (Some w ≫= ?f) with (f w). cbv beta.
  apply v_zip_len in Ea as [Ea _]. apply v_zip_len in Ew as [Ew _].
  eexists. split; [reflexivity|]. split; [|split; [by constructor|split_and!; reflexivity]].
  constructor; cbn [fltbuf acc wacc fill set_acc set_flt]; try lia.
  destruct (smoothing P); [|lia]. rewrite zlen_app, zlen_firstn, zlen_skipn. lia.
Qed.
Lemma synthesise_sim P c c' g b p si reset d : sim g b c c' -> synthesise D P c p si reset = Some d ->
  exists d', synthesise D P c' p si reset = Some d' /\ sim g b d d' /\ outCap d' = outCap c' /\ outbuf d' = outbuf c' /\ outCap d = outCap c /\ outbuf d = outbuf c.
Proof.
  intros [] E. unfold synthesise in *. rewrite sim_spec0, sim_flt0, sim_acc0, sim_wacc0, sim_fill0.
  destruct (modify D _ _ _ _ _) as [f s].
  destruct (v_zip (add D) (acc c) f (window P)) as [a|]; [|done]. change (Some a ≫= ?f) with (f a) in *. cbv beta in *.
  destruct (v_zip (add D) (wacc c) (shape D si) (window P)) as [w|]; [|done]. change (Some w ≫= ?f) with (f w) in *. cbv beta in *.
  injection E as <-. eexists. split; [reflexivity|]. split_and!; try reflexivity. constructor; cbn; done.
Qed.

(** The shift actually made (StretcherProcess.cpp:470-486). *)
Definition shiftOf P c (si : Z) : Z :=
  if draining c then Z.min (fill c) (if si =? 0 then increment P else si) else si.

Lemma pcfc_ok P c p si reset : sane P -> wf P c -> capok P c -> 0 <= si <= window P ->
  exists last d, processChunkForChannel D P c p si reset = Some (last, d) /\ wf P d /\ capok P d /\ same c d /\
    chunkCount d = chunkCount c /\
    last = (draining c && (fill c <=? shiftOf P c si)) /\
    fill d = (if draining c then fill c else Z.max (fill c) (window P)) - shiftOf P c si /\
    outputComplete d = (outputComplete c || (last && negb (fill c =? 0))) /\
    (if draining c && (fill c =? 0) then outbuf d = outbuf c /\ outCount d = outCount c
     else wrote P c d (shiftOf P c si)).
Proof.
  intros HP Hc [Hcap1 Hcap2] Hsi. unfold processChunkForChannel.
  pose proof (sane_incr _ HP) as Hi. pose proof (sane_window _ HP) as Hw.
  assert (Hstep : forall c1 last n, wf P c1 -> same c c1 -> outbuf c1 = outbuf c -> outCap c1 = outCap c ->
    outCount c1 = outCount c -> chunkCount c1 = chunkCount c ->
    0 <= n <= fill c1 -> n <= window P ->
    exists d, writeChunk D P (if outCap c1 - zlen (outbuf c1) <? need P n then set_outCap c1 (outCap c1 * 2) else c1) n last
              = Some d /\ wf P d /\ capok P d /\ same c d /\ chunkCount d = chunkCount c /\
      fill d = fill c1 - n /\ outputComplete d = (outputComplete c1 || (draining c && (fill c1 =? n))) /\ wrote P c d n).
  { intros c1 last n Hc1 Hs1 Ho1 Hk1 Hn1 Hch1 Hn Hnw.
    match goal with |- context [writeChunk D P ?x n last] => set (c2 := x) end.
    assert (H2 : wf P c2 /\ same c c2 /\ outbuf c2 = outbuf c /\ outCap c <= outCap c2 /\ outCount c2 = outCount c /\
      chunkCount c2 = chunkCount c /\ fill c2 = fill c1 /\ outputComplete c2 = outputComplete c1 /\
      need P n <= outCap c2 - zlen (outbuf c2)).
    { pose proof (need_mono P n (window P) (sane_pitch _ HP) Hnw) as Hm. pose proof (zlen_nonneg (outbuf c1)).
      unfold c2. destruct (Z.ltb_spec (outCap c1 - zlen (outbuf c1)) (need P n)).
      - split; [by destruct Hc1|]. split; [by destruct Hs1|]. cbn [outbuf outCap outCount chunkCount fill outputComplete set_outCap].
        rewrite Ho1, Hk1 in *. split_and!; try done; lia.
      - rewrite Ho1, Hk1 in *. split_and!; try done; lia. }
    clearbody c2. destruct H2 as (Hwf2 & Hs2 & Ho2 & Hk2 & Hn2 & Hch2 & Hf2 & Hcm2 & Hroom).
    destruct (writeChunk_ok P c2 n last HP Hwf2 ltac:(lia) Hnw Hroom) as
      (d & out & Ed & Hwd & E1 & E2 & E3 & E4 & E5 & E6 & E7 & E8 & E9 & Hl & [E10 E11] & E12).
    destruct Hs2.
    exists d. split; [exact Ed|]. split; [exact Hwd|]. split; [split; lia|].
    split; [constructor; congruence|]. split; [congruence|]. split; [congruence|]. split.
    - rewrite E9. rewrite Hcm2, Hf2. f_equal. f_equal. congruence.
    - exists out. split; [done|]. unfold theo. rewrite <- same_size0, <- Hn2, <- Ho2. by split. }
  unfold shiftOf. destruct (draining c) eqn:Ed.
  - change (Some c ≫= ?f) with (f c). cbv beta. unfold drainShift. rewrite Ed.
    pose proof (wf_fill _ _ Hc) as Hf.
    destruct (Z.eqb_spec (fill c) 0) as [E0|E0].
    + exists true, c. set (x := if si =? 0 then increment P else si). assert (0 <= x) by (unfold x; destruct (si =? 0); lia).
      replace (Z.min (fill c) x) with 0 by lia. rewrite (proj2 (Z.leb_le (fill c) 0)) by lia. cbn [andb negb].
      rewrite orb_false_r. do 4 (split; [done|]). split_and!; try done. lia.
    + set (x := if si =? 0 then increment P else si). assert (Hx : 1 <= x <= window P).
      { unfold x. destruct (Z.eqb_spec si 0); lia. }
      destruct (Z.leb_spec (fill c) x).
      * destruct (Hstep c true (fill c) Hc) as (d & Ed' & H1 & H2 & H3 & H4 & H5 & H6 & H7); try done; try lia.
        fold (need P (fill c)). rewrite Ed'. change (Some d ≫= ?f) with (f d). cbv beta. exists true, d.
        replace (Z.min (fill c) x) with (fill c) by lia. rewrite Z.leb_refl. cbn [andb negb].
        rewrite Z.eqb_refl, orb_true_r in *. cbn [andb] in *. split_and!; try done.
      * destruct (Hstep c false x Hc) as (d & Ed' & H1 & H2 & H3 & H4 & H5 & H6 & H7); try done; try lia.
        fold (need P x). rewrite Ed'. change (Some d ≫= ?f) with (f d). cbv beta. exists false, d.
        replace (Z.min (fill c) x) with x by lia. rewrite (proj2 (Z.leb_gt (fill c) x)) by lia. cbn [andb].
        rewrite (proj2 (Z.eqb_neq (fill c) x)) in H6 by lia. cbn [andb] in H6. split_and!; try done.
  - destruct (synthesise_ok P c p si reset HP Hc) as (c1 & E1 & Hw1 & Hs1 & Hf1 & Ho1 & Hk1 & Hn1 & Hcm1 & Hch1).
    rewrite E1. change (Some c1 ≫= ?f) with (f c1). cbv beta. unfold drainShift.
    rewrite (same_drain _ _ Hs1), Ed. cbn [andb].
    destruct (Hstep c1 false si Hw1) as (d & Ed' & H1 & H2 & H3 & H4 & H5 & H6 & H7); try done; try lia.
    fold (need P si). rewrite Ed'. change (Some d ≫= ?f) with (f d). cbv beta. exists false, d.
    cbn [andb] in *. rewrite Hcm1 in H6. split_and!; try done. lia.
Qed.

Lemma pcfc_sim P c c' g b p si reset last d : sane P -> wf P c -> capok P c -> capok P c' -> 0 <= si <= window P ->
  sim g b c c' -> processChunkForChannel D P c p si reset = Some (last, d) ->
  exists d', processChunkForChannel D P c' p si reset = Some (last, d') /\ sim g b d d'.
Proof.
  intros HP Hc [Hk1 Hk2] [Hk1' Hk2'] Hsi Hs E. unfold processChunkForChannel in *.
  pose proof (sane_incr _ HP) as Hi. pose proof (sane_window _ HP) as Hw.
  assert (Hstep : forall c1 c1' l n d, wf P c1 -> sim g b c1 c1' -> outbuf c1 = outbuf c -> outCap c1 = outCap c ->
    outbuf c1' = outbuf c' -> outCap c1' = outCap c' -> 0 <= n <= fill c1 -> n <= window P ->
    writeChunk D P (if outCap c1 - zlen (outbuf c1) <? need P n then set_outCap c1 (outCap c1 * 2) else c1) n l = Some d ->
    exists d', writeChunk D P (if outCap c1' - zlen (outbuf c1') <? need P n then set_outCap c1' (outCap c1' * 2) else c1') n l
              = Some d' /\ sim g b d d').
  { intros c1 c1' l n e Hc1 Hs1 Ho Hk Ho' Hk' Hn Hnw.
    pose proof (need_mono P n (window P) (sane_pitch _ HP) Hnw) as Hm.
    apply writeChunk_sim; try done.
    - destruct (_ <? _); [by destruct Hc1|done].
    - destruct (_ <? _); done.
    - destruct (_ <? _), (_ <? _); by destruct Hs1.
    - destruct (Z.ltb_spec (outCap c1 - zlen (outbuf c1)) (need P n)); [cbn [outCap outbuf set_outCap]|]; rewrite ?Ho, ?Hk in *; lia.
    - destruct (Z.ltb_spec (outCap c1' - zlen (outbuf c1')) (need P n)); [cbn [outCap outbuf set_outCap]|]; rewrite ?Ho', ?Hk' in *; lia. }
  assert (Hcase : exists c1 c1', (if draining c then Some c else synthesise D P c p si reset) = Some c1 /\
    (if draining c' then Some c' else synthesise D P c' p si reset) = Some c1' /\ wf P c1 /\ sim g b c1 c1' /\
    outbuf c1 = outbuf c /\ outCap c1 = outCap c /\ outbuf c1' = outbuf c' /\ outCap c1' = outCap c' /\
    draining c1 = draining c /\ (draining c = false -> window P <= fill c1)).
  { rewrite (sim_drain _ _ _ _ Hs). destruct (draining c) eqn:Ed.
    - exists c, c'. split_and!; try done.
    - destruct (synthesise_ok P c p si reset HP Hc) as (c1 & E1 & Hw1 & Hs1 & Hf1 & Ho1 & Hkk & _).
      destruct (synthesise_sim P c c' g b p si reset c1 Hs E1) as (c1' & E1' & Hs1' & ? & ? & ? & ?).
      exists c1, c1'. split_and!; try done.
      + rewrite (same_drain _ _ Hs1). done.
      + intros _. lia. }
  destruct Hcase as (c1 & c1' & E1 & E1' & Hw1 & Hs1 & Ho1 & Hc1 & Ho1' & Hc1' & Hd1 & Hf1).
  rewrite E1 in E. rewrite E1'. change (Some ?x ≫= ?f) with (f x) in *. cbv beta in *.
  assert (Eds : drainShift P c1' si = drainShift P c1 si).
  { unfold drainShift. by rewrite (sim_drain _ _ _ _ Hs1), (sim_fill _ _ _ _ Hs1). }
  rewrite Eds. destruct (drainShift P c1 si) as [[n l]|] eqn:Eds'.
  2: { injection E as <- <-. eauto. }
  assert (Hn : 0 <= n <= fill c1 /\ n <= window P).
  { revert Eds'. unfold drainShift. rewrite Hd1. pose proof (wf_fill _ _ Hw1). destruct (draining c).
    - destruct (Z.eqb_spec (fill c1) 0); [done|]. set (x := if si =? 0 then increment P else si).
      assert (1 <= x <= window P) by (unfold x; destruct (Z.eqb_spec si 0); lia).
      destruct (Z.leb_spec (fill c1) x); intros Ex; injection Ex as <- _; lia.
    - intros Ex. injection Ex as <- _. specialize (Hf1 eq_refl). lia. }
  fold (need P n) in *.
  match type of E with (?X ≫= _) = _ => destruct X as [e|] eqn:Ee; [|done] end.
  change (Some e ≫= ?f) with (f e) in *. cbv beta in *. injection E as <- <-.
  destruct (Hstep c1 c1' l n e) as (d' & Ed' & Hsd); try done; try apply Hn.
  rewrite Ed'. exists d'. split; [reflexivity|done].
Qed.
End Core.
