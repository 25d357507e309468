(** The real-time loops of the R2 engine: all channels move together. *)
From stdpp Require Import prelude.
From Coq Require Import ZArith QArith Qround Lia Lqa ZifyBool.
From Verif Require Import Base.Arith Faster.Model Faster.Core Faster.Chunks Faster.Stream Faster.RealTimeRuns.
Local Open Scope Z_scope.

(** What all channels have in common: samples skipped, samples taken, ... *)
Record lev := Lev { lq : Z; lic : Z; ldr : bool; lsz : option Z; lcap : Z; lf : Z; loc : bool; lch : Z }.

Section RT.
Context {A S R K : Type} (D : dsp A S R K).
Notation chan := (channel A S R).
Implicit Types (P : params) (c d e : chan) (s t : lev).
Notation sane := (sane D).

(** Channel [c], given [x] so far, stands at [s]. *)
Record at_ P s c (x : list A) : Prop := At {
  at_inv : inv P c; at_in : inbuf c = skipn_z (lq s) x; at_len : zlen x = lic s; at_q : 0 <= lq s <= lic s;
  at_ic : inCount c = lic s; at_dr : draining c = ldr s; at_sz : inputSize c = lsz s; at_cap : inCap c = lcap s;
  at_f : fill c = lf s; at_oc : outputComplete c = loc s; at_ch : chunkCount c = lch s; at_out : 0 <= outCount c
}.
Lemma at_rs P s c x : at_ P s c x -> zlen (inbuf c) = lic s - lq s.
Proof. intros []. rewrite at_in0, zlen_skipn. lia. Qed.

Definition take P s : option lev :=
  if (lic s - lq s <? window P) && negb (ldr s) then
    match lsz s with
    | None => None
    | Some _ => if lic s - lq s =? 0 then None
      else if lic s - lq s <? window P / 2 then Some (Lev (lq s) (lic s) true (lsz s) (lcap s) (lf s) (loc s) (lch s))
      else Some (Lev (lq s + increment P) (lic s) (ldr s) (lsz s) (lcap s) (lf s) (loc s) (lch s))
    end
  else if ldr s then Some s else Some (Lev (lq s + increment P) (lic s) (ldr s) (lsz s) (lcap s) (lf s) (loc s) (lch s)).

Lemma takeChunks_ok P s : sane P -> forall cs xs, Forall2 (at_ P s) cs xs -> cs <> [] ->
  match take P s with
  | None => takeChunks D P cs = Some (false, cs)
  | Some t => exists ds, takeChunks D P cs = Some (true, ds) /\ Forall2 (at_ P t) ds xs /\ Forall2 (fun c d => outbuf d = outbuf c /\ outCount d = outCount c) cs ds
  end.
Proof.
  intros HP. pose proof (sane_incr _ _ HP) as Hinc. pose proof (sane_window _ _ HP) as Hwin.
  assert (Hhalf : 2 * increment P <= window P / 2 < window P) by (split; [apply Z.div_le_lower_bound; lia|apply Z.div_lt; lia]).
  assert (Hpeek : forall c x, at_ P s c x -> ldr s = false -> window P / 2 <= lic s - lq s -> exists d,
    (c ← peekChunk P c; let '(flt, s) := analyse D (spec c) (fltbuf c) in Some (set_flt c flt s)) = Some d /\
    at_ P (Lev (lq s + increment P) (lic s) (ldr s) (lsz s) (lcap s) (lf s) (loc s) (lch s)) d x /\ outbuf d = outbuf c /\ outCount d = outCount c).
  { intros c x Hc Hd Hn. destruct (peekChunk_ok P c (inv_wf _ _ (at_inv _ _ _ _ Hc))) as (c1 & fl & E & E1 & El & _).
    rewrite E. change (Some ?x ≫= ?f) with (f x). cbv beta.
    pose proof (sane_analyse _ _ HP (spec c1) (fltbuf c1)) as Ha. destruct (analyse D _ _) as [g sp]. cbn [fst] in Ha.
    eexists. split; [reflexivity|]. subst c1. destruct Hc as [Hi Hc1 Hc2 Hc3 Hc4 Hc5 Hc6 Hc7 Hc8 Hc9 Hc10 Hc11]. destruct Hi as [Hw Hk Hch Hf].
    cbn [fltbuf set_flt set_in] in Ha. split; [|done].
    constructor; try done; cbn [lq lic]; [|cbn; rewrite Hc1, skipn_z_add by lia; done|lia].
    constructor; try done. destruct Hw. constructor; cbn; try done. lia. }
  assert (Hmain : forall t, take P s = Some t -> forall cs xs, Forall2 (at_ P s) cs xs ->
    exists ds, takeChunks D P cs = Some (true, ds) /\ Forall2 (at_ P t) ds xs /\ Forall2 (fun c d => outbuf d = outbuf c /\ outCount d = outCount c) cs ds).
  { intros t Et. induction 1 as [|c x cs xs Hc Hcs IH]; [by exists []; repeat constructor|].
    destruct IH as (ds & Eds & Hds & Ho). cbn [takeChunks].
    assert (exists c1 d, testInbufReadSpace P c = (true, c1) /\
      (if draining c1 then Some c1 else c ← peekChunk P c1; let '(flt, s) := analyse D (spec c) (fltbuf c) in Some (set_flt c flt s)) = Some d /\
      at_ P t d x /\ outbuf d = outbuf c /\ outCount d = outCount c) as (c1 & d & E1 & E2 & Hd & Ho1).
    { pose proof (at_rs _ _ _ _ Hc) as Hrs. unfold testInbufReadSpace, take in *. rewrite Hrs, (at_dr _ _ _ _ Hc), (at_sz _ _ _ _ Hc).
      pose proof (at_dr _ _ _ _ Hc) as Hdr.
      destruct (ldr s) eqn:Ed.
      - rewrite andb_false_r in *. injection Et as <-. exists c, c. rewrite Hdr. done.
      - rewrite andb_true_r in *. destruct (Z.ltb_spec (lic s - lq s) (window P)).
        + destruct (lsz s) as [z|] eqn:Ez; [|done]. destruct (Z.eqb_spec (lic s - lq s) 0); [done|].
          destruct (Z.ltb_spec (lic s - lq s) (window P / 2)).
          * injection Et as <-. exists (set_drain c true), (set_drain c true). split; [done|]. split; [done|]. split; [|done].
            destruct Hc. constructor; try done; [by apply inv_set_drain|cbn; congruence].
          * injection Et as <-. destruct (Hpeek c x Hc eq_refl ltac:(lia)) as (d & E & Hd & Ho1). exists c, d. rewrite Hdr. done.
        + injection Et as <-. destruct (Hpeek c x Hc eq_refl ltac:(lia)) as (d & E & Hd & Ho1). exists c, d. rewrite Hdr. done. }
    rewrite E1, E2. change (Some ?x ≫= ?f) with (f x). cbv beta. rewrite Eds. change (Some ?x ≫= ?f) with (f x). cbv beta iota.
    exists (d :: ds). split; [done|]. split; by constructor. }
  intros cs xs H Hne. destruct (take P s) as [t|] eqn:Et; [by apply (Hmain t)|].
  destruct H as [|c x cs xs Hc Hcs]; [done|]. cbn [takeChunks].
  pose proof (at_rs _ _ _ _ Hc) as Hrs. unfold testInbufReadSpace, take in *. rewrite Hrs, (at_dr _ _ _ _ Hc), (at_sz _ _ _ _ Hc).
  destruct (ldr s) eqn:Ed; [by rewrite andb_false_r in *|]. rewrite andb_true_r in *.
  destruct (Z.ltb_spec (lic s - lq s) (window P)); [|done].
  destruct (lsz s) as [z|] eqn:Ez; [|done]. destruct (Z.eqb_spec (lic s - lq s) 0); [done|].
  destruct (Z.ltb_spec (lic s - lq s) (window P / 2)); done.
Qed.

Definition shiftL P s (si : Z) : Z := if ldr s then Z.min (lf s) (if si =? 0 then increment P else si) else si.
Definition lastL P s (si : Z) : bool := ldr s && (lf s <=? shiftL P s si).
Definition run P s (si : Z) : lev :=
  Lev (lq s) (lic s) (ldr s) (lsz s) (lcap s) ((if ldr s then lf s else Z.max (lf s) (window P)) - shiftL P s si)
    (loc s || (lastL P s si && negb (lf s =? 0))) (lch s + 1).

(** What a round writes to each channel. *)
Definition wroteR P s (si : Z) c d : Prop :=
  if ldr s && (lf s =? 0) then outbuf d = outbuf c /\ outCount d = outCount c
  else exists out, (after P = false -> zlen out = shiftL P s si) /\
    outbuf d = outbuf c ++ fst (emit P (outCount c) out (match lsz s with Some n => rint (inject_Z n * timeRatio P) | None => 0 end)) /\
    outCount d = snd (emit P (outCount c) out (match lsz s with Some n => rint (inject_Z n * timeRatio P) | None => 0 end)).

Lemma emit_count P oc (x : list A) th : 0 <= oc -> 0 <= snd (emit P oc x th).
Proof.
  intros H. unfold emit. pose proof (zlen_nonneg x). destruct (_ <? _); [|destruct (_ <=? _)]; cbn [snd]; try lia.
  destruct (_ && _) eqn:E; [|lia]. apply andb_true_iff in E as [E E3]. apply andb_true_iff in E as [E1 E2]. lia.
Qed.
Lemma runChunks_ok P s p si reset : sane P -> 0 <= si <= window P -> forall cs xs b, Forall2 (at_ P s) cs xs ->
  exists ds, runChunks D P cs p si reset b = Some (match cs with [] => b | _ => lastL P s si end, ds) /\
    Forall2 (at_ P (run P s si)) ds xs /\ Forall2 (wroteR P s si) cs ds.
Proof.
  intros HP Hsi cs xs b H. revert b. induction H as [|c x cs xs Hc Hcs IH]; intros b; [by exists []; repeat constructor|].
  cbn [runChunks]. destruct Hc as [[Hw Hk Hch Hfl] Hc1 Hc2 Hc3 Hc4 Hc5 Hc6 Hc7 Hc8 Hc9 Hc10 Hc11].
  destruct (pcfc_ok D P c p si reset HP Hw Hk Hsi) as (last & d & E & Hwd & Hkd & Hs & Hcd & El & Ef & Eo & Ew).
  rewrite E. change (Some ?x ≫= ?f) with (f x). cbv beta iota.
  destruct (IH last) as (ds & Eds & Hds & Hwr). rewrite Eds. change (Some ?x ≫= ?f) with (f x). cbv beta iota.
  assert (Esh : shiftOf P c si = shiftL P s si) by (unfold shiftOf, shiftL; by rewrite Hc5, Hc8).
  rewrite Esh, Hc5, Hc8 in *. change (ldr s && (lf s <=? shiftL P s si)) with (lastL P s si) in El. subst last.
  exists (set_chunk d (chunkCount d + 1) :: ds). split; [by destruct Hcs|]. split; (constructor; [|done]).
  - destruct Hs as [Hs1 Hs2 Hs3 Hs4 Hs5]. pose proof (sane_incr _ _ HP). pose proof (sane_window _ _ HP).
    assert (Hout : 0 <= outCount d).
    { destruct (ldr s && (lf s =? 0)); [by destruct Ew as [_ ->]|]. destruct Ew as (out & _ & _ & ->). by apply emit_count. }
    constructor; cbn; try congruence.
    constructor; cbn; [by destruct Hwd|exact Hkd|lia|].
    rewrite Ef. unfold shiftL. destruct (ldr s); [|lia]. destruct (wf_fill _ _ Hw). destruct (si =? 0); lia.
  - unfold wroteR. cbn. destruct (ldr s && (lf s =? 0)); [done|]. destruct Ew as (out & O1 & O2 & O3). exists out.
    unfold theo in *. rewrite Hc6 in *. done.
Qed.

(** One round, whatever the increments turn out to be. *)
Definition calm (b : Z) : Prop := forall k ss, let '(_, si, _, _) := calculate D k ss in 0 <= si <= b.
Lemma wroteR_ext P s si c c' d : outbuf c' = outbuf c -> outCount c' = outCount c -> wroteR P s si c' d -> wroteR P s si c d.
Proof. unfold wroteR. intros -> ->. done. Qed.

Lemma oneChunk_ok P B s k : sane P -> calm B -> B <= window P -> forall cs xs, Forall2 (at_ P s) cs xs -> cs <> [] ->
  match take P s with
  | None => processOneChunk D P k cs = Some (false, k, cs)
  | Some t => exists p si reset ss k' ds, calculate D k ss = (p, si, reset, k') /\ 0 <= si <= B /\
     processOneChunk D P k cs = Some (lastL P t si, k', ds) /\ Forall2 (at_ P (run P t si)) ds xs /\ Forall2 (wroteR P t si) cs ds
  end.
Proof.
  intros HP HC HB cs xs H Hne. pose proof (takeChunks_ok P s HP cs xs H Hne) as Ht. unfold processOneChunk.
  destruct (take P s) as [t|].
  - destruct Ht as (ds & E & Hd & Ho). rewrite E. change (Some ?x ≫= ?f) with (f x). cbv beta iota.
    pose proof (HC k (spec <$> ds)) as Hc. destruct (calculate D k (spec <$> ds)) as [[[p si] reset] k'] eqn:Ec.
    destruct (runChunks_ok P t p si reset HP ltac:(lia) ds xs false Hd) as (es & Ee & He & Hw).
    rewrite Ee. change (Some ?x ≫= ?f) with (f x). cbv beta iota.
    exists p, si, reset, (spec <$> ds), k', es. split; [done|]. split; [done|]. split; [|split; [done|]].
    + f_equal. f_equal. f_equal. destruct ds; [|done]. by inversion Ho; subst.
    + clear -Ho Hw. revert es Hw. induction Ho as [|c d cs ds [H1 H2] _ IH]; intros es Hw; inversion Hw; subst; [done|].
      constructor; [by eapply wroteR_ext|by apply IH].
  - rewrite Ht. change (Some ?x ≫= ?f) with (f x). by cbv beta iota.
Qed.

(** ** Taking input *)
Definition taken s (n : Z) (fin : bool) : lev :=
  Lev (lq s) (lic s + n) (ldr s) (if fin then Some (lic s + n) else lsz s) (lcap s) (lf s) (loc s) (lch s).
Lemma consumeAll_ok P s ms final m : before P = false -> lic s - lq s <= lcap s -> 0 <= m -> forall cs xs bs i, Forall2 (at_ P s) cs xs ->
  length bs = length cs -> Forall (fun b => zlen b = m) bs ->
  let n := Z.min (lcap s - (lic s - lq s)) m in
  exists ds, consumeAll D P ms i cs bs final = (ds, skipn_z n <$> bs) /\
    Forall2 (at_ P (taken s n ((m - n =? 0) && final))) ds (zip_with (fun x b => x ++ firstn_z n b) xs bs) /\
    Forall2 (fun c d => outbuf d = outbuf c /\ outCount d = outCount c) cs ds.
Proof.
  intros Hb Hcap Hm. induction cs as [|c cs IH]; intros xs bs i H El Hbs n.
  { inversion H; subst. destruct bs; [|done]. exists []. repeat constructor. }
  inversion H as [|? x ? xs' Hc Hcs]; subst. destruct bs as [|b bs]; [done|]. apply Forall_cons in Hbs as [Eb Hbs].
  cbn [consumeAll]. unfold consumeChannel. rewrite Hb.
  pose proof (at_rs _ _ _ _ Hc) as Hrs. rewrite Hrs, (at_cap _ _ _ _ Hc), Eb. fold n.
  destruct (IH xs' bs (Datatypes.S i) Hcs ltac:(by injection El) Hbs) as (ds & E & Hd & Ho). fold n in E, Hd. rewrite E.
  assert (Hz : zlen (skipn_z n b) = m - n) by (rewrite zlen_skipn; lia). rewrite Hz.
  eexists. split; [reflexivity|]. cbn [zip_with]. split; [|by constructor; [destruct ((_ =? _) && _)|]].
  constructor; [|done]. destruct Hc as [Hi Hc1 Hc2 Hc3 Hc4 Hc5 Hc6 Hc7 Hc8 Hc9 Hc10 Hc11].
  assert (Hlen : zlen (x ++ firstn_z n b) = lic s + n) by (rewrite zlen_app, zlen_firstn; lia).
  assert (Hn : 0 <= n) by lia.
  assert (Hin : inbuf c ++ firstn_z n b = skipn_z (lq s) (x ++ firstn_z n b)) by (rewrite skipn_z_app by lia; congruence).
  destruct ((m - n =? 0) && final).
  - constructor; cbn; try done; try lia; [by apply inv_set_size, inv_set_in|f_equal; lia].
  - constructor; cbn; try done; try lia. by apply inv_set_in.
Qed.
Lemma zip_app (xs bs : list (list A)) n : length bs = length xs ->
  zip_with app (zip_with (fun x b => x ++ firstn_z n b) xs bs) (skipn_z n <$> bs) = zip_with app xs bs.
Proof.
  revert bs. induction xs as [|x xs IH]; intros [|b bs] E; try done. cbn. rewrite <- app_assoc, firstn_skipn_z. f_equal. apply IH. by injection E.
Qed.


(** ** Levels: how they move *)
Inductive lsteps P (B : Z) : lev -> lev -> Prop :=
| ls_refl s : lsteps P B s s
| ls_chunk s t si u : take P s = Some t -> 0 <= si <= B -> lsteps P B (run P t si) u -> lsteps P B s u
| ls_take s n fin u : lsz s = None -> 0 <= n -> lic s - lq s + n <= lcap s -> lsteps P B (taken s n fin) u -> lsteps P B s u.
Lemma lsteps_trans P B s t u : lsteps P B s t -> lsteps P B t u -> lsteps P B s u.
Proof. induction 1; intros; [done|eapply ls_chunk; eauto|eapply ls_take; eauto]. Qed.

Record good P s : Prop := Good {
  g_done : loc s = true -> ldr s = true /\ lf s = 0;
  g_drain : ldr s = true -> lsz s <> None /\ lic s - lq s < window P / 2;
  g_fill : 0 <= lf s <= window P;
  g_left : ldr s = false -> 0 < lq s -> 0 < lic s - lq s;
  g_q : 0 <= lq s <= lic s;
  g_mult : exists j, lq s = j * increment P;
  g_cap : window P <= lcap s /\ lic s - lq s <= lcap s
}.
Lemma take_cases P s t : sane P -> take P s = Some t ->
  (ldr s = true /\ t = s) \/
  (ldr s = false /\ lsz s <> None /\ 0 < lic s - lq s < window P / 2 \/ False) /\ t = Lev (lq s) (lic s) true (lsz s) (lcap s) (lf s) (loc s) (lch s) \/
  (ldr s = false /\ window P / 2 <= lic s - lq s /\ (window P <= lic s - lq s \/ lsz s <> None)) /\
    t = Lev (lq s + increment P) (lic s) false (lsz s) (lcap s) (lf s) (loc s) (lch s) \/ (lic s < lq s).
Proof.
  intros HP. pose proof (sane_incr _ _ HP) as Hinc. pose proof (sane_window _ _ HP) as Hwin.
  assert (Hhalf : 2 * increment P <= window P / 2 < window P) by (split; [apply Z.div_le_lower_bound; lia|apply Z.div_lt; lia]).
  unfold take. destruct (ldr s) eqn:Ed; [rewrite andb_false_r; intros [= <-]; auto|]. rewrite andb_true_r.
  destruct (Z.ltb_spec (lic s - lq s) (window P)).
  - destruct (lsz s); [|done]. destruct (Z.eqb_spec (lic s - lq s) 0); [done|].
    destruct (Z.ltb_spec (lic s - lq s) (window P / 2)); intros [= <-].
    + destruct (Z_lt_dec (lic s) (lq s)); [auto 6|]. right; left. split; [|done]. left. split; [done|]. split; [done|lia].
    + right; right; left. split; [|done]. split; [done|]. split; [done|]. right. done.
  - intros [= <-]. right; right; left. split; [|done]. split; [done|]. split; [lia|]. left. lia.
Qed.
Lemma run_good P s si : sane P -> 0 <= si <= window P -> (ldr s = false -> 0 < lic s - lq s) ->
  (loc s = true -> ldr s = true /\ lf s = 0) -> (ldr s = true -> lsz s <> None /\ lic s - lq s < window P / 2) ->
  0 <= lf s <= window P -> 0 <= lq s <= lic s -> (exists j, lq s = j * increment P) -> window P <= lcap s /\ lic s - lq s <= lcap s ->
  good P (run P s si).
Proof.
  intros HP Hsi H1 H2 H3 H4 H5 H6 H7. pose proof (sane_incr _ _ HP) as Hinc.
  constructor; cbn [run lq lic ldr lsz lcap lf loc]; try done; unfold lastL, shiftL.
  - destruct (loc s) eqn:Eo; cbn [orb].
    + intros _. destruct H2 as [-> ->]; [done|]. split; [done|]. destruct (si =? 0); lia.
    + destruct (ldr s); [|done]. cbn [andb]. destruct (Z.leb_spec (lf s) (Z.min (lf s) (if si =? 0 then increment P else si))); [|done].
      intros _. split; [done|]. destruct (si =? 0); lia.
  - destruct (ldr s); [destruct (si =? 0); lia|lia].
  - intros Hd _. by apply H1.
Qed.
Lemma lstep_good P B s t : sane P -> B <= window P -> lsteps P B s t -> good P s -> good P t.
Proof.
  intros HP HB. pose proof (sane_incr _ _ HP) as Hinc. pose proof (sane_window _ _ HP) as Hwin.
  assert (Hhalf : 2 * increment P <= window P / 2 < window P) by (split; [apply Z.div_le_lower_bound; lia|apply Z.div_lt; lia]).
  induction 1 as [|s t si u Et Hsi _ IH|s n fin u Hz Hn Hc _ IH]; intros Hg; [done| |]; apply IH.
  - destruct (take_cases P s t HP Et) as [[E ->]|[[[H|[]] ->]|[[H ->]|H]]]; [| | |destruct Hg; lia].
    + destruct Hg. apply run_good; try done; [lia|congruence].
    + destruct Hg. destruct H as (Hd & Hz & Hl). apply run_good; cbn [lq lic ldr lsz lcap lf loc]; try done; try lia.
      intros _. split; [done|lia].
    + destruct Hg. destruct H as (Hd & Hl & Hz). apply run_good; cbn [lq lic ldr lsz lcap lf loc]; try done; try lia.
      destruct g_mult0 as [j Hj]. exists (j + 1). lia.
  - destruct Hg. constructor; cbn [taken lq lic ldr lsz lcap lf loc]; try done; try lia.
    + intros Hd. destruct (g_drain0 Hd). congruence.
Qed.

(** What happens to the ending when shifts are less than a window. *)
Record closing s : Prop := Closing {
  cl_fill : ldr s = false -> lf s = 0 -> lq s = 0;
  cl_end : ldr s = true -> lf s = 0 -> loc s = true \/ lq s = 0
}.
Lemma lstep_closing P B s t : sane P -> B < window P -> lsteps P B s t -> good P s -> closing s -> closing t.
Proof.
  intros HP HB. pose proof (sane_incr _ _ HP) as Hinc. pose proof (sane_window _ _ HP) as Hwin.
  induction 1 as [|s t si u Et Hsi Hst IH|s n fin u Hz Hn Hc Hst IH]; intros Hg Hcl; [done| |]; apply IH.
  - eapply (lstep_good P B); [done|lia|eapply ls_chunk; [done|done|apply ls_refl]|done].
  - destruct (take_cases P s t HP Et) as [[E ->]|[[[H|[]] ->]|[[H ->]|H]]]; [| | |destruct Hg; lia].
    + destruct Hcl, Hg. constructor; cbn [run lq lic ldr lsz lcap lf loc]; unfold lastL, shiftL; rewrite E; [done|]. intros _ Hf.
      cbn [andb]. destruct (Z.eqb_spec (lf s) 0) as [Ef|Ef].
      * rewrite andb_false_r, orb_false_r. by apply cl_end0.
      * left. rewrite (proj2 (Z.leb_le _ _)) by lia. by rewrite orb_true_r.
    + destruct H as (Hd & Hz & Hl). destruct Hcl, Hg. constructor; cbn [run lq lic ldr lsz lcap lf loc]; unfold lastL, shiftL; cbn [ldr lf lq lic loc]; [done|].
      intros _ Hf. cbn [andb]. destruct (Z.eqb_spec (lf s) 0) as [Ef|Ef].
      * right. by apply cl_fill0.
      * left. rewrite (proj2 (Z.leb_le _ _)) by lia. by rewrite orb_true_r.
    + destruct H as (Hd & Hl & Hz). constructor; cbn [run lq lic ldr lsz lcap lf loc]; unfold shiftL; cbn [ldr lf lq lic loc]; [lia|done].
  - eapply (lstep_good P B); [done|lia|eapply ls_take; [done|done|done|apply ls_refl]|done].
  - destruct Hcl. by constructor.
Qed.
Lemma lsteps_ic P B s t : lsteps P B s t -> lsz s <> None -> lic t = lic s /\ lsz t = lsz s.
Proof.
  induction 1 as [|s t si u Et Hsi Hst IH|s n fin u Hz Hn Hc Hst IH]; intros Hs; [done| |done].
  assert (lic t = lic s /\ lsz t = lsz s) as [E1 E2].
  { unfold take in Et. destruct (_ && _); [destruct (lsz s) eqn:E; [|done]; destruct (_ =? _); [done|]; destruct (_ <? _); by injection Et as <-|].
    destruct (ldr s); by injection Et as <-. }
  destruct IH as [-> ->]; [cbn; congruence|]. done.
Qed.

(** Output only grows; by something, when the shifts are positive and nothing resamples it. *)
Definition brisk P : Prop := after P = false /\ realtime P = true /\ forall k ss, let '(_, si, _, _) := calculate D k ss in 1 <= si.
Definition grown (b : Prop) c d : Prop := exists o, outbuf d = outbuf c ++ o /\ (b -> o <> []).
Lemma grown_trans (a b a' : Prop) c d e : grown a c d -> grown b d e -> (a' -> a \/ b) -> grown a' c e.
Proof.
  intros (o & E1 & H1) (o' & E2 & H2) H. exists (o ++ o'). rewrite E2, E1, app_assoc. split; [done|].
  intros Ha. destruct (H Ha) as [K1|K1]; [specialize (H1 K1)|specialize (H2 K1)]; intros E; apply app_nil in E as [-> ->]; done.
Qed.
Lemma grown_all_trans (a b a' : Prop) cs ds es : Forall2 (grown a) cs ds -> Forall2 (grown b) ds es -> (a' -> a \/ b) -> Forall2 (grown a') cs es.
Proof.
  intros H. revert es. induction H as [|c d cs ds H _ IH]; intros es H2 Ha; inversion H2; subst; [done|].
  constructor; [by eapply grown_trans|by apply IH].
Qed.
Lemma grown_refl b c d : outbuf d = outbuf c -> ~ b -> grown b c d.
Proof. intros E H. exists []. by rewrite app_nil_r. Qed.
Lemma wroteR_grown P s si c d : wroteR P s si c d -> 0 <= outCount c ->
  grown (after P = false /\ realtime P = true /\ ldr s = false /\ lsz s = None /\ 1 <= si) c d.
Proof.
  unfold wroteR. destruct (ldr s && (lf s =? 0)) eqn:E; intros H Ho.
  - destruct H as [H _]. apply grown_refl; [done|]. intros (_ & _ & H1 & _). by rewrite H1 in E.
  - destruct H as (out & H1 & H2 & _). eexists. split; [done|]. intros (Ha & Hr & Hd & Hz & Hsi). specialize (H1 Ha).
    unfold shiftL in H1. rewrite Hd in H1. rewrite Hz. unfold emit, startSkip. rewrite Hr. cbn [andb].
    destruct (0 <? outCount c); cbn [fst].
    + rewrite firstn_z_all by (cbn; lia). intros ->. by rewrite (@zlen_nil A) in H1; lia.
    + destruct (Z.leb_spec (outCount c + zlen out) 0); [lia|]. cbn [fst]. intros E2. apply (f_equal zlen) in E2.
      rewrite zlen_skipn, (@zlen_nil A) in E2. lia.
Qed.
Lemma Forall2_grown P s (Q : Prop) si cs xs ds t : Forall2 (at_ P t) cs xs -> Forall2 (wroteR P s si) cs ds ->
  (Q -> after P = false /\ realtime P = true /\ ldr s = false /\ lsz s = None /\ 1 <= si) -> Forall2 (grown Q) cs ds.
Proof.
  intros H. revert ds. induction H as [|c x cs xs Hc _ IH]; intros ds Hw Hq; inversion Hw as [|? ? ? ? Hx]; subst; [done|].
  constructor; [|by apply IH]. destruct (wroteR_grown _ _ _ _ _ Hx (at_out _ _ _ _ Hc)) as (o & E & Ho). exists o. eauto.
Qed.

Lemma rests_len n m (bs : list (list A)) : 0 <= n <= m -> Forall (fun b => zlen b = m) bs -> Forall (fun b => zlen b = m - n) (skipn_z n <$> bs).
Proof. intros Hn H. induction H as [|b bs Hb _ IH]; [constructor|]. cbn [fmap list_fmap]. constructor; [rewrite zlen_skipn; lia|exact IH]. Qed.
Lemma rests_done n m (bs : list (list A)) : 0 <= n <= m -> Forall (fun b => zlen b = m) bs -> bs <> [] ->
  forallb (fun r => zlen r =? 0) (skipn_z n <$> bs) = (m - n =? 0).
Proof.
  intros Hn H Hne. apply (rests_len n m) in H as H'; [|done].
  assert (Hne' : skipn_z n <$> bs <> []) by (destruct bs; done). clear -H' Hne'.
  induction H' as [|b l Hb Hl IH]; [done|]. cbn [forallb]. rewrite Hb. destruct l; [cbn [forallb]; by rewrite andb_true_r|].
  rewrite IH by done. by destruct (_ =? _).
Qed.
Lemma zip_full n (xs bs : list (list A)) : Forall (fun b => zlen b = n) bs ->
  zip_with (fun x b => x ++ firstn_z n b) xs bs = zip_with app xs bs.
Proof.
  intros H. revert xs. induction H as [|b bs Hb _ IH]; intros [|x xs]; try done. cbn. rewrite firstn_z_all by lia. by rewrite IH.
Qed.

(** process(): returns having taken the blocks. *)
Lemma feedRT_ok P B ms final : sane P -> calm B -> B <= window P -> before P = false -> forall f s k cs xs bs m,
  Forall2 (at_ P s) cs xs -> cs <> [] -> good P s -> ldr s = false -> lsz s = None -> length bs = length cs ->
  0 <= m -> Forall (fun b => zlen b = m) bs ->
  1 <= Z.of_nat f -> m <= Z.of_nat f -> (lcap s <= lic s - lq s -> m + 1 <= Z.of_nat f) ->
  exists k' ds t, feedRT D f P ms k cs bs final = Some (k', ds) /\ Forall2 (at_ P t) ds (zip_with app xs bs) /\
    lsteps P B s t /\ lic t = lic s + m /\ lsz t = (if final then Some (lic s + m) else None) /\
    Forall2 (grown (final = false /\ brisk P /\ window P <= lic s - lq s + m)) cs ds /\
    (m <= increment P -> lic s - lq s < window P -> lic t - lq t < window P) /\
    (window P <= lic s - lq s + m -> lch s < lch t) /\ lch s <= lch t.
Proof.
  intros HP HC HB Hbef. pose proof (sane_incr _ _ HP) as Hinc. pose proof (sane_window _ _ HP) as Hwin.
  assert (Hhalf : 2 * increment P <= window P / 2 < window P) by (split; [apply Z.div_le_lower_bound; lia|apply Z.div_lt; lia]).
  induction f as [|f IH]; intros s k cs xs bs m Hat Hne Hg Hd Hz Hl Hm Hbs Hf Hf1 Hf2; [lia|].
  cbn [feedRT]. destruct (consumeAll_ok P s ms final m Hbef (proj2 (g_cap _ _ Hg)) Hm cs xs bs 0%nat Hat Hl Hbs) as (ds & E & Hds & Ho).
  rewrite E. pose proof (g_cap _ _ Hg) as [Hc1 Hc2]. set (n := Z.min (lcap s - (lic s - lq s)) m) in *.
  assert (Hn : 0 <= n <= m /\ n <= lcap s - (lic s - lq s) /\ (n = m \/ n = lcap s - (lic s - lq s))) by (unfold n; lia).
  clearbody n. destruct Hn as (Hn & Hn1 & Hn2).
  set (u := taken s n ((m - n =? 0) && final)) in *.
  assert (Hlds : length ds = length cs) by (symmetry; by eapply Forall2_length).
  assert (Hdne : ds <> []) by (destruct ds, cs; done).
  assert (Hsu : lsteps P B s u) by (apply (ls_take P B s n ((m - n =? 0) && final)); [done|lia|lia|apply ls_refl]).
  assert (Hgu : good P u) by exact (lstep_good P B s u HP HB Hsu Hg).
  assert (Hgr : Forall2 (grown False) cs ds).
  { clear -Ho. induction Ho as [|c d cs ds [H1 _] _ IH]; constructor; [by apply grown_refl; [|intros []]|done]. }
  pose proof (oneChunk_ok P B u k HP HC HB ds _ Hds Hdne) as Hone.
  pose proof (rests_done n m bs Hn Hbs ltac:(by destruct bs, cs)) as Hrest.
  (* the state after this round *)
  assert (exists last k' es v, processOneChunk D P k ds = Some (last, k', es) /\ Forall2 (at_ P v) es (zip_with (fun x b => x ++ firstn_z n b) xs bs) /\
    lsteps P B u v /\ lic v = lic u /\ lsz v = lsz u /\ lcap v = lcap u /\
    (lsz u = None -> ldr v = false) /\
    Forall2 (grown ((m - n <> 0 \/ final = false) /\ brisk P /\ window P <= lic u - lq u)) ds es /\
    (lic v - lq v < window P \/ lic v - lq v = lic u - lq u - increment P) /\ (window P <= lic u - lq u -> lic v - lq v = lic u - lq u - increment P /\ lch v = lch u + 1) /\ lch u <= lch v)
    as (last & k' & es & v & E2 & Hv & Hsv & Hv1 & Hv2 & Hv3 & Hv4 & Hv5 & Hv6 & Hv7 & Hv8).
  { assert (Hdu : ldr u = false) by done.
    destruct (take P u) as [t|] eqn:Et.
    - destruct Hone as (p & si & reset & ss & k' & es & Ec & Hsi & E1 & He & Hw).
      assert (Hic : lic t = lic u /\ lsz t = lsz u /\ lcap t = lcap u /\ lch t = lch u /\ (lsz u = None -> ldr t = false)).
      { destruct (take_cases P u t HP Et) as [[L ->]|[[[L|[]] ->]|[[L ->]|L]]]; try done; [|destruct Hgu; lia].
        cbn [lic lsz lcap lch ldr]. repeat (split; [done|]). intros K1. by destruct L as (_ & K2 & _). }
      destruct Hic as (Hi1 & Hi2 & Hi3 & Hi4 & Hi5).
      exists (lastL P t si), k', es, (run P t si). split; [done|]. split; [done|]. split; [eapply ls_chunk; [done|done|apply ls_refl]|].
      cbn [run lic lsz lcap lch ldr lq]. split; [done|]. split; [done|]. split; [done|]. split; [done|].
      split.
      { eapply Forall2_grown; [done|done|]. intros (K1 & (Ka & Kr & Kb) & K2). split; [done|]. split; [done|].
        assert (lsz u = None) as Hzu. { cbn. destruct K1 as [K1| ->]; [by rewrite (proj2 (Z.eqb_neq _ _))|by rewrite andb_false_r]. }
        split; [by apply Hi5|]. split; [congruence|]. specialize (Kb k ss). by rewrite Ec in Kb. }
      destruct (take_cases P u t HP Et) as [[L ->]|[[[L|[]] ->]|[[L ->]|L]]]; [congruence| |cbn [lic lq]; lia|destruct Hgu; lia].
      cbn [lic lq] in *. lia.
    - exists false, k, ds, u. split; [done|]. split; [done|]. split; [apply ls_refl|]. repeat (split; [done|]).
      assert (lic u - lq u < window P).
      { unfold take in Et. destruct (Z.ltb_spec (lic u - lq u) (window P)); [done|]. cbn [andb] in Et. by rewrite Hdu in Et. }
      split.
      { clear -H. induction ds as [|d ds IH]; constructor; [|done]. apply grown_refl; [done|]. intros (_ & _ & L). lia. }
      lia. }
  rewrite E2. change (Some ?x ≫= ?f) with (f x). cbv beta iota. rewrite Hrest.
  destruct (Z.eqb_spec (m - n) 0) as [Emn|Emn].
  - exists k', es, v. split; [done|].
    assert (n = m) as Enm by lia.
    split. { rewrite Enm in Hv. by rewrite zip_full in Hv. }
    split; [by eapply lsteps_trans|]. cbn [andb] in *. split; [rewrite Hv1; cbn; lia|]. split; [rewrite Hv2; cbn; destruct final; [f_equal; lia|done]|].
    split; [eapply grown_all_trans; [exact Hgr|exact Hv5|]; intros (? & ? & ?); right; split; [auto|]; split; [done|]; cbn; lia|].
    cbn [taken lq lic lch u] in *. split; [lia|]. split; [|lia]. intros. destruct Hv7; lia.
  - assert (n = lcap s - (lic s - lq s)) as En by lia. cbn [andb] in *.
    assert (Hful : window P <= lic u - lq u) by (cbn; lia). destruct (Hv7 Hful) as [Hv9 Hv10].
    assert (Hlv : length es = length ds) by (symmetry; by eapply Forall2_length).
    destruct (IH v k' es (zip_with (fun x b => x ++ firstn_z n b) xs bs) (skipn_z n <$> bs) (m - n)) as
      (k2 & fs & w & E3 & Hw & Hsw & Hw1 & Hw2 & Hw3 & Hw4 & Hw5 & Hw6).
    + done.
    + destruct es, ds; done.
    + exact (lstep_good P B u v HP HB Hsv Hgu).
    + by apply Hv4.
    + by rewrite Hv2.
    + rewrite fmap_length. congruence.
    + lia.
    + by apply rests_len.
    + cbn [taken lq lic u] in *. lia.
    + lia.
    + rewrite Hv3. cbn [taken lq lic lcap u] in *. lia.
    + exists k2, fs, w. split; [done|]. split; [|split].
      * rewrite zip_app in Hw; [done|]. apply Forall2_length in Hat. congruence.
      * eapply lsteps_trans; [done|]. by eapply lsteps_trans.
      * cbn [taken lq lic lch u] in *. split; [lia|]. split; [rewrite Hw2; destruct final; [f_equal; lia|done]|]. split.
        { eapply (grown_all_trans _ _ (final = false /\ brisk P /\ window P <= lic s - lq s + m)); [exact Hgr| |intros L; right; exact L].
          eapply grown_all_trans; [exact Hv5|exact Hw3|]. intros (? & ? & ?). left. split; [auto|]. split; [done|]. lia. }
        split; [|split; [lia|lia]]. intros. apply Hw4; lia.
Qed.

(** ** available() *)
Definition measure P s : Z := if ldr s then lf s + 1 else lic s - lq s + window P + 2.
Lemma drainRT_ok P B : sane P -> calm B -> B <= window P -> forall f s k cs xs,
  Forall2 (at_ P s) cs xs -> cs <> [] -> good P s -> lsz s <> None -> measure P s <= Z.of_nat f ->
  exists k' ds t, drainRT D f P k cs = Some (k', ds) /\ Forall2 (at_ P t) ds xs /\ lsteps P B s t /\
    ((lic t - lq t = 0 /\ ldr t = false /\ t = s /\ ds = cs /\ k' = k) \/ (ldr t = true /\ lf t = 0)) /\
    (ldr s = true -> lf s = 0 -> Forall2 (fun c d => outbuf d = outbuf c) cs ds).
Proof.
  intros HP HC HB. pose proof (sane_incr _ _ HP) as Hinc. pose proof (sane_window _ _ HP) as Hwin.
  assert (Hhalf : 2 * increment P <= window P / 2 < window P) by (split; [apply Z.div_le_lower_bound; lia|apply Z.div_lt; lia]).
  induction f as [|f IH]; intros s k cs xs Hat Hne Hg Hz Hf.
  { destruct Hg. unfold measure in Hf. destruct (ldr s); lia. }
  cbn [drainRT]. destruct cs as [|c cs]; [done|].
  assert (Hc : exists x, at_ P s c x) by (inversion Hat; eauto). destruct Hc as [x Hc].
  rewrite (at_rs _ _ _ _ Hc), (at_dr _ _ _ _ Hc). clear Hc x.
  destruct (Z.ltb_spec 0 (lic s - lq s)) as [Hl|Hl]; cbn [orb]; [|destruct (ldr s) eqn:Ed].
  3: { exists k, (c :: cs), s. split; [done|]. split; [done|]. split; [apply ls_refl|]. split; [|done]. left. destruct Hg.
       split; [lia|done]. }
  all: pose proof (oneChunk_ok P B s k HP HC HB (c :: cs) xs Hat ltac:(done)) as Hone.
  all: destruct (take P s) as [t|] eqn:Et.
  2: { exfalso. unfold take in Et. destruct (ldr s) eqn:Ed; [by rewrite andb_false_r in Et|]. rewrite andb_true_r in Et.
       destruct (_ <? _); [|done]. destruct (lsz s); [|done]. rewrite (proj2 (Z.eqb_neq _ _)) in Et by lia. destruct (_ <? _); done. }
  3: { exfalso. unfold take in Et. rewrite Ed in Et. by rewrite andb_false_r in Et. }
  all: destruct Hone as (p & si & reset & ss & k' & es & Ec & Hsi & E1 & He & Hw).
  all: rewrite E1; change (Some ?x ≫= ?f) with (f x); cbv beta iota.
  all: assert (Hst : lsteps P B s (run P t si)) by (eapply ls_chunk; [done|done|apply ls_refl]).
  all: pose proof (lstep_good P B _ _ HP HB Hst Hg) as Hgr.
  all: assert (Hene : es <> []) by (apply Forall2_length in Hw; by destruct es).
  all: assert (Hsame : ldr s = true -> lf s = 0 -> lastL P t si = true /\ Forall2 (fun c d => outbuf d = outbuf c) (c :: cs) es).
  1, 3: intros Hd1 Hf1; assert (t = s) as -> by (unfold take in Et; rewrite Hd1, andb_false_r in Et; cbv iota in Et; congruence);
     split; [unfold lastL, shiftL; rewrite Hd1, Hf1; destruct (si =? 0); lia|];
     eapply Forall2_impl; [exact Hw|]; intros c1 d1; unfold wroteR; rewrite Hd1, Hf1; by intros [? _].
  all: destruct (lastL P t si) eqn:El.
  1, 3: exists k', es, (run P t si); split; [done|]; split; [done|]; split; [done|]; split; [|by intros; apply Hsame];
     right; cbn [run ldr lf]; unfold lastL in El; apply andb_true_iff in El as [El1 El2]; rewrite El1; unfold shiftL in *; rewrite El1 in *; destruct Hgr; cbn [run lf] in *; split; [done|]; unfold shiftL in *; rewrite El1 in *; lia.
  all: destruct (IH (run P t si) k' es xs He Hene Hgr) as (k2 & ds & u & E2 & Hu & Hsu & Hu1 & Hu2).
  1, 4: cbn [run lsz]; destruct (lsteps_ic P B _ _ Hst Hz) as [_ Hz1]; cbn [run lsz] in Hz1; congruence.
  1, 3: assert (Hsi' : 1 <= (if si =? 0 then increment P else si)) by (destruct (Z.eqb_spec si 0); lia);
     revert Hf El; unfold measure; cbn [run ldr lf lic lq]; unfold lastL, shiftL;
     destruct (take_cases P s t HP Et) as [[L ->]|[[[(L & L2 & L3)|[]] ->]|[[(L & L2 & L3) ->]|L]]];
     cbn [ldr lf lic lq]; rewrite ?L; cbn [andb]; destruct Hg; intros; lia.
  all: exists k2, ds, u; split; [done|]; split; [done|]; split; [by eapply lsteps_trans|]; split; [|intros Hd1 Hf1; assert (ldr s = true) as Hd2 by congruence; by destruct (Hsame Hd2 Hf1)].
  all: destruct Hu1 as [(L1 & L2 & -> & _)|L1]; [exfalso|by right].
  all: cbn [run lic lq ldr] in L1, L2; destruct (take_cases P s t HP Et) as [[L ->]|[[[L|[]] ->]|[[L ->]|L]]]; cbn [ldr lf lic lq] in *; try congruence; destruct Hg; lia.
Qed.
End RT.
