(** Whole offline runs: from the study pass to the last sample. *)
From stdpp Require Import prelude.
From Coq Require Import ZArith QArith Qround Lia Lqa.
From Verif Require Import Base.Arith Faster.Sizes Faster.Spec Faster.SizesProofs Faster.SizesProps.
From Verif Require Import Faster.Model Faster.Core Faster.Chunks Faster.Stream Faster.Count Faster.Runs Faster.RunsProofs Faster.Level.
From Verif Require Import Offline.Model Offline.Spec Offline.Study Offline.Profile Offline.Fresh Offline.Length.
From Verif Require Calculator.Model Calculator.Proofs.
Local Open Scope Z_scope.

Section Whole.
Context {A S R K KS : Type} (D : dsp A S R K) (X : outside A S R KS).
Notation chan := (channel A S R).
Notation engine := (engine A S R KS).
Implicit Types (e : engine) (c d : chan).
Notation win e := (Sizes.window (sz e)).
Notation incr e := (Sizes.increment (sz e)).
Context (Hons : forall k a, zlen (fst (fst (fst (onset X k a)))) = zlen a).
Context (Han : forall s x, zlen (fst (analyse D s x)) = zlen x).
Context (Hmo : forall s x p r si, zlen (fst (modify D s x p r si)) = zlen x).

(** Before processing has begun there is nothing to fetch. *)
Lemma takeOut_none : forall cs n, Forall (fun c => outbuf c = []) cs ->
  exists got, takeOut cs n = (replicate (length cs) [], got, cs).
Proof.
  induction cs as [|c cs IH]; intros n Hc; [by eexists|]. apply Forall_cons in Hc as [Ho Hc]. cbn [takeOut].
  rewrite Ho. assert (E0 : firstn_z n (@nil A) = []) by (unfold firstn_z; by rewrite take_nil). rewrite E0.
  destruct (IH (zlen (@nil A)) Hc) as (got & E). rewrite E. exists got. cbn [length replicate]. f_equal. f_equal.
  unfold skipn_z. rewrite drop_nil. destruct c. cbn in *. by subst.
Qed.
Lemma profiled_fetch e0 c0 e N a : fresh D e0 c0 -> profiled e0 c0 e N -> fetch a ->
  exists r e', step D X e a = Some (r, e') /\ profiled e0 c0 e' N /\ framesOf r = 0 /\ levelAnswer (nch e0) r.
Proof.
  intros HF [Hst Hm Hdf (c & Hch & Hk)] Hf. pose proof (fr_start _ _ _ HF) as Hs.
  destruct Hf as [k Hk0|].
  - cbn [step]. unfold retrieve. rewrite Hch.
    destruct (takeOut_none (c :: replicate (pred (nch e0)) c0) k) as (got & E).
    { constructor; [rewrite (kp_out _ _ Hk); apply Hs|]. apply Forall_replicate. apply Hs. }
    rewrite E. eexists _, _. split; [reflexivity|]. rewrite <- Hch.
    assert (Hbl : block (nch e0) 0 (decoded D e (firstn_z got <$> replicate (length (chans e)) []))).
    { apply decoded_block. pose proof (fr_nch _ _ _ HF). split.
      - rewrite fmap_length, replicate_length, Hch. cbn [length]. rewrite replicate_length. lia.
      - rewrite Forall_fmap. apply Forall_replicate. unfold firstn_z. cbn. by rewrite take_nil. }
    split; [|split].
    + constructor; [destruct Hst; by constructor|done|done|by exists c].
    + destruct Hbl as [Hl Hall]. unfold framesOf. match goal with |- context [match ?y with [] => _ | _ :: _ => _ end] => destruct y as [|x xs]; [done|] end. by apply Forall_cons in Hall as [? _].
    + by exists 0.
  - destruct (available_quiet D e c (replicate (pred (nch e0)) c0) Hch) as (q & E).
    { rewrite (kp_size _ _ Hk). apply Hs. }
    cbn [step]. rewrite E. change (Some ?x ≫= ?f) with (f x). cbv beta iota. eexists _, _. split; [reflexivity|].
    split; [|done]. constructor; [destruct Hst; by constructor|done|done|by exists c].
Qed.

(** What a stretcher must be for the profile to be exact. *)
Record good e (N : Z) : Prop := Good {
  gd_N : 4 * incr e <= N; gd_out : (3 <= inject_Z (incr e) * time e)%Q; gd_len : (inject_Z (incr e) <= inject_Z N * time e)%Q;
  gd_room : roomyRatio (rate e) (incr e) (negb (smoothTransients (opts e))) (time e); gd_shape : forall si, win e <= zlen (shape D si)
}.
Lemma begin_processing e0 c0 e N : fresh D e0 c0 -> profiled e0 c0 e N -> good e0 N ->
  exists e1 c1 P, (forall bs final, processBlock D X e bs final = processBlock D X e1 bs final) /\
    running P e1 (nch e0) c1 /\ start D P c1 /\ sane D P /\ exact P N /\ timeRatio P = time e0.
Proof using Han Hmo.
  intros HF [Hst Hm Hdf (c & Hch & Hk)] [HN Hout HNt Hroom Hshape]. pose proof (fresh_fitting D e0 c0 HF) as HT.
  pose proof HT as []. pose proof HF as []. destruct Hst.
  assert (Ec : calc e = Calculator.Model.create (rate e0) (incr e0) (negb (smoothTransients (opts e0)))) by congruence.
  assert (Hti : (0 <= time e0)%Q).
  { destruct (Qlt_le_dec (time e0) 0); [|done]. exfalso. change (inject_Z (2 ^ 40)) with (1099511627776 # 1)%Q in *. lra. }
  assert (Hr : effectiveRatio e = time e0).
  { unfold effectiveRatio. rewrite sc_time, sc_pitch, fr_pitch. destruct (time e0) as [a b]. unfold Qmult. cbn [Qnum Qden].
    by rewrite Z.mul_1_r, Pos.mul_1_r. }
  assert (Hq4 : 4 <= N / incr e0) by (apply Z.div_le_lower_bound; lia).
  destruct (Calculator.Proofs.calculate_some (calc e) ltac:(rewrite Ec; cbn; lia) ltac:(rewrite Ec; cbn; lia) (effectiveRatio e)
    ltac:(rewrite Hr; done) (dfs e) [] ltac:(by rewrite Ec) ltac:(split; [done|constructor]) ltac:(lia)) as (l & El).
  set (incs1 := hush (win e0 / incr e0) (silence e) l 0).
  assert (Ecs : calculateStretch e = Some (with_incs e incs1)).
  { unfold calculateStretch. rewrite El, sc_incs, fr_incs, sc_sz. done. }
  set (e2 := with_incs e incs1). set (e1 := with_mode (with_chans e2 (restart D X e2 <$> chans e2)) Processing).
  set (c1 := restart D X e2 c0).
  assert (Hc1 : chans e1 = replicate (nch e0) c1).
  { unfold e1. cbn. rewrite Hch, fmap_cons, fmap_replicate, (restart_kept D X e2 c0 c Hk). fold c1.
    destruct (nch e0); [lia|]. done. }
  assert (Hst1 : start D (paramsOf e2) c1).
  { apply restart_start; cbn; [by rewrite sc_pitch, fr_pitch|]. rewrite sc_sz. done. }
  assert (HP : sane D (paramsOf e2)).
  { pose proof (fresh_sane D e0 c0 HF Han Hmo Hshape) as []. unfold paramsOf, e2, resamples in *. cbn in *.
    rewrite ?sc_sz, ?sc_pitch, ?sc_time, ?sc_opts in *. constructor; done. }
  exists e1, c1, (paramsOf e2). split; [|split; [|split; [done|split; [done|split]]]].
  - intros bs final. unfold processBlock at 1. rewrite Hm, Ecs. change (Some ?x ≫= ?f) with (f x). cbv beta.
    change (Some ?x ≫= ?f) with (f x). cbv beta. reflexivity.
  - constructor; try done.
    exists (replicate (pred (nch e0)) c1). split; [rewrite Hc1; destruct (nch e0); [lia|done]|].
    split; [apply replicate_length|]. apply Forall_replicate. by apply lev_refl.
  - eapply (profile_exact (paramsOf e2) N (rate e0) (negb (smoothTransients (opts e0))) (dfs e) (silence e) (win e0 / incr e0)); cbn;
      rewrite ?sc_sz, ?sc_pitch, ?sc_time, ?fr_pitch; try done; try lia.
    + unfold resamples. cbn. rewrite sc_pitch, sc_opts, fr_pitch, fr_highC. done.
    + rewrite fr_pitch, Qmult_1_r in ft_ratio. eapply Qle_trans; [exact ft_ratio|]. rewrite <- Zle_Qle. done.
    + rewrite <- Ec, <- Hr. exact El.
  - exact sc_time.
Qed.

Lemma steps_app e l1 l2 rs1 e1 rs2 e2 : steps D X e l1 = Some (rs1, e1) -> steps D X e1 l2 = Some (rs2, e2) ->
  steps D X e (l1 ++ l2) = Some (rs1 ++ rs2, e2).
Proof.
  revert e rs1. induction l1 as [|a l1 IH]; intros e rs1 E1 E2; [injection E1 as <- <-; done|].
  cbn [steps app] in *. destruct (step D X e a) as [[r e']|]; [|done]. change (Some ?x ≫= ?f) with (f x) in *. cbv beta iota in *.
  destruct (steps D X e' l1) as [[rs e'']|] eqn:E; [|done]. change (Some ?x ≫= ?f) with (f x) in *. cbv beta iota in *.
  injection E1 as <- <-. by rewrite (IH e' rs E E2).
Qed.
Lemma allFrames_app (a b : list (answer (A := A))) : allFrames (a ++ b) = allFrames a + allFrames b.
Proof. induction a as [|x a IH]; [done|]. cbn [app]. rewrite !allFrames_cons, IH. lia. Qed.

(** From the start of processing on. *)
Lemma running_whole P N e c n len l b bs tail : sane D P -> exact P N -> start D P c -> (1 <= n)%nat -> running P e n c ->
  streams n len l -> block n b bs -> len + b = N -> Forall fetch tail ->
  exists rs e', steps D X e (l ++ Process bs true :: tail) = Some (rs, e') /\ Forall (levelAnswer n) rs /\
    allFrames rs <= rint (inject_Z N * timeRatio P) /\
    (rint (inject_Z N * timeRatio P) <= asked tail -> allFrames rs = rint (inject_Z N * timeRatio P)).
Proof.
  intros HP HE Hst Hn Hru Hl Hbl HN Htail.
  pose proof (start_ready D P c HP Hst) as Hrd.
  destruct (streams_ok D X P HP (ex_after _ _ HE) (ex_before _ _ HE) n len l Hn Hl e c Hru Hrd) as
    (rs & e1 & c1 & cl & out & E1 & Hru1 & Ecl & Hin & Hout & Hlv).
  destruct (head_len D e1 n b bs Hn Hbl) as (x & Hx & Hxl).
  destruct (whole_exact D P N cl x c HP HE Hst) as (o & d & Eo & Hlo & _ & Hid & Hdd & Hfd).
  { rewrite zlen_app. lia. }
  unfold wholeOutput in Eo. rewrite Ecl in Eo. change (Some ?x ≫= ?f) with (f x) in Eo. cbv beta iota in Eo.
  destruct (Faster.Model.process D P c1 x false true) as [d'|] eqn:Ed; [|done]. change (Some ?x ≫= ?f) with (f x) in Eo. cbv beta in Eo.
  injection Eo as <- <-. rewrite zlen_app in Hlo.
  destruct (process_running D X P HP (ex_after _ _ HE) (ex_before _ _ HE) e1 n c1 b bs true Hru1 Hn Hbl d') as (e2 & E2 & _ & cs' & Hch & Hlc & Hlev & Ho & Hnc).
  { by exists x. }
  assert (He2 : ended P e2 n d').
  { constructor; try done; [|by exists cs'].
    unfold processBlock in E2. rewrite (ru_mode _ _ _ _ Hru1) in E2. change (Some ?x ≫= ?f) with (f x) in E2. cbv beta zeta in E2.
    destruct (processAll D _ _ _ _ _) as [cs2|] in E2; [|done]. change (Some ?x ≫= ?f) with (f x) in E2. cbv beta in E2. injection E2 as <-.
    apply Hru1. }
  destruct (ended_fetches D X P HP (ex_after _ _ HE) (ex_before _ _ HE) n tail Hn Htail e2 d' He2) as (rs3 & e3 & c3 & E3 & _ & Hfr & Hlv3).
  exists (rs ++ Done :: rs3), e3. split.
  { eapply steps_app; [exact E1|]. cbn [steps step]. unfold quietly. rewrite E2. change (Some ?x ≫= ?f) with (f x). cbv beta iota.
    change (Some ?x ≫= ?f) with (f x). cbv beta iota. by rewrite E3. }
  split. { apply Forall_app. split; [done|]. by constructor. }
  rewrite allFrames_app, allFrames_cons, Hfr. cbn [framesOf]. pose proof (zlen_nonneg (outbuf d')). pose proof (zlen_nonneg out). split; lia.
Qed.
Lemma profiled_whole e0 c0 N n len l b bs tail : fresh D e0 c0 -> good e0 N -> n = nch e0 ->
  streams n len l -> block n b bs -> Forall fetch tail -> forall k e, profiled e0 c0 e N -> k + len + b = N -> k = 0 ->
  exists rs e', steps D X e (l ++ Process bs true :: tail) = Some (rs, e') /\ Forall (levelAnswer n) rs /\
    allFrames rs <= rint (inject_Z N * time e0) /\
    (rint (inject_Z N * time e0) <= asked tail -> allFrames rs = rint (inject_Z N * time e0)).
Proof using Han Hmo.
  intros HF HG -> Hl Hbl Htail k e Hp HN ->. rewrite Z.add_0_l in HN. pose proof (fr_nch _ _ _ HF) as Hn.
  assert (Hgo : forall e l, profiled e0 c0 e N -> streams (nch e0) len l ->
    (forall e1, (forall bs final, processBlock D X e bs final = processBlock D X e1 bs final) ->
      steps D X e (l ++ Process bs true :: tail) = steps D X e1 (l ++ Process bs true :: tail)) ->
    exists rs e', steps D X e (l ++ Process bs true :: tail) = Some (rs, e') /\ Forall (levelAnswer (nch e0)) rs /\
    allFrames rs <= rint (inject_Z N * time e0) /\
    (rint (inject_Z N * time e0) <= asked tail -> allFrames rs = rint (inject_Z N * time e0))).
  { clear e l Hp Hl. intros e l Hp Hl Hsame. destruct (begin_processing e0 c0 e N HF Hp HG) as (e1 & c1 & P & Hpb & Hru & Hst & HP & HE & Ht).
    rewrite (Hsame e1 Hpb), <- Ht. by eapply running_whole. }
  assert (Hnext : forall e e1 bs0 final l0, (forall bs final, processBlock D X e bs final = processBlock D X e1 bs final) ->
    steps D X e (Process bs0 final :: l0) = steps D X e1 (Process bs0 final :: l0)).
  { intros e2 e1 bs0 final l0 H. cbn [steps step]. by rewrite H. }
  revert e Hp. induction Hl as [|b0 bs0 len l Hb0 Hl IH|a len l Hf Hl IH]; intros e Hp.
  - apply Hgo; [done|constructor|]. intros e1 H. by apply Hnext.
  - apply Hgo; [done|by constructor|]. intros e1 H. by apply Hnext.
  - destruct (profiled_fetch e0 c0 e N a HF Hp Hf) as (r & e1 & E & Hp1 & Hfr & Hla).
    destruct (IH HN Hgo e1 Hp1) as (rs & e2 & E2 & Hlv & H1 & H2). exists (r :: rs), e2. cbn [app steps]. rewrite E.
    change (Some ?x ≫= ?f) with (f x). cbv beta iota. rewrite E2. split; [done|]. split; [by constructor|].
    rewrite allFrames_cons, Hfr. done.
Qed.

(** From the first call of study to the last of retrieve. *)
Lemma whole e0 c0 M len0 l0 b0 bs0 len l b bs tail : fresh D e0 c0 -> good e0 M ->
  studies (nch e0) len0 l0 -> block (nch e0) b0 bs0 -> 0 < b0 -> len0 + b0 = M ->
  streams (nch e0) len l -> block (nch e0) b bs -> len + b = M -> Forall fetch tail ->
  exists rs e', steps D X e0 (l0 ++ Study bs0 true :: l ++ Process bs true :: tail) = Some (rs, e') /\ Forall (levelAnswer (nch e0)) rs /\
    allFrames rs <= rint (inject_Z M * time e0) /\
    (rint (inject_Z M * time e0) <= asked tail -> allFrames rs = rint (inject_Z M * time e0)).
Proof using Hons Han Hmo.
  intros HF HG Hl0 Hb0 Hb0p HM Hl Hb HM2 Htail.
  destruct (studies_ok D X Hons e0 c0 len0 l0 HF Hl0 e0 0 (fresh_studied D e0 c0 HF)) as (e1 & E1 & HS1). rewrite Z.add_0_l in HS1.
  destruct (study_last D X Hons e0 c0 e1 len0 b0 bs0 HF HS1 Hb0 Hb0p) as (e2 & E2 & HP2). rewrite HM in HP2.
  destruct (profiled_whole e0 c0 M (nch e0) len l b bs tail HF HG eq_refl Hl Hb Htail 0 e2 HP2 HM2 eq_refl) as (rs & e3 & E3 & Hlv & H1 & H2).
  exists (replicate (length l0) Done ++ Done :: rs), e3. split.
  { eapply steps_app; [exact E1|]. cbn [steps step]. unfold quietly. rewrite E2. change (Some ?x ≫= ?f) with (f x). cbv beta iota.
    change (Some ?x ≫= ?f) with (f x). cbv beta iota. by rewrite E3. }
  assert (Hz : forall k, allFrames (replicate k (Done (A := A))) = 0).
  { induction k as [|k IHk]; [done|]. cbn [replicate]. rewrite allFrames_cons, IHk. done. }
  split. { apply Forall_app. split; [by apply Forall_replicate|]. by constructor. }
  rewrite allFrames_app, allFrames_cons, Hz. exact (conj H1 H2).
Qed.
End Whole.
