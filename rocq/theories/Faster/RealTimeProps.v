(** Properties C29, C31, C32, C65 and C68: the R2 engine in real time. *)
From stdpp Require Import prelude.
From Coq Require Import ZArith QArith Qround Lia Lqa.
From Verif Require Import Base.Arith Faster.Model Faster.Core Faster.Chunks Faster.Stream Faster.StreamProps
  Faster.RealTimeRuns Faster.RealTime Faster.RealTimeCalls.
Local Open Scope Z_scope.

(** A small real-time engine for the concrete cases. *)
Definition rtParams (w i : Z) : params := Params w i true 1 1 false false false [].
Definition rtChan (w cap : Z) : channel Z unit unit := set_in (plainChan w cap) [] 0.
Definition rtEngine (n : nat) (w cap : Z) : engine Z unit unit unit := Engine (replicate n (rtChan w cap)) tt false.
Lemma rt_sane w i : 1 <= i -> 4 * i <= w -> sane (plainDsp w) (rtParams w i).
Proof.
  intros. constructor; cbn; try done; try lia.
  - intros si. rewrite zlen_replicate. lia.
Qed.
Lemma rt_calm w b : 2 <= b -> calm (plainDsp w) b.
Proof. intros H k ss. cbn. lia. Qed.
Lemma rt_opened n w i cap : 1 <= i -> 4 * i <= w -> w <= cap -> opened (rtParams w i) cap (rtEngine (Datatypes.S n) w cap).
Proof.
  intros. split; [|done]. apply Forall_replicate. split; [by constructor|]. split; [|done].
  constructor; cbn; rewrite ?zlen_cons, ?zlen_replicate; lia.
Qed.
Definition stereo (l : list Z) : list (list Z) := [l; Z.opp <$> l].
Lemma stereo_fits l : fits 2 (Feed (stereo l)).
Proof. split; [done|]. exists (length l). repeat constructor. by rewrite fmap_length. Qed.

(** C29, in real time: every call returns, having taken the whole block of every
    channel.  What is waiting is the end of what the channel was given, from the
    same multiple of the input increment in every channel. *)
Theorem C29_realtime_every_block_taken : forall {A S R K} (D : dsp A S R K) P cap e cs,
  sane D P -> calm D (window P) -> before P = false -> window P <= cap -> opened P cap e ->
  Forall (fits (length (chans e))) cs ->
  exists rs e' j, rtCalls D P e cs = Some (rs, e') /\ 0 <= j /\ length (chans e') = length (chans e) /\
    forall i c, chans e' !! i = Some c ->
      inCount c = zlen (given cs i) /\ inbuf c = skipn_z (j * increment P) (given cs i) /\
      zlen (inbuf c) = zlen (given cs i) - j * increment P /\ zlen (inbuf c) <= cap.
Proof.
  intros A S R K D P cap e cs HP HC Hb Hcap Ho Hcs. pose proof (opened_live D P (window P) cap e HP Hcap Ho) as Hl.
  set (xs := replicate _ _) in Hl. assert (Hlx : length xs = length (chans e)) by apply replicate_length.
  destruct (calls_ok D P _ HP HC (Z.le_refl _) Hb cs e xs _ Hl ltac:(by rewrite Hlx)) as (rs & e' & ys & u & E & Hl' & Hst & Hlen & Hfin & Hx).
  destruct Hl' as [Hat Hne Hg _ _]. destruct (g_mult _ _ Hg) as [j Hj].
  exists rs, e', j. split; [done|]. pose proof (sane_incr _ _ HP). split; [destruct (g_q _ _ Hg); nia|].
  assert (Hlc : length (chans e') = length (chans e)) by (apply Forall2_length in Hat; congruence). split; [done|].
  assert (lcap u = cap) as Hcu.
  { clear -Hst. change cap with (lcap (Lev 0 0 false None cap 0 false 0)). induction Hst as [|s t si u Et _ _ IH|s n fin u _ _ _ _ IH]; [done| |done].
    rewrite IH. cbn [run lcap]. unfold take in Et. destruct (_ && _); [destruct (lsz s) eqn:E; [|done]; destruct (_ =? _); [done|]; destruct (_ <? _); by injection Et as <-|].
    destruct (ldr s); by injection Et as <-. }
  intros i c Hc. destruct (Forall2_lookup_l _ _ _ _ _ Hat Hc) as (y & Hy & Hcy).
  assert (xs !! i = Some []) as Hxi. { apply lookup_replicate. split; [done|]. rewrite <- Hlc. by eapply lookup_lt_Some. }
  specialize (Hx i [] Hxi). rewrite (proj2 (proj2 Ho)) in Hx. rewrite Hy in Hx. injection Hx as ->.
  pose proof (at_rs _ _ _ _ Hcy) as Hrs. destruct Hcy. destruct (g_cap _ _ Hg). cbn [app] in *. split; [lia|]. split; [by rewrite <- Hj|]. split; lia.
Qed.
Print Assumptions C29_realtime_every_block_taken.

(** Two channels, window 8, increment 2, blocks of 5, 0 and 30 samples. *)
Example C29_realtime_case :
  let D := plainDsp 8 in let P := rtParams 8 2 in let e := rtEngine 2 8 8 in
  let cs := [Feed (stereo (seqZ 1 5)); Available; Feed (stereo []); Take 1; Feed (stereo (seqZ 6 30))] in
  (sane D P /\ calm D (window P) /\ before P = false /\ window P <= 8 /\ opened P 8 e /\ Forall (fits (length (chans e))) cs) /\
  (fun x => (fun c => (inCount c, inbuf c)) <$> chans (snd x)) <$> rtCalls D P e cs =
    Some [(35, seqZ 29 7); (35, Z.opp <$> seqZ 29 7)].
Proof.
  split; [|vm_compute; reflexivity].
  split; [by apply rt_sane|]. split; [by apply rt_calm|]. split; [done|]. split; [done|]. split; [by apply rt_opened|].
  repeat constructor; cbn [fits]; try done; apply stereo_fits.
Qed.

(** ** C31 *)
Lemma required_ge P : 1 <= increment P -> forall {A S R} (cs : list (channel A S R)) r, 0 <= r ->
  r <= required P cs r /\ Forall (fun c => draining c = false -> inputSize c = None -> window P - zlen (inbuf c) <= required P cs r) cs /\
  (Exists (fun c => outbuf c = []) cs -> 1 <= required P cs r).
Proof.
  intros Hi A S R. induction cs as [|c cs IH]; intros r Hr; [cbn; split; [lia|]; split; [done|]; intros H; inversion H|].
  cbn [required]. set (r1 := if (_ && _)%bool then _ else r).
  assert (Hr1 : r <= r1 /\ (zlen (outbuf c) = 0 -> 1 <= r1)).
  { unfold r1. destruct (Z.eqb_spec (zlen (outbuf c)) 0), (Z.eqb_spec r 0); cbn [andb]; lia. }
  set (h := if (_ && _)%bool then _ else 0). set (r2 := if r1 <? h then h else r1).
  assert (H2 : r1 <= r2 /\ h <= r2) by (unfold r2; destruct (Z.ltb_spec r1 h); lia). clearbody r1.
  destruct (IH r2 ltac:(lia)) as (I1 & I2 & I3). split; [lia|]. split.
  - constructor; [|done]. intros Hd Hz. enough (window P - zlen (inbuf c) <= h) by lia. unfold h. rewrite Hd, Hz, andb_true_r.
    destruct (Z.ltb_spec (zlen (inbuf c)) (window P)); lia.
  - intros H. inversion H as [? ? H0|]; subst; [|by apply I3]. rewrite H0, (@zlen_nil A) in Hr1. lia.
Qed.

(** Nothing can be read and the stream is not over: then at least one sample
    is asked for, and supplying that many processes at least one more chunk in every
    channel; when shifts are positive and the output is not resampled, there is then something to read.
    Missing: resampling before stretching, where the resampler may hold samples back. *)
Theorem C31_never_stalls_partial : forall {A S R K} (D : dsp A S R K) P cap e cs rs e',
  sane D P -> calm D (window P) -> before P = false -> window P <= cap -> opened P cap e ->
  Forall (fits (length (chans e))) cs -> ended cs = false ->
  rtCalls D P e (cs ++ [Available]) = Some (rs ++ [Count 0], e') ->
  1 <= getSamplesRequired P (chans e') /\
  forall b, level (length (chans e)) b -> getSamplesRequired P (chans e') <= Z.of_nat (blockLen b) ->
    exists r e'', rtCalls D P e' [Feed b; Available] = Some ([Done; Count r], e'') /\
      Forall2 (fun c d => chunkCount c < chunkCount d) (chans e') (chans e'') /\ (brisk D P -> 1 <= r).
Proof.
  intros A S R K D P cap e cs rs e' HP HC Hb Hcap Ho Hcs Hend E. pose proof (opened_live D P (window P) cap e HP Hcap Ho) as Hl.
  set (xs := replicate _ _) in Hl. assert (Hlx : length xs = length (chans e)) by apply replicate_length.
  destruct (calls_ok D P _ HP HC (Z.le_refl _) Hb cs e xs _ Hl ltac:(by rewrite Hlx)) as (rs0 & e1 & ys & t & E1 & Hl1 & Hst & Hlen & Hfin & _).
  rewrite (proj2 (proj2 Ho)), Hend in Hfin. cbn [orb] in Hfin.
  rewrite rtCalls_app, E1 in E. change (Some ?x ≫= ?f) with (f x) in E. cbv beta iota in E.
  assert (Hav : forall e2 zs t2, live P (window P) e2 zs t2 -> finished e2 = false -> rtCall D P e2 Available = Some (Count (report (chans e2)), e2)).
  { intros e2 zs t2 Hl2 Hf2. destruct (available_ok D P _ HP HC (Z.le_refl _) e2 zs t2 Hl2) as (n & k & ds & u & Ea & En & _ & _ & Hs & _).
    destruct (Hs Hf2) as (-> & -> & _). cbn [rtCall]. rewrite Ea, En. change (Some ?x ≫= ?f) with (f x). cbv beta iota. by destruct e2. }
  rewrite (rtCalls_one D P e1 Available _ e1 (Hav e1 ys t Hl1 Hfin)) in E. change (Some ?x ≫= ?f) with (f x) in E. cbv beta iota in E.
  injection E as E2 <-. apply app_inj_tail in E2 as [<- E2]. injection E2 as E2.
  assert (Hleast : least (chans e1) = 0).
  { rewrite report_least in E2. destruct (_ && _)%bool; [done|congruence]. }
  pose proof (least_spec (chans e1) (lv_ne _ _ _ _ _ Hl1)) as (_ & _ & Hex). rewrite Hleast in Hex.
  assert (Hex' : Exists (fun c => outbuf c = []) (chans e1)).
  { eapply Exists_impl; [exact Hex|]. intros c. cbn. apply zlen_0. }
  destruct (required_ge P (sane_incr _ _ HP) (chans e1) 0 ltac:(lia)) as (_ & R2 & R3). specialize (R3 Hex').
  assert (Hreq : getSamplesRequired P (chans e1) = required P (chans e1) 0) by (unfold getSamplesRequired; by rewrite Hb).
  rewrite Hreq. split; [done|]. intros b Hlev Hlong.
  destruct (processRT_ok D P _ false HP HC (Z.le_refl _) Hb e1 ys t b Hl1 ltac:(by rewrite Hlen, Hlx)) as (e2 & u & Ef & Hl2 & Hst2 & Hf2 & Hgr & _).
  rewrite Hfin in *. cbn [orb] in *. destruct (Hgr eq_refl) as (G1 & _ & G2).
  assert (Hd : ldr t = false /\ lsz t = None).
  { destruct Hl1 as [_ _ Hg _ Hz]. rewrite Hfin in Hz. assert (lsz t = None) as Hz' by (by apply Hz). split; [|done].
    destruct (ldr t) eqn:Ed; [|done]. by destruct (g_drain _ _ Hg Ed). }
  assert (Hw : window P <= lic t - lq t + Z.of_nat (blockLen b)).
  { destruct Hl1 as [Hat Hne _ _ _]. destruct Hat as [|c x l l' Hc _]; [done|]. apply Forall_cons in R2 as [R2 _].
    specialize (R2 ltac:(rewrite (at_dr _ _ _ _ Hc); apply Hd) ltac:(rewrite (at_sz _ _ _ _ Hc); apply Hd)).
    rewrite (at_rs _ _ _ _ Hc) in R2. lia. }
  specialize (G2 Hw). exists (report (chans e2)), e2. split; [|split].
  - assert (rtCall D P e1 (Feed b) = Some (Done, e2)) as Ec by (cbn [rtCall]; by rewrite Ef).
    cbn [rtCalls]. rewrite Ec. change (Some ?x ≫= ?f) with (f x). cbv beta iota.
    rewrite (Hav e2 _ u Hl2 Hf2). done.
  - destruct Hl1 as [Hat _ _ _ _], Hl2 as [Hat2 _ _ _ _]. set (zs := zip_with app ys b) in Hat2.
    assert (length zs = length ys) as Hz. { unfold zs. rewrite zip_with_length_l; [done|]. rewrite (proj1 Hlev). lia. }
    clear -Hat Hat2 G2 Hz. clearbody zs. revert zs Hat2 Hz. generalize (chans e2). induction Hat as [|c x cs xs Hc _ IH]; intros l zs Hat2 Hz.
    + destruct zs; [|done]. inversion Hat2. done.
    + destruct zs as [|z zs]; [done|]. inversion Hat2 as [|d ? ? ? Hd Hds]; subst. constructor; [|apply (IH _ zs); [done|by injection Hz]].
      rewrite (at_ch _ _ _ _ Hc), (at_ch _ _ _ _ Hd). done.
  - intros Hbr. rewrite report_least. destruct (least_spec (chans e2) (lv_ne _ _ _ _ _ Hl2)) as (_ & _ & Hx2).
    assert (Hpos : 1 <= least (chans e2)).
    { apply Exists_exists in Hx2 as (d & Hd1 & Hd2). apply elem_of_list_lookup in Hd1 as [i Hi].
      destruct (Forall2_lookup_r _ _ _ _ _ G1 Hi) as (c & _ & (o & Eo & Ho2)). rewrite <- Hd2, Eo, zlen_app.
      pose proof (zlen_nonneg (outbuf c)). assert (o <> []) as Hon by (by apply Ho2). destruct o; [done|]. rewrite zlen_cons. pose proof (zlen_nonneg o). lia. }
    rewrite (proj2 (Z.eqb_neq _ _)) by lia. done.
Qed.
Print Assumptions C31_never_stalls_partial.

(** Five samples in a window of eight: three more are wanted, and give two samples of output. *)
Example C31_case :
  let D := plainDsp 8 in let P := rtParams 8 2 in let e := rtEngine 2 8 8 in let cs := [Feed (stereo (seqZ 1 5))] in
  (sane D P /\ calm D (window P) /\ opened P 8 e /\ Forall (fits (length (chans e))) cs /\ ended cs = false /\ brisk D P) /\
  (fun x => (fst x, getSamplesRequired P (chans (snd x)))) <$> rtCalls D P e (cs ++ [Available]) = Some ([Done; Count 0], 3) /\
  fst <$> rtCalls D P e (cs ++ [Available; Feed (stereo (seqZ 6 3)); Available]) = Some [Done; Count 0; Done; Count 2].
Proof.
  split; [|vm_compute; split; reflexivity].
  split; [by apply rt_sane|]. split; [by apply rt_calm|]. split; [by apply rt_opened|].
  split; [repeat constructor; cbn [fits]; apply stereo_fits|]. split; [done|]. split; [done|]. split; [done|]. intros k ss. cbn. lia.
Qed.

(** ** C32 *)
(** -1 is reported only after the final block, and ever after; then nothing more can be retrieved. *)
Theorem C32_end_is_the_end : forall {A S R K} (D : dsp A S R K) P cap e cs rs e',
  sane D P -> calm D (window P) -> before P = false -> window P <= cap -> opened P cap e ->
  Forall (fits (length (chans e))) cs ->
  rtCalls D P e (cs ++ [Available]) = Some (rs ++ [Count (-1)], e') ->
  ended cs = true /\ forall later, Forall (fits (length (chans e))) later ->
    exists e'', rtCalls D P e' later =
      Some ((fun a => match a with Feed _ | Finish _ => Done | Available => Count (-1) | Take _ => Frames (replicate (length (chans e)) []) end) <$> later, e'').
Proof.
  intros A S R K D P cap e cs rs e' HP HC Hb Hcap Ho Hcs E. pose proof (opened_live D P (window P) cap e HP Hcap Ho) as Hl.
  set (xs := replicate _ _) in Hl. assert (Hlx : length xs = length (chans e)) by apply replicate_length.
  destruct (calls_ok D P _ HP HC (Z.le_refl _) Hb cs e xs _ Hl ltac:(by rewrite Hlx)) as (rs0 & e1 & ys & t & E1 & Hl1 & Hst & Hlen & Hfin & _).
  rewrite (proj2 (proj2 Ho)) in Hfin. cbn [orb] in Hfin.
  rewrite rtCalls_app, E1 in E. change (Some ?x ≫= ?f) with (f x) in E. cbv beta iota in E.
  destruct (available_ok D P _ HP HC (Z.le_refl _) e1 ys t Hl1) as (n & k & ds & u & Ea & En & Hl2 & Hst2 & H1 & H2 & _).
  assert (Ec : rtCall D P e1 Available = Some (Count n, Engine ds k (finished e1))).
  { cbn [rtCall]. rewrite Ea. done. }
  rewrite (rtCalls_one D P e1 Available _ _ Ec) in E. change (Some ?x ≫= ?f) with (f x) in E. cbv beta iota in E.
  injection E as E2 <-. apply app_inj_tail in E2 as [<- E2]. injection E2 as E2. rewrite En in E2.
  assert (Hne : ds <> []) by apply Hl2. rewrite report_least, (all_complete P u ds ys) in E2 by (done || apply Hl2).
  destruct (least_spec ds Hne) as (L1 & _ & L3). destruct (Z.eqb_spec (least ds) 0) as [El|El]; cbn [andb] in E2; [|lia].
  destruct (loc u) eqn:Elo; [|lia]. destruct (g_done _ _ (lv_good _ _ _ _ _ Hl2) Elo) as [Hd Hf].
  assert (Hfe : finished e1 = true).
  { destruct (finished e1) eqn:Ef; [done|]. pose proof (lv_fin _ _ _ _ _ Hl2) as Hz. cbn [finished] in Hz. rewrite ?Ef in Hz.
    destruct (g_drain _ _ (lv_good _ _ _ _ _ Hl2) Hd) as [Hn _]. exfalso. apply Hn. by apply Hz. }
  split; [congruence|]. intros later Hlater.
  destruct (over_calls D P HP HC Hb later (Engine ds k (finished e1)) ys u) as (e'' & Ee).
  - split; [done|]. split; [done|]. split; [done|]. split; [done|]. split; [done|]. cbn [chans]. rewrite El in L3.
    eapply Exists_impl; [exact L3|]. intros c. cbn. apply zlen_0.
  - by rewrite Hlen, Hlx.
  - exists e''. rewrite Ee. f_equal. f_equal. apply list_fmap_ext. intros i a _. by rewrite Hlen, Hlx.
Qed.
Print Assumptions C32_end_is_the_end.

(** The end is reported: once the final block has been given, available() gives an amount,
    and when that has been retrieved, -1; provided at least half a window was
    given in all.  Missing: shorter streams, for which it is false (below), and shifts as
    long as the window. *)
Theorem C32_end_is_reported_partial : forall {A S R K} (D : dsp A S R K) P cap e cs,
  sane D P -> calm D (window P - 1) -> before P = false -> window P <= cap -> opened P cap e ->
  Forall (fits (length (chans e))) cs -> ended cs = true -> window P / 2 <= zlen (given cs 0) ->
  exists rs m e', rtCalls D P e (cs ++ [Available]) = Some (rs ++ [Count m], e') /\
    (m = -1 \/ 0 < m /\ exists xs e'', rtCalls D P e' [Take m; Available] = Some ([Frames xs; Count (-1)], e'') /\ Forall (fun x => zlen x = m) xs).
Proof.
  intros A S R K D P cap e cs HP HC Hb Hcap Ho Hcs Hend Hlong. pose proof (opened_live D P (window P - 1) cap e HP Hcap Ho) as Hl.
  set (xs := replicate _ _) in Hl. assert (Hlx : length xs = length (chans e)) by apply replicate_length.
  assert (HB : window P - 1 <= window P) by lia. pose proof (sane_incr _ _ HP) as Hinc. pose proof (sane_window _ _ HP) as Hwin.
  destruct (calls_ok D P _ HP HC HB Hb cs e xs _ Hl ltac:(by rewrite Hlx)) as (rs0 & e1 & ys & t & E1 & Hl1 & Hst & Hlen & Hfin & Hx).
  rewrite (proj2 (proj2 Ho)) in Hfin, Hx. rewrite Hend in Hfin. cbn [orb] in Hfin.
  destruct (available_ok D P _ HP HC HB e1 ys t Hl1) as (n & k & ds & u & Ea & En & Hl2 & Hst2 & _ & H2 & _).
  assert (Ec : rtCall D P e1 Available = Some (Count n, Engine ds k (finished e1))).
  { cbn [rtCall]. rewrite Ea. done. }
  exists rs0, n, (Engine ds k (finished e1)). split.
  { rewrite rtCalls_app, E1. change (Some ?x ≫= ?f) with (f x). cbv beta iota. by rewrite (rtCalls_one D P e1 Available _ _ Ec). }
  assert (Hhalf : 0 < window P / 2) by (apply Z.div_str_pos; lia).
  assert (Hic : window P / 2 <= lic u).
  { assert (Hxi : xs !! 0%nat = Some []). { apply lookup_replicate. split; [done|]. destruct Ho as (_ & Hne & _). destruct (chans e); [done|cbn; lia]. }
    specialize (Hx 0%nat [] Hxi). cbn [app] in Hx. destruct (Forall2_lookup_r _ _ _ _ _ (lv_at _ _ _ _ _ Hl1) Hx) as (c & _ & Hc).
    pose proof (at_len _ _ _ _ Hc) as Hlc. cbn [app] in Hlc.
    assert (Hz : lsz t <> None). { pose proof (lv_fin _ _ _ _ _ Hl1) as Hz. rewrite Hfin in Hz. intros Hn. by apply Hz in Hn. }
    destruct (lsteps_ic P _ _ _ Hst2 Hz) as [-> _]. lia. }
  assert (Hu : ldr u = true /\ lf u = 0).
  { destruct (H2 Hfin) as [(K1 & K2 & _ & _ & _)|?]; [|done]. exfalso. pose proof (g_left _ _ (lv_good _ _ _ _ _ Hl2) K2) as K3. lia. }
  assert (Hlo : loc u = true).
  { destruct (cl_end _ (lv_closing _ _ _ _ _ Hl2 ltac:(lia)) (proj1 Hu) (proj2 Hu)) as [?|Hq]; [done|]. exfalso.
    destruct (g_drain _ _ (lv_good _ _ _ _ _ Hl2) (proj1 Hu)). lia. }
  assert (Hne : ds <> []) by apply Hl2. destruct (least_spec ds Hne) as (L1 & L2 & L3).
  rewrite report_least, (all_complete P u ds ys) in En by (done || apply Hl2). rewrite Hlo, andb_true_r in En.
  destruct (Z.eqb_spec (least ds) 0) as [El|El]; [by left|right].
  subst n. split; [lia|].
  destruct (takeOut_ok P u ds ys (least ds) L1 (lv_at _ _ _ _ _ Hl2)) as (zs & m & es & Et & He & Hm & Hall & Hex & Hys & Hod).
  assert (m = least ds) as ->.
  { destruct Hex as [?|Hex]; [done|]. apply Exists_exists in Hex as (c & Hc & ->). rewrite Forall_forall in L2, Hall. specialize (L2 c Hc). specialize (Hall c Hc). lia. }
  assert (Hl3 : live P (window P - 1) (Engine es k (finished e1)) ys u).
  { destruct Hl2. constructor; try done. cbn [chans]. apply Forall2_length in Hod. destruct es, ds; done. }
  destruct (available_ok D P _ HP HC HB _ ys u Hl3) as (n & k' & fs & w & Ea' & En' & Hl4 & Hst4 & _ & H4 & H5).
  cbn [chans calc finished] in *. specialize (H5 (proj1 Hu) (proj2 Hu)).
  exists (firstn_z (least ds) <$> zs), (Engine fs k' (finished e1)). split.
  - cbn [rtCalls rtCall chans calc finished]. rewrite Et. change (Some ?x ≫= ?f) with (f x). cbv beta iota.
    cbn [rtCalls rtCall chans calc finished]. rewrite Ea'. change (Some ?x ≫= ?f) with (f x). cbv beta iota.
    do 5 f_equal. subst n. rewrite report_least, (all_complete P w fs ys) by apply Hl4.
    assert (loc w = true) as ->.
    { clear -Hst4 Hlo. induction Hst4 as [|s t si u Et Hsi Hst IH|s n fin u Hz Hn Hc Hst IH]; [done| |by apply IH].
      apply IH. cbn [run loc]. assert (loc t = loc s) as ->; [|by rewrite Hlo].
      unfold take in Et. destruct (_ && _)%bool; [destruct (lsz s) eqn:E; [|done]; destruct (_ =? _); [done|]; destruct (_ <? _); by injection Et as <-|].
      destruct (ldr s); by injection Et as <-. }
    rewrite andb_true_r. enough (least fs = 0) as -> by done.
    destruct (least_spec fs (lv_ne _ _ _ _ _ Hl4)) as (M1 & M2 & _).
    apply Exists_exists in L3 as (c & Hc & Hc0). apply elem_of_list_lookup in Hc as [i Hi].
    destruct (Forall2_lookup_l _ _ _ _ _ Hod Hi) as (d & Hdi & Hdo). destruct (Forall2_lookup_l _ _ _ _ _ H5 Hdi) as (f & Hfi & Hfo).
    assert (zlen (outbuf f) = 0).
    { rewrite Hfo. destruct Hdo as [->|(j & Hj & ->)]; rewrite zlen_skipn; lia. }
    rewrite Forall_forall in M2. specialize (M2 f ltac:(by eapply elem_of_list_lookup_2)). lia.
  - clear -Hys L1. revert L1 Hys. generalize (least ds). intros m L1 Hys. induction Hys as [|c y l l' [Hy _] _ IH]; [constructor|]. cbn [fmap list_fmap]. constructor; [rewrite zlen_firstn; lia|done].
Qed.
Print Assumptions C32_end_is_reported_partial.

Definition counts {A} (rs : list (answer A)) : list Z := flat_map (fun a => match a with Count n => [n] | _ => [] end) rs.
(** Thirteen samples in blocks, then the end: ten samples come out, then -1 for good. *)
Example C32_case :
  let D := plainDsp 8 in let P := rtParams 8 2 in let e := rtEngine 2 8 8 in
  let cs := [Feed (stereo (seqZ 1 5)); Available; Finish (stereo (seqZ 6 8))] in
  (sane D P /\ calm D (window P - 1) /\ before P = false /\ opened P 8 e /\ Forall (fits (length (chans e))) cs /\ ended cs = true /\ window P / 2 <= zlen (given cs 0)) /\
  (fun x => counts (fst x)) <$>
    rtCalls D P e (cs ++ [Available; Take 13; Available; Take 1; Available; Feed (stereo [1; 2]); Available]) = Some [0; 13; -1; -1; -1].
Proof.
  split; [|vm_compute; reflexivity].
  split; [by apply rt_sane|]. split; [by apply rt_calm|]. split; [done|]. split; [by apply rt_opened|].
  split; [repeat constructor; cbn [fits]; apply stereo_fits|]. done.
Qed.

(** A stream of less than half a window is never reported over: whatever is called, and
    however often, available() never answers -1. *)
Lemma given_app {A} (a b : list (rcall A)) i : given (a ++ b) i = given a i ++ (if ended a then [] else given b i).
Proof.
  induction a as [|x a IH]; [done|]. destruct x; cbn [app given ended]; rewrite ?IH, ?app_assoc, ?app_nil_r; done.
Qed.
Lemma take_ic P s t : take P s = Some t -> lic t = lic s /\ lcap t = lcap s /\ loc t = loc s.
Proof.
  intros Et. unfold take in Et. destruct (_ && _)%bool; [destruct (lsz s) eqn:E; [|done]; destruct (_ =? _); [done|]; destruct (_ <? _); by injection Et as <-|].
  destruct (ldr s); by injection Et as <-.
Qed.
Lemma lsteps_mono P B s t : lsteps P B s t -> lic s <= lic t.
Proof.
  induction 1 as [|s t si u Et Hsi _ IH|s n fin u Hz Hn Hc _ IH]; [lia| |cbn [taken lic] in IH; lia].
  destruct (take_ic _ _ _ Et) as [Ei _]. cbn [run lic] in IH. lia.
Qed.
Lemma lsteps_short {A S R K} (D : dsp A S R K) P B s t : sane D P -> lsteps P B s t -> 0 <= lic s -> lq s = 0 -> lf s = 0 -> loc s = false ->
  lic t < window P / 2 -> loc t = false.
Proof.
  intros HP. pose proof (sane_incr _ _ HP) as Hinc. pose proof (sane_window _ _ HP) as Hwin.
  assert (Hhalf : 2 * increment P <= window P / 2 < window P) by (split; [apply Z.div_le_lower_bound; lia|apply Z.div_lt; lia]).
  induction 1 as [|s t si u Et Hsi Hst IH|s n fin u Hz Hn Hc Hst IH]; intros H0 Hq Hf Hl Hs; [done| |].
  - destruct (take_cases D P s t HP Et) as [[L ->]|[[[L|[]] ->]|[[L ->]|L]]].
    + cbn [run lic lq lf loc] in IH. unfold shiftL, lastL in IH. rewrite L, Hf, Hl in IH. cbn [andb orb negb] in IH. rewrite andb_false_r in IH.
      apply IH; try done. destruct (si =? 0); lia.
    + cbn [run lic lq lf loc ldr] in IH. unfold shiftL, lastL in IH. cbn [ldr lf lic lq loc] in IH. rewrite Hf, Hl in IH. cbn [andb orb negb] in IH.
      rewrite andb_false_r in IH. apply IH; try done. destruct (si =? 0); lia.
    + destruct L as (L1 & L2 & L3). pose proof (lsteps_mono _ _ _ _ Hst) as Hm. cbn [run lic] in Hm. lia.
    + lia.
  - apply IH; try done. cbn [taken lic]. lia.
Qed.
Theorem C32_short_stream_never_ends : forall {A S R K} (D : dsp A S R K) P cap e cs rs e',
  sane D P -> calm D (window P) -> before P = false -> window P <= cap -> opened P cap e ->
  Forall (fits (length (chans e))) cs -> zlen (given cs 0) < window P / 2 ->
  rtCalls D P e cs = Some (rs, e') -> ~ In (Count (-1)) rs.
Proof.
  intros A S R K D P cap e cs rs e' HP HC Hb Hcap Ho Hcs Hshort E Hin.
  assert (Hsplit : exists pre post rs1 e1, cs = pre ++ Available :: post /\ rtCalls D P e (pre ++ [Available]) = Some (rs1 ++ [Count (-1)], e1)).
  { clear -E Hin. revert e rs E Hin. induction cs as [|a cs IH]; intros e rs E Hin; [by injection E as <- _|].
    cbn [rtCalls] in E. destruct (rtCall D P e a) as [[r e1]|] eqn:Ea; [|done]. change (Some ?x ≫= ?f) with (f x) in E. cbv beta iota in E.
    destruct (rtCalls D P e1 cs) as [[rs1 e2]|] eqn:Ec; [|done]. change (Some ?x ≫= ?f) with (f x) in E. cbv beta iota in E.
    injection E as <- <-. destruct Hin as [->|Hin].
    - exists [], cs, [], e1. assert (a = Available) as ->; [|split; [done|exact (rtCalls_one D P e Available _ _ Ea)]].
      destruct a; cbn [rtCall] in Ea; try done.
      + destruct (processRT _ _ _ _ _); [|done]. by injection Ea.
      + destruct (processRT _ _ _ _ _); [|done]. by injection Ea.
      + destruct (takeOut _ _) as [[? ?] ?]. by injection Ea.
    - destruct (IH e1 rs1 Ec Hin) as (pre & post & rs2 & e3 & -> & E3). exists (a :: pre), post, (r :: rs2), e3. split; [done|].
      cbn [rtCalls app]. rewrite Ea. change (Some ?x ≫= ?f) with (f x). cbv beta iota. by rewrite E3. }
  destruct Hsplit as (pre & post & rs1 & e1 & -> & E1). rewrite given_app, zlen_app in Hshort.
  apply Forall_app in Hcs as [Hpre _]. pose proof (opened_live D P (window P) cap e HP Hcap Ho) as Hl.
  set (xs := replicate _ _) in Hl. assert (Hlx : length xs = length (chans e)) by apply replicate_length.
  destruct (calls_ok D P _ HP HC (Z.le_refl _) Hb pre e xs _ Hl ltac:(by rewrite Hlx)) as (rs0 & e2 & ys & t & E2 & Hl1 & Hst & Hlen & Hfin & Hx).
  rewrite rtCalls_app, E2 in E1. change (Some ?x ≫= ?f) with (f x) in E1. cbv beta iota in E1.
  destruct (available_ok D P _ HP HC (Z.le_refl _) e2 ys t Hl1) as (n & k & ds & u & Ea & En & Hl2 & Hst2 & H1 & H2 & _).
  assert (Ec : rtCall D P e2 Available = Some (Count n, Engine ds k (finished e2))) by (cbn [rtCall]; by rewrite Ea).
  rewrite (rtCalls_one D P e2 Available _ _ Ec) in E1. change (Some ?x ≫= ?f) with (f x) in E1. cbv beta iota in E1.
  injection E1 as E1 _. apply app_inj_tail in E1 as [_ E1]. injection E1 as E1. rewrite En in E1.
  rewrite report_least, (all_complete P u ds ys) in E1 by apply Hl2.
  destruct (least_spec ds ltac:(apply Hl2)) as (L1 & _ & _).
  assert (Hlo : loc u = false).
  { eapply (lsteps_short D P (window P) _ u HP); [eapply lsteps_trans; [exact Hst|exact Hst2]|done..|].
    assert (Hxi : xs !! 0%nat = Some []). { apply lookup_replicate. split; [done|]. destruct Ho as (_ & Hne & _). destruct (chans e); [done|cbn; lia]. }
    specialize (Hx 0%nat [] Hxi). rewrite (proj2 (proj2 Ho)) in Hx. cbn [app] in Hx. destruct (Forall2_lookup_r _ _ _ _ _ (lv_at _ _ _ _ _ Hl2) Hx) as (c & _ & Hc).
    pose proof (at_len _ _ _ _ Hc) as Hlc. destruct (ended pre); [rewrite (@zlen_nil A) in Hshort; lia|].
    pose proof (zlen_nonneg (given (Available :: post) 0)). lia. }
  rewrite Hlo, andb_false_r in E1. lia.
Qed.
Print Assumptions C32_short_stream_never_ends.

Theorem C32_end_is_reported_refuted : exists (P : params) (e : engine Z unit unit unit) (b : list (list Z)),
  sane (plainDsp 8) P /\ calm (plainDsp 8) (window P - 1) /\ before P = false /\ opened P 8 e /\ level (length (chans e)) b /\
  fst <$> rtCalls (plainDsp 8) P e [Finish b; Available; Take 1; Available] = Some [Done; Count 0; Frames [[]; []]; Count 0] /\
  forall n rs e', rtCalls (plainDsp 8) P e (Finish b :: replicate n Available) = Some (rs, e') -> ~ In (Count (-1)) rs.
Proof.
  exists (rtParams 8 2), (rtEngine 2 8 8), (stereo [1; 2; 3]).
  assert (H1 : sane (plainDsp 8) (rtParams 8 2)) by (by apply rt_sane).
  assert (H2 : opened (rtParams 8 2) 8 (rtEngine 2 8 8)) by (by apply rt_opened).
  split; [done|]. split; [by apply rt_calm|]. split; [done|]. split; [done|].
  split; [apply (stereo_fits [1; 2; 3])|]. split; [vm_compute; reflexivity|].
  intros n rs e' E. eapply (C32_short_stream_never_ends (plainDsp 8) (rtParams 8 2) 8); [done|by apply rt_calm|done|done|done| | |exact E].
  - constructor; [apply (stereo_fits [1; 2; 3])|]. by apply Forall_replicate.
  - done.
Qed.
Print Assumptions C32_end_is_reported_refuted.

(** ** C68 *)
Lemma lsteps_drop {A S R K} (D : dsp A S R K) P B s t : sane D P -> lsteps P B s t -> lsz s <> None -> lic t - lq t <= lic s - lq s.
Proof.
  intros HP. pose proof (sane_incr _ _ HP). induction 1 as [|s t si u Et Hsi Hst IH|s n fin u Hz Hn Hc Hst IH]; intros Hs; [lia| |done].
  assert (lsz t = lsz s /\ lic t - lq t <= lic s - lq s) as [H1 H2].
  { unfold take in Et. destruct (_ && _)%bool; [destruct (lsz s) eqn:E; [|done]; destruct (_ =? _); [done|]; destruct (_ <? _); injection Et as <-; cbn [lsz lic lq]; split; (done || lia)|].
    destruct (ldr s); injection Et as <-; cbn [lsz lic lq]; split; (done || lia). }
  cbn [run lsz lic lq] in IH. rewrite H1 in IH. specialize (IH Hs). lia.
Qed.
(** With blocks of at most an input increment, less than a window waits after every call. *)
Theorem C68_no_backlog_partial : forall {A S R K} (D : dsp A S R K) P cap e cs rs e',
  sane D P -> calm D (window P) -> before P = false -> window P <= cap -> opened P cap e ->
  Forall (fits (length (chans e))) cs ->
  Forall (fun a => match a with Feed b | Finish b => Z.of_nat (blockLen b) <= increment P | _ => True end) cs ->
  rtCalls D P e cs = Some (rs, e') -> Forall (fun c => zlen (inbuf c) < window P) (chans e').
Proof.
  intros A S R K D P cap e cs rs e' HP HC Hb Hcap Ho Hcs Hsm E. pose proof (opened_live D P (window P) cap e HP Hcap Ho) as Hl.
  set (xs := replicate _ _) in Hl. assert (Hlx : length xs = length (chans e)) by apply replicate_length. rewrite <- Hlx in Hcs.
  pose proof (sane_incr _ _ HP) as Hinc. pose proof (sane_window _ _ HP) as Hwin.
  assert (H0 : lic (Lev 0 0 false None cap 0 false 0) - lq (Lev 0 0 false None cap 0 false 0) < window P) by (cbn; lia).
  clear Hlx. clearbody xs. revert Hl H0. generalize (Lev 0 0 false None cap 0 false 0). clear Ho. intros t Hl H0.
  revert e xs t rs Hl H0 Hcs E. induction cs as [|a cs IH]; intros e xs t rs Hl H0 Hcs E.
  - injection E as <- <-. destruct Hl as [Hat _ _ _ _]. clear -Hat H0. induction Hat as [|c x l l' Hc _ IH]; constructor; [|done].
    by rewrite (at_rs _ _ _ _ Hc).
  - apply Forall_cons in Hcs as [Ha Hcs]. apply Forall_cons in Hsm as [Hs Hsm].
    cbn [rtCalls] in E. destruct (rtCall D P e a) as [[r e1]|] eqn:Ea; [|done]. change (Some ?x ≫= ?f) with (f x) in E. cbv beta iota in E.
    destruct (rtCalls D P e1 cs) as [[rs1 e2]|] eqn:Ec; [|done]. change (Some ?x ≫= ?f) with (f x) in E. cbv beta iota in E.
    injection E as <- <-.
    assert (exists ys u, live P (window P) e1 ys u /\ lic u - lq u < window P /\ length ys = length xs) as (ys & u & Hl1 & Hu & Hlen).
    { destruct a as [b|b| |n]; cbn [rtCall] in Ea.
      - destruct (processRT_ok D P _ false HP HC (Z.le_refl _) Hb e xs t b Hl Ha) as (e3 & u & Ef & Hl2 & _ & _ & Hgr & Hid).
        rewrite Ef in Ea. injection Ea as _ <-. exists (if finished e then xs else zip_with app xs b), (if finished e then t else u).
        destruct (finished e) eqn:Efi; [rewrite (Hid eq_refl) in *; done|]. split; [done|].
        split; [by apply Hgr|]. rewrite zip_with_length_l; [done|]. by rewrite (proj1 Ha).
      - destruct (processRT_ok D P _ true HP HC (Z.le_refl _) Hb e xs t b Hl Ha) as (e3 & u & Ef & Hl2 & _ & _ & Hgr & Hid).
        rewrite Ef in Ea. injection Ea as _ <-. exists (if finished e then xs else zip_with app xs b), (if finished e then t else u).
        destruct (finished e) eqn:Efi; [rewrite (Hid eq_refl) in *; done|]. split; [done|].
        split; [by apply Hgr|]. rewrite zip_with_length_l; [done|]. by rewrite (proj1 Ha).
      - destruct (available_ok D P _ HP HC (Z.le_refl _) e xs t Hl) as (n & k & ds & u & Eav & _ & Hl2 & Hst & Hun & _).
        rewrite Eav in Ea. injection Ea as _ <-. exists xs, u. split; [done|]. split; [|done].
        destruct (finished e) eqn:Efi; [|destruct (Hun eq_refl) as (_ & _ & ->); done].
        pose proof (lv_fin _ _ _ _ _ Hl) as Hz. rewrite Efi in Hz. assert (Hzn : lsz t <> None) by (intros Hn; by apply Hz in Hn).
        pose proof (lsteps_drop D P _ _ _ HP Hst Hzn). lia.
      - destruct Hl as [Hat Hne Hg Hcl Hfin]. destruct (takeOut_ok P t (chans e) xs n Ha Hat) as (zs & m & ds & Et & Hd & _).
        rewrite Et in Ea. injection Ea as _ <-. exists xs, t. split; [|done]. constructor; cbn [chans finished]; try done.
        apply Forall2_length in Hd, Hat. destruct ds, xs, (chans e); done. }
    eapply (IH Hsm e1 ys u); [done|done|by rewrite Hlen|exact Ec].
Qed.
Print Assumptions C68_no_backlog_partial.
Example C68_case :
  let D := plainDsp 8 in let P := rtParams 8 2 in let e := rtEngine 2 8 16 in
  let cs := (fun i => Feed (stereo [i; i + 1])) <$> seqZ 0 10 in
  (sane D P /\ calm D (window P) /\ before P = false /\ opened P 16 e /\ Forall (fits (length (chans e))) cs /\
   Forall (fun a => match a with Feed b | Finish b => Z.of_nat (blockLen b) <= increment P | _ => True end) cs) /\
  (fun x => (fun c => zlen (inbuf c)) <$> chans (snd x)) <$> rtCalls D P e cs = Some [6; 6].
Proof.
  split; [|vm_compute; reflexivity].
  split; [by apply rt_sane|]. split; [by apply rt_calm|]. split; [done|]. split; [by apply rt_opened|]. split.
  - repeat constructor; cbn [fits]; apply stereo_fits.
  - apply Forall_fmap. repeat constructor; cbn; lia.
Qed.

(** With larger blocks whole windows are left waiting that could have been processed,
    until the input buffer is full: blocks of four at an increment of two, and
    after five of them twelve samples wait, three windows of eight, when
    the eight samples of output so far have been taken. *)
Theorem C68_no_backlog_refuted : exists (P : params) (e : engine Z unit unit unit) (cs : list (rcall Z)),
  sane (plainDsp 8) P /\ calm (plainDsp 8) (window P) /\ before P = false /\ opened P 16 e /\ Forall (fits (length (chans e))) cs /\
  (fun x => (fst x, (fun c => (zlen (inbuf c), zlen (outbuf c))) <$> chans (snd x))) <$> rtCalls (plainDsp 8) P e cs =
    Some ([Done; Done; Done; Done; Done; Frames [[0; 2; 3; 4; 5; 6; 7; 8]; [-1; -2; -3; -4; -5; -6; -7; -8]]], [(12, 0); (12, 0)]).
Proof.
  exists (rtParams 8 2), (rtEngine 2 8 16), (((fun i => Feed (stereo [i; i + 1; i + 2; i + 3])) <$> [1; 5; 9; 13; 17]) ++ [Take 100]).
  split; [by apply rt_sane|]. split; [by apply rt_calm|]. split; [done|]. split; [by apply rt_opened|].
  split; [apply Forall_app; split; [repeat constructor; cbn [fits]; apply stereo_fits|by repeat constructor]|].
  vm_compute. reflexivity.
Qed.
Print Assumptions C68_no_backlog_refuted.

(** ** C65 *)
(** Every chunk written is appended whole to what waits to be retrieved, however much that is.
    Missing: a pitch scale above 1 with the resampling done before stretching. *)
Theorem C65_output_kept_partial : forall {A S R K} (D : dsp A S R K) P c p si reset,
  sane D P -> wf P c -> capok P c -> 0 <= si <= window P -> realtime P = true -> after P = false -> draining c = false -> inputSize c = None -> 0 <= outCount c ->
  exists last d out, processChunkForChannel D P c p si reset = Some (last, d) /\ outbuf d = outbuf c ++ out /\ zlen out = si.
Proof.
  intros A S R K D P c p si reset HP Hw Hk Hsi Hrt Haf Hd Hz Ho.
  destruct (pcfc_ok D P c p si reset HP Hw Hk Hsi) as (last & d & E & _ & _ & _ & _ & _ & _ & _ & Hwr).
  rewrite Hd in Hwr. cbn [andb] in Hwr. destruct Hwr as (out & H1 & H2 & _). specialize (H1 Haf).
  unfold shiftOf in H1. rewrite Hd in H1. eexists _, d, _. split; [exact E|]. split; [exact H2|].
  unfold theo, emit, startSkip. rewrite Hz, Hrt. cbn [Z.ltb andb]. destruct (Z.ltb_spec 0 (outCount c)); cbn [fst].
  - change (0 <? 0) with false. cbn [andb]. rewrite firstn_z_all by lia. done.
  - destruct (Z.leb_spec (outCount c + zlen out) 0); cbn [fst].
    + rewrite (@zlen_nil A). lia.
    + rewrite zlen_skipn. lia.
Qed.
Print Assumptions C65_output_kept_partial.
(** A chunk of two for a buffer of eight that holds seven: the buffer is doubled. *)
Example C65_case :
  let D := plainDsp 8 in let P := rtParams 8 2 in let c := set_out (rtChan 8 8) [1; 2; 3; 4; 5; 6; 7] 7 in
  (sane D P /\ wf P c /\ capok P c) /\
  (fun x => outbuf (snd x)) <$> processChunkForChannel D P c 2 2 false = Some [1; 2; 3; 4; 5; 6; 7; 0; 0].
Proof.
  split; [|vm_compute; reflexivity]. split; [by apply rt_sane|]. split; [constructor; cbn; rewrite ?zlen_cons, ?zlen_replicate; lia|].
  split; vm_compute; discriminate.
Qed.

Fixpoint halve (l : list Z) : list Z := match l with x :: _ :: l => x :: halve l | _ => [] end.
Definition halfDsp : dsp Z unit unit unit :=
  Dsp _ _ _ _ 0 1 Z.add Z.sub Z.div (fun x => x / 2)
    (fun s x => (x, s)) (fun s x _ _ _ => (x, s)) (fun _ => replicate 8 1)
    (fun r x _ _ _ => (halve x, r)) (fun k _ => (4, 4, false, k)).
Definition halfParams : params := Params 8 2 true 1 2 true false false [].
Definition halfEngine : engine Z unit unit unit := Engine [set_outCap (rtChan 8 16) 256] tt false.
Definition retrieved (rs : list (answer Z)) : list Z :=
  flat_map (fun a => match a with Frames xs => default [] (xs !! 0%nat) | _ => [] end) rs.

(** An octave up with the resampling done first: the room asked for before writing a chunk is
    that of a shorter one, so a chunk may not fit.  The same 280 samples in
    blocks of four; when the output is taken at once there are 268 samples of it, when three
    samples are taken early and the others at the end, one of them is missing. *)
Theorem C65_output_kept_refuted : exists (early late : list (rcall Z)) (xs ys : list Z),
  given early 0 = given late 0 /\
  (fun x => (retrieved (fst x), (fun c => zlen (outbuf c)) <$> chans (snd x))) <$> rtCalls halfDsp halfParams halfEngine early = Some (xs, [0]) /\
  (fun x => (retrieved (fst x), (fun c => zlen (outbuf c)) <$> chans (snd x))) <$> rtCalls halfDsp halfParams halfEngine late = Some (ys, [0]) /\
  zlen xs = 268 /\ zlen ys = 267.
Proof.
  set (feeds := (fun i => Feed [[4 * i; 4 * i + 1; 4 * i + 2; 4 * i + 3]]) <$> seqZ 0 70).
  eexists (flat_map (fun a => [a; Take 1000]) feeds), (firstn_z 6 feeds ++ [Take 3] ++ skipn_z 6 feeds ++ [Take 1000]), _, _.
  split; [vm_compute; reflexivity|]. split; [vm_compute; reflexivity|]. split; [vm_compute; reflexivity|].
  split; vm_compute; reflexivity.
Qed.
Print Assumptions C65_output_kept_refuted.
