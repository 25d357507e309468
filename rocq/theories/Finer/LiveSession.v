(** Whole sessions of the live shifter. *)
From stdpp Require Import prelude list numbers.
From Coq Require Import ZArith QArith Qround Lia Lqa.
From Verif Require Import Base.Arith Finer.GuideModel Finer.GuideProofs Finer.EngineModel Finer.EngineSpec Finer.EngineShape Finer.LiveModel Finer.LiveSpec Finer.LiveProofs.
From stdpp Require Import list.
Local Open Scope Z_scope.

Section Session.
  Context {R : Type} (RS : resampler R) (L : lshape) (HL : lsized L) (HF : fair RS).
  Notation lv := (live R).

  (** Any resampler. *)
  Record ok (s : lv) : Prop := Ok {
    k_pitch : (0 < pitch s)%Q; k_in : 0 <= inFill s <= room L; k_out : 0 <= outFill s <= 562; k_lost : lost s = 0; k_fits : Forall (fits L) (frames s);
    k_d1 : 0 <= delayIn s <= 512; k_d2 : 0 <= delayOut s <= 512
  }.
  Lemma measure_ok (s : lv) : (0 < pitch s)%Q -> 0 <= inFill s <= room L -> 0 <= outFill s <= 562 -> lost s = 0 -> Forall (fits L) (frames s) -> ok (measureResamplerDelay RS s).
  Proof.
    intros H1 H2 H3 H4 H5. unfold measureResamplerDelay. change blockSize with 512. destruct HF as [F _].
    pose proof (F (rin s) 512 512 (inRatio (pitch s)) false ltac:(lia) ltac:(lia)) as F1. destruct (rres RS (rin s) 512 512 (inRatio (pitch s)) false) as [k r].
    pose proof (F (rout s) 512 512 (outRatio (pitch s)) false ltac:(lia) ltac:(lia)) as F2. destruct (rres RS (rout s) 512 512 (outRatio (pitch s)) false) as [k' r'].
    cbn [fst] in *. constructor; cbn [pitch inFill outFill lost frames delayIn delayOut]; try done; lia.
  Qed.
  Lemma room_pos : 4096 <= room L.
  Proof. destruct (sizes L HL) as (A1 & A2 & A3 & A4 & A5 & A6 & A7). unfold room. lia. Qed.
  Lemma live0_ok : ok (live0 RS L).
  Proof. pose proof room_pos. apply measure_ok; cbn [pitch inFill outFill lost frames]; try done; lia. Qed.
  Lemma setPitch_ok (s : lv) p : ok s -> (0 < p)%Q -> ok (setPitch RS s p).
  Proof.
    intros [H1 H2 H3 H4 H5 H6 H7] Hp. unfold setPitch. destruct (Qeq_bool p (pitch s)); [by constructor|]. cbn [firstProcess].
    destruct (firstProcess s); [by apply measure_ok|]. constructor; done.
  Qed.
  Lemma resetLive_ok (s : lv) : ok s -> ok (resetLive RS L s).
  Proof. intros [H1 H2 H3 H4 H5 H6 H7]. pose proof room_pos. apply measure_ok; cbn [pitch inFill outFill lost frames]; try done; lia. Qed.
  Lemma put_ok (s : lv) r z k : ok s -> 0 <= z -> 0 <= k -> ok (put L s r z k).
  Proof. intros [H1 H2 H3 H4 H5 H6 H7] Hz Hk. constructor; cbn [put pitch inFill outFill lost frames delayIn delayOut]; try done. lia. Qed.
  Lemma put_fits (s : lv) r z k : 0 <= z -> 0 <= k -> inFill s + z + k <= room L -> let s' := put L s r z k in
    inFill s' = inFill s + z + k /\ spilt s' = spilt s /\ front s' = front s + z /\ pitch s' = pitch s /\ firstProcess s' = firstProcess s /\ rin s' = r /\ rout s' = rout s /\ outFill s' = outFill s /\ refused s' = refused s.
  Proof. intros Hz Hk Hr. cbn [put pitch firstProcess inFill spilt front rin rout outFill refused]. rewrite (Z.min_l z) by lia. rewrite (Z.min_l k) by lia. split_and!; try done; lia. Qed.
  Lemma pad_nonneg (p : Q) : (0 < p)%Q -> 0 <= if ltq 1 p then cceil (inject_Z (source L) * p) else source L.
  Proof.
    intros Hp. destruct (sizes L HL) as (A1 & A2 & A3 & A4 & A5 & A6 & A7). destruct (ltq 1 p); [|lia]. destruct (ceil_bounds (inject_Z (source L) * p)) as [C _].
    apply inject_Z_inj_le. change (inject_Z 0) with 0%Q. assert (0 <= inject_Z (source L))%Q by (change 0%Q with (inject_Z 0); rewrite <- Zle_Qle; lia). nra.
  Qed.
  Lemma prePad_ok (s : lv) : ok s -> ok (prePad L s).
  Proof. intros H. unfold prePad. destruct (firstProcess s); [|done]. apply put_ok; [done| |lia]. apply pad_nonneg, H. Qed.
  Lemma readIn_ok (s : lv) : ok s -> ok (readIn RS L s).
  Proof.
    intros H. unfold readIn. pose proof room_pos. destruct (_ <? blockSize); [destruct H; by constructor|]. destruct HF as [F _].
    pose proof (F (rin s) (room L) blockSize (inRatio (pitch s)) false ltac:(lia) ltac:(unfold blockSize; lia)) as F1. destruct (rres RS (rin s) (room L) blockSize (inRatio (pitch s)) false) as [k r]. cbn [fst] in F1.
    apply put_ok; [done| |lia]. destruct (firstProcess s); cbn [andb]; [|lia]. destruct (Z.ltb_spec k (Qfloor (inject_Z blockSize * inRatio (pitch s)))); lia.
  Qed.
  Lemma generate_ok (s : lv) n : ok s -> 1 <= n <= 512 -> ok (generate L s n).
  Proof.
    intros H Hn. destruct (sizes L HL) as (A1 & A2 & A3 & A4 & A5 & A6 & A7). pose proof H as [H1 H2 H3 H4 H5 H6 H7].
    destruct (Z_le_gt_dec n (outFill s)) as [Hx|Hx]; [rewrite (generate_is L s n); tauto || lia|]. destruct (Z_le_gt_dec (inFill s) (source L)) as [Hy|Hy]; [rewrite (generate_is L s n); tauto || lia|].
    destruct (generate_does L HL s n 51) as (h & Hh & G); [lia|lia|unfold room in H2; lia|lia|lia|]. cbv zeta in G.
    destruct G as ((K1 & K2 & K3 & K4 & K5 & K6 & K7 & K8 & K9 & K10) & G1 & G2 & G3 & G4 & i & o & G5 & G6 & _). constructor; try congruence; try lia.
    rewrite G6. apply Forall_app. split; [by apply Forall_replicate|done].
  Qed.
  Lemma shift_ok (s : lv) : ok s -> exists s' b, shiftBlock RS L s = Some (s', b) /\ one_block b /\ ok s' /\ firstProcess s' = false /\ (firstProcess s = false -> b.1.1 = 0).
  Proof.
    intros H. unfold shiftBlock. apply prePad_ok in H as H1. apply readIn_ok in H1 as H2.
    assert (Hp : pitch (readIn RS L (prePad L s)) = pitch s /\ firstProcess (readIn RS L (prePad L s)) = firstProcess s).
    { unfold readIn, prePad. destruct (firstProcess s) eqn:E.
      - destruct (_ <? blockSize); [done|]. destruct (rres _ _ _ _ _ _). done.
      - destruct (_ <? blockSize); [done|]. destruct (rres _ _ _ _ _ _). done. }
    destruct Hp as [Hp Hfp]. destruct (needed_is (pitch s) (k_pitch _ H)) as (N1 & _). unfold needed in N1.
    pose proof (generate_ok _ _ H2 N1) as H3. set (n := cceil _) in *. set (s2 := readIn RS L (prePad L s)) in *.
    assert (Hfg : firstProcess (generate L s2 n) = firstProcess s2).
    { destruct (Z_le_gt_dec n (outFill s2)) as [Hx|Hx]; [rewrite (generate_is L s2 n); tauto || (destruct H2; lia)|]. destruct (Z_le_gt_dec (inFill s2) (source L)) as [Hy|Hy]; [rewrite (generate_is L s2 n); tauto || (destruct H2; lia)|].
      destruct H2. destruct (sizes L HL) as (A1 & A2 & A3 & A4 & A5 & A6 & A7). destruct (generate_does L HL s2 n 51) as (h & Hh & G & _); [lia|lia|unfold room in *; lia|lia|lia|]. apply G. }
    destruct (readOut_is RS HF (generate L s2 n)) as (s' & b & E & B & P1 & P2 & P3 & P4 & P5 & P6 & P7 & P8 & P9 & P10 & P11 & P12 & P13); [apply H3|destruct H3; lia|].
    exists s', b. split; [done|]. split; [done|]. split; [destruct H3; constructor; try congruence; lia|]. split; [done|]. intros E'. apply P12. congruence.
  Qed.
  Lemma run_ok l : Forall above_zero l -> forall s : lv, ok s -> exists s' k, run RS L s l = Some (s', k) /\ ok s' /\ zlen k = shifts l /\ Forall one_block k.
  Proof.
    induction 1 as [|o l Ho _ IH]; intros s Hs; cbn [run]; [by exists s, []|]. unfold shifts in *. rewrite filter_cons. destruct o; cbn [is_shift].
    - rewrite decide_False by done. apply IH. by apply setPitch_ok.
    - rewrite decide_True by done. destruct (shift_ok s Hs) as (s1 & b & -> & B & H1 & _). cbn [mbind option_bind]. destruct (IH s1 H1) as (s' & k & -> & I1 & I2 & I3). cbn [mbind option_bind].
      exists s', (b :: k). split; [done|]. split; [done|]. split; [rewrite !zlen_cons; lia|by constructor].
    - rewrite decide_False by done. apply IH. by apply resetLive_ok.
  Qed.
  Lemma total_nonneg (s : lv) : ok s -> 0 <= startTotal L s.
  Proof.
    intros [H1 H2 H3 H4 H5 H6 H7]. destruct (sizes L HL) as (A1 & A2 & A3 & A4 & A5 & A6 & A7). unfold startTotal. set (w := source L + delayIn s). assert (Hw : (1024 <= inject_Z w)%Q) by (change 1024%Q with (inject_Z 1024); rewrite <- Zle_Qle; lia).
    destruct (ratios (pitch s) H1) as (_ & _ & Ho). destruct (floor_bounds (inject_Z w * outRatio (pitch s))) as [F1 F2]. change (inject_Z blockSize) with 512%Q.
    assert (Hd : (0 <= inject_Z (delayOut s))%Q) by (change 0%Q with (inject_Z 0); rewrite <- Zle_Qle; lia).
    assert (T : forall q, (0 <= q)%Q -> 0 <= ctrunc q). { intros q Hq. unfold ctrunc. destruct (ltq q 0) eqn:E; [apply ltq_true in E; lra|]. by apply floor_least. }
    destruct (ltq 1 (pitch s)) eqn:E1; [|destruct (ltq (pitch s) 1) eqn:E2].
    - apply ltq_true in E1. apply T. rewrite inject_Z_plus. nra.
    - apply ltq_true in E2. apply T. rewrite inject_Z_plus. unfold outRatio in *. replace (ltq (pitch s) 1) with true in * by (symmetry; by apply ltq_true). nra.
    - assert (-1 < Qfloor (inject_Z w * outRatio (pitch s))); [|lia]. apply inject_Z_inj_lt. change (inject_Z (-1)) with (-1)%Q. nra.
  Qed.

  (** An ideal resampler. *)
  Context (store : R -> Q) (S0 : (store (rnew RS) == 0)%Q) (S1 : forall r, (store (rreset RS r) == 0)%Q)
    (SI : forall r cap n q f, (0 < q)%Q -> (0 <= store r)%Q -> 0 <= cap -> 0 <= n ->
      let k := (rres RS r cap n q f).1 in
      k = Z.min cap (Qfloor (q * (store r + inject_Z n))) /\ store (rres RS r cap n q f).2 == store r + inject_Z n - inject_Z k / q).

  Definition steady (s : lv) : Prop :=
    ((1 # 8) <= pitch s /\ pitch s <= 8)%Q /\ refused s = 0 /\ spilt s = 0 /\
    if firstProcess s then inFill s = 0 /\ outFill s = 0 /\ (store (rin s) == 0)%Q /\ (store (rout s) == 0)%Q
    else source L - 50 <= inFill s <= source L /\ 0 <= outFill s <= 51 /\ (0 <= store (rin s) /\ store (rin s) < 8)%Q /\ (0 <= store (rout s))%Q.
  Lemma measure_steady (s : lv) : ((1 # 8) <= pitch s /\ pitch s <= 8)%Q -> refused s = 0 -> spilt s = 0 -> firstProcess s = true -> inFill s = 0 -> outFill s = 0 -> steady (measureResamplerDelay RS s).
  Proof.
    intros H1 H2 H3 H4 H5 H6. unfold measureResamplerDelay. destruct (rres RS (rin s) _ _ _ _) as [k r]. destruct (rres RS (rout s) _ _ _ _) as [k' r'].
    unfold steady. cbn [pitch refused spilt firstProcess inFill outFill rin rout]. rewrite H4. split; [done|]. split; [done|]. split; [done|]. split; [done|]. split; [done|]. split; apply S1.
  Qed.
  Lemma live0_steady : steady (live0 RS L).
  Proof. apply measure_steady; cbn [pitch refused spilt firstProcess inFill outFill]; try done. Qed.
  Lemma setPitch_steady (s : lv) p : steady s -> ((1 # 8) <= p /\ p <= 8)%Q -> steady (setPitch RS s p).
  Proof.
    intros (H1 & H2 & H3 & H4) Hp. unfold setPitch. destruct (Qeq_bool p (pitch s)); [done|]. cbn [firstProcess].
    destruct (firstProcess s) eqn:E.
    - destruct H4 as (H4 & H5 & _). by apply measure_steady.
    - unfold steady. cbn [pitch refused spilt firstProcess inFill outFill rin rout]. done.
  Qed.
  Lemma resetLive_steady (s : lv) : steady s -> steady (resetLive RS L s).
  Proof. intros (H1 & _). by apply measure_steady. Qed.

  (** What the input resampler gives. *)
  Lemma input_is p st r : ((1 # 8) <= p /\ p <= 8)%Q -> (0 <= store r /\ store r < 8)%Q -> st = rres RS r (room L) blockSize (inRatio p) false ->
    64 <= st.1 <= 520 /\ st.1 = Qfloor (inRatio p * (store r + 512)) /\ (0 <= store st.2 /\ store st.2 < 8)%Q.
  Proof.
    intros Hp [Hs1 Hs2] ->. destruct (ratios p ltac:(lra)) as (Q1 & Q2 & _). pose proof room_pos.
    assert (Q3 : ((1 # 8) <= inRatio p)%Q). { unfold inRatio. destruct (ltq 1 p) eqn:E; [|lra]. apply ltq_true in E. apply Qle_shift_div_l; lra. }
    destruct (SI r (room L) blockSize (inRatio p) false Q1 Hs1) as [K1 K2]; [lia|unfold blockSize; lia|]. cbv zeta in *. destruct (rres RS r (room L) blockSize (inRatio p) false) as [k r']. cbn [fst snd] in *.
    change (inject_Z blockSize) with 512%Q in *. set (x := (inRatio p * (store r + 512))%Q) in *. destruct (floor_bounds x) as [F1 F2].
    assert (Hx1 : (64 <= x)%Q) by (unfold x; nra). assert (Hx2 : (x < 520)%Q) by (unfold x; nra).
    assert (63 < Qfloor x). { apply inject_Z_inj_lt. change (inject_Z 63) with 63%Q. lra. } assert (Qfloor x < 520). { apply inject_Z_inj_lt. change (inject_Z 520) with 520%Q. lra. }
    assert (k = Qfloor x) as -> by lia. split; [lia|]. split; [done|]. rewrite K2.
    assert (Hd : (store r + 512 - inject_Z (Qfloor x) / inRatio p == (x - inject_Z (Qfloor x)) / inRatio p)%Q) by (unfold x; field; lra). rewrite Hd. split.
    - apply Qle_shift_div_l; lra.
    - apply Qlt_shift_div_r; [done|]. nra.
  Qed.
  Lemma shift_steady (s : lv) : ok s -> steady s -> (firstProcess s = true -> (inject_Z (source L) * pitch s + 512 <= inject_Z (4 * source L))%Q) ->
    exists s', shiftBlock RS L s = Some (s', (0, 512, 0)) /\ steady s' /\ firstProcess s' = false /\ pitch s' = pitch s /\ refused s' = 0 /\ spilt s' = 0.
  Proof.
    intros HO (Hp & Hr & Hsp & Hs) Hlow. destruct (sizes L HL) as (A1 & A2 & A3 & A4 & A5 & A6 & A7). pose proof room_pos as Hroom.
    destruct (needed_is (pitch s) ltac:(lra)) as (N1 & N2 & N3 & N4 & N5). specialize (N5 (proj1 Hp)). unfold shiftBlock.
    assert (X : exists s2, s2 = readIn RS L (prePad L s) /\ pitch s2 = pitch s /\ refused s2 = 0 /\ spilt s2 = 0 /\ firstProcess s2 = firstProcess s /\ rout s2 = rout s /\ outFill s2 = outFill s /\
      source L < inFill s2 <= room L /\ (0 <= store (rin s2) /\ store (rin s2) < 8)%Q /\ 0 <= outFill s <= 51 /\ (0 <= store (rout s))%Q).
    { eexists. split; [reflexivity|]. destruct (firstProcess s) eqn:E.
      - destruct Hs as (I1 & I2 & I3 & I4). specialize (Hlow eq_refl). unfold prePad. rewrite E.
        set (pad := if ltq 1 (pitch s) then _ else _). assert (Hpad : source L <= pad /\ pad + 512 <= 4 * source L).
        { unfold pad. destruct (ltq 1 (pitch s)) eqn:E1; [|lia]. apply ltq_true in E1. destruct (ceil_bounds (inject_Z (source L) * pitch s)) as [C1 C2].
          assert (Hsz : (1024 <= inject_Z (source L))%Q) by (change 1024%Q with (inject_Z 1024); rewrite <- Zle_Qle; lia). split.
          - apply inject_Z_inj_le. nra.
          - assert (cceil (inject_Z (source L) * pitch s) + 512 < 4 * source L + 1); [|lia]. apply inject_Z_inj_lt. rewrite !inject_Z_plus. change (inject_Z 512) with 512%Q. change (inject_Z 1) with 1%Q. lra. }
        destruct Hpad as [P1 P2]. destruct (put_fits s (rin s) pad 0) as (U1 & U2 & U3 & U4 & U5 & U6 & U7 & U8 & U9); [lia|lia|unfold room; lia|]. set (s1 := put L s (rin s) pad 0) in *.
        unfold readIn. rewrite U1, I1. destruct (Z.ltb_spec (room L - (0 + pad + 0)) blockSize); [unfold room, blockSize in *; lia|]. rewrite U4, U5, U6.
        destruct (input_is (pitch s) _ (rin s) Hp ltac:(split; lra) eq_refl) as (K1 & K2 & K3). destruct (rres RS (rin s) (room L) blockSize (inRatio (pitch s)) false) as [k r]. cbn [fst snd] in *.
        destruct (ratios (pitch s) ltac:(lra)) as (Q1 & Q2 & _).
        assert (Hk : k = Qfloor (inject_Z blockSize * inRatio (pitch s))). { rewrite K2. change (inject_Z blockSize) with 512%Q. apply Qfloor_comp. rewrite I3. ring. }
        assert (Hk2 : k <= 512). { rewrite Hk. rewrite <- (Qfloor_Z 512). apply Qfloor_resp_le. change (inject_Z blockSize) with 512%Q. change (inject_Z 512) with 512%Q. lra. }
        rewrite E, <- Hk, Z.ltb_irrefl. cbn [andb].
        destruct (put_fits s1 r 0 k) as (V1 & V2 & V3 & V4 & V5 & V6 & V7 & V8 & V9); [lia|lia|unfold room; lia|]. rewrite V1, V2, V4, V5, V6, V7, V8, V9, U1, U2, U4, U5, U7, U8, U9.
        unfold room. split; [done|]. split; [done|]. split; [done|]. split; [done|]. split; [done|]. split; [done|]. split; [lia|]. split; [done|]. split; [lia|]. lra.
      - destruct Hs as (I1 & I2 & I3 & I4). unfold prePad. rewrite E. unfold readIn. rewrite E. cbn [andb]. destruct (Z.ltb_spec (room L - inFill s) blockSize); [unfold room, blockSize in *; lia|].
        destruct (input_is (pitch s) _ (rin s) Hp I3 eq_refl) as (K1 & K2 & K3). destruct (rres RS (rin s) (room L) blockSize (inRatio (pitch s)) false) as [k r]. cbn [fst snd] in *.
        destruct (put_fits s r 0 k) as (V1 & V2 & V3 & V4 & V5 & V6 & V7 & V8 & V9); [lia|lia|unfold room; lia|]. rewrite V1, V2, V4, V5, V6, V7, V8, V9.
        unfold room. split; [done|]. split; [done|]. split; [done|]. split; [done|]. split; [done|]. split; [done|]. split; [lia|]. split; [done|]. split; [lia|]. lra. }
    destruct X as (s2 & E2 & P1 & P2 & P3 & P4 & P5 & P6 & P7 & P8 & P9 & P10). rewrite <- E2. clear E2. fold (needed (pitch s)).
    destruct (generate_does L HL s2 (needed (pitch s)) 51) as (h & Hh & G); [lia|lia|unfold room in P7; lia|lia|lia|]. cbv zeta in G.
    destruct G as ((K1 & K2 & K3 & K4 & K5 & K6 & K7 & K8 & K9 & K10) & G1 & G2 & G3 & G4 & _). set (s3 := generate L s2 (needed (pitch s))) in *.
    destruct (readOut_is RS HF s3) as (s' & b & E & B & R1 & R2 & R3 & R4 & R5 & R6 & R7 & R8 & R9 & R10 & R11 & R12 & R13); [rewrite K1, P1; lra|lia|].
    unfold readOut in E. destruct (fill _ _ _ _ _ _ _) as [[[level r] count]|] eqn:EF; [|done]. cbn [mbind option_bind] in E.
    destruct (ratios (pitch s) ltac:(lra)) as (_ & _ & Qo). rewrite K1, P1 in *.
    assert (Y1 : 0 <= outFill s3) by lia. assert (Y2 : 0 <= 0 <= 512) by lia. assert (Y3 : (0 <= store (rout s3))%Q) by (rewrite K4, P5; exact P10).
    assert (Y4 : (inject_Z (512 - 0) <= outRatio (pitch s) * (store (rout s3) + inject_Z (outFill s3)))%Q).
    { change (inject_Z (512 - 0)) with 512%Q. assert (inject_Z (needed (pitch s)) <= inject_Z (outFill s3))%Q by (rewrite <- Zle_Qle; lia). nra. }
    destruct (fill_all RS HF store _ SI _ _ _ _ _ _ _ _ Y1 Y2 Qo Y3 Y4 EF) as [-> Hst].
    injection E as E Eb. subst b. change (512 <? blockSize) with false. exists s'. unfold readOut. rewrite K1, EF. cbn [mbind option_bind]. change (512 <? blockSize) with false. rewrite E. split; [done|].
    assert (Ero : rout s' = r) by (by subst s'). unfold steady. rewrite R1, R2, R3, R4, R6, R7, K3, K6, K7, Ero. split; [|done]. split; [done|]. split; [done|]. split; [done|]. split; [lia|]. split; [|done]. lia.
  Qed.
  Lemma run_steady l : Forall within l -> forall s : lv, ok s -> steady s -> starts_low L (pitch s) (firstProcess s) l ->
    exists s' k, run RS L s l = Some (s', k) /\ steady s' /\ Forall (eq (0, 512, 0)) k.
  Proof.
    induction 1 as [|o l Ho _ IH]; intros s HO Hs Hl; cbn [run]; [by exists s, []|]. destruct o as [p| |]; cbn [within starts_low] in *.
    - destruct (IH (setPitch RS s p)) as (s' & k & I1 & I2 & I3); [apply setPitch_ok; [done|lra]|by apply setPitch_steady| |by exists s', k].
      destruct Hs as (_ & _ & _ & _). revert Hl. unfold setPitch. destruct (Qeq_bool p (pitch s)) eqn:E.
      + apply Qeq_bool_iff in E. cbn [pitch]. generalize (firstProcess s). revert E. generalize (pitch s) as q. clear. induction l as [|o l IH]; intros q E b H; [done|]. destruct o; cbn [starts_low] in *; [done| |by apply (IH q)].
        destruct H as [H1 H2]. split; [|by apply (IH q)]. intros Hb. rewrite <- E. by apply H1.
      + cbn [firstProcess]. destruct (firstProcess s) eqn:E1; [|done]. unfold measureResamplerDelay. destruct (rres RS (rin _) _ _ _ _). destruct (rres RS (rout _) _ _ _ _). done.
    - destruct Hl as [Hl1 Hl2]. destruct (shift_steady s HO Hs Hl1) as (s1 & E & T1 & T2 & T3 & T4 & T5). destruct (shift_ok s HO) as (s1' & b & E' & _ & O1 & _). rewrite E in E'. injection E' as <- <-.
      rewrite E. cbn [mbind option_bind]. destruct (IH s1 O1 T1) as (s' & k & -> & I2 & I3); [by rewrite T2, T3|]. cbn [mbind option_bind]. exists s', ((0, 512, 0) :: k). split; [done|]. split; [done|]. by constructor.
    - apply IH; [by apply resetLive_ok|by apply resetLive_steady|]. unfold resetLive, measureResamplerDelay. destruct (rres RS (rin _) _ _ _ _). destruct (rres RS (rout _) _ _ _ _). done.
  Qed.

  (** Pitch unchanged: every frame lands where it came from. *)
  Definition still (s : lv) : Prop :=
    pitch s = 1%Q /\ delayIn s = 0 /\ delayOut s = 0 /\ Forall (fun e => e.1 = e.2) (frames s) /\ (store (rin s) == 0)%Q /\ (store (rout s) == 0)%Q /\ outFill s = 0 /\
    if firstProcess s then inFill s = 0 /\ front s = 0 /\ frames s = [] else inFill s = source L /\ front s = source L.
  Lemma unity_call r cap : (store r == 0)%Q -> 512 <= cap -> (rres RS r cap blockSize 1 false).1 = 512 /\ (store (rres RS r cap blockSize 1 false).2 == 0)%Q.
  Proof.
    intros Hs Hc. change blockSize with 512. destruct (SI r cap 512 1%Q false ltac:(lra) ltac:(lra) ltac:(lia) ltac:(lia)) as [K1 K2]. cbv zeta in *.
    assert (E : Qfloor (1 * (store r + inject_Z 512)) = 512) by (rewrite <- (Qfloor_Z 512) at 2; apply Qfloor_comp; rewrite Hs; ring). rewrite E in K1. rewrite Z.min_r in K1 by lia.
    split; [done|]. rewrite K2, K1, Hs. field.
  Qed.
  Lemma live0_still : still (live0 RS L).
  Proof.
    unfold live0, measureResamplerDelay. cbn [rin rout pitch]. change (inRatio 1) with 1%Q. change (outRatio 1) with 1%Q.
    destruct (unity_call (rnew RS) blockSize S0) as [K _]; [unfold blockSize; lia|]. destruct (rres RS (rnew RS) blockSize blockSize 1 false) as [k r]. cbn [fst] in K. subst k.
    unfold still. cbn [pitch delayIn delayOut frames rin rout outFill firstProcess inFill front]. split; [done|]. split; [done|]. split; [done|]. split; [by constructor|]. split; [apply S1|]. split; [apply S1|]. done.
  Qed.
  Lemma unity_hops : exists h i, hopCount L 512 512 = h /\ 1 + (512 - 1) / h = i /\ h * i = 512 /\ 1 <= h <= 8.
  Proof.
    destruct HL as [A Ho _ _]. unfold hopCount. rewrite Ho. destruct A as [->|[->|[->|[->|[->| ->]]]]]; eexists _, _; (split; [vm_compute; reflexivity|]; split; [vm_compute; reflexivity|]; split; lia).
  Qed.
  Lemma fill_unity r fuel : (store r == 0)%Q -> (2 <= fuel)%nat -> fill RS fuel 1 false 512 r 0 = Some (0, (rres RS r blockSize blockSize 1 false).2, 512).
  Proof.
    intros Hs Hf. destruct fuel as [|[|fuel]]; [lia|lia|]. destruct (unity_call r blockSize Hs) as [R1 R2]; [unfold blockSize; lia|].
    cbn [fill]. change (negb (0 <? blockSize)) with false. cbv iota. change (Qfloor (inject_Z blockSize / 1)) with 512. change (512 =? 0) with false. cbv iota. change (Z.min 512 512) with blockSize. change (blockSize - 0) with blockSize.
    destruct (rres RS r blockSize blockSize 1 false) as [k r']. cbn [fst snd] in *. subst k. reflexivity.
  Qed.
  Lemma shift_still (s : lv) : ok s -> still s -> exists s', shiftBlock RS L s = Some (s', (0, 512, 0)) /\ still s' /\ firstProcess s' = false.
  Proof.
    intros HO (H1 & H2 & H3 & H4 & H5 & H6 & H7 & H8). destruct (sizes L HL) as (A1 & A2 & A3 & A4 & A5 & A6 & A7). pose proof room_pos as Hroom. unfold shiftBlock. rewrite H1.
    change (cceil (inject_Z blockSize / outRatio 1)) with 512.
    assert (X : exists s2, s2 = readIn RS L (prePad L s) /\ pitch s2 = 1%Q /\ delayIn s2 = 0 /\ delayOut s2 = 0 /\ frames s2 = frames s /\ (store (rin s2) == 0)%Q /\ rout s2 = rout s /\ outFill s2 = 0 /\ inFill s2 = source L + 512 /\ front s2 = source L).
    { eexists. split; [reflexivity|]. assert (Y : exists s1, s1 = prePad L s /\ pitch s1 = 1%Q /\ delayIn s1 = 0 /\ delayOut s1 = 0 /\ frames s1 = frames s /\ rin s1 = rin s /\ rout s1 = rout s /\ outFill s1 = 0 /\ inFill s1 = source L /\ front s1 = source L).
      { eexists. split; [reflexivity|]. unfold prePad. destruct (firstProcess s); [|tauto]. rewrite H1. change (ltq 1 1) with false. cbv iota. cbn [put pitch delayIn delayOut frames rin rout outFill inFill front]. destruct H8 as (-> & -> & _). unfold room. split_and!; try done; lia. }
      destruct Y as (s1 & <- & Y1 & Y2 & Y3 & Y4 & Y5 & Y6 & Y7 & Y8 & Y9). unfold readIn. rewrite Y8, Y1, Y5. change (inRatio 1) with 1%Q. destruct (Z.ltb_spec (room L - source L) blockSize); [unfold room, blockSize in *; lia|].
      destruct (unity_call (rin s) (room L) H5) as [K1 K2]; [lia|]. destruct (rres RS (rin s) (room L) blockSize 1 false) as [k r]. cbn [fst snd] in *. subst k. change (Qfloor (inject_Z blockSize * 1)) with 512. rewrite Z.ltb_irrefl, andb_false_r.
      cbn [put pitch delayIn delayOut frames rin rout outFill inFill front]. rewrite Y8, Y9. unfold room. split_and!; try done; lia. }
    destruct X as (s2 & <- & P1 & P2 & P3 & P4 & P5 & P6 & P7 & P8 & P9).
    destruct (generate_does L HL s2 512 51) as (h & Hh & G); [lia|unfold room; lia|lia|lia|lia|]. cbv zeta in G. destruct G as ((K1 & K2 & K3 & K4 & K5 & K6 & K7 & K8 & K9 & K10) & _ & _ & _ & _ & i & o & _ & G2 & G3 & G4 & G5 & G6 & G7).
    rewrite P7, P8 in *. replace (source L + 512 - source L) with 512 in * by lia. rewrite Z.sub_0_r in *. destruct unity_hops as (h' & i' & U1 & U2 & U3 & U4). assert (h' = h) as -> by congruence. assert (i = i') as -> by congruence. assert (o = i') as -> by congruence.
    set (s3 := generate L s2 512) in *. assert (F3 : outFill s3 = 512) by lia. assert (I3 : inFill s3 = source L) by lia.
    unfold readOut. rewrite K1, P1, F3. change (outRatio 1) with 1%Q. rewrite K4, P6.
    destruct (unity_call (rout s) blockSize H6) as [R1 R2]; [unfold blockSize; lia|].
    pose proof (fill_unity (rout s) (Z.to_nat (512 + blockSize + 1)) H6 ltac:(unfold blockSize; lia)) as EF.
    rewrite EF. cbn [mbind option_bind]. change (512 <? blockSize) with false. eexists. split; [reflexivity|]. split; [|done].
    unfold still. cbn [pitch delayIn delayOut frames rin rout outFill inFill front firstProcess]. rewrite K3, K5, K9, K10, G2, P4. split_and!; try done.
    - apply Forall_app. split; [by apply Forall_replicate|done].
  Qed.
  Lemma run_still n : forall s : lv, ok s -> still s -> exists s', run RS L s (replicate n Shift) = Some (s', replicate n (0, 512, 0)) /\ ok s' /\ still s' /\ (firstProcess s = false \/ (0 < n)%nat -> firstProcess s' = false).
  Proof.
    induction n as [|n IH]; intros s HO Hs; cbn [replicate run]; [exists s; split; [done|]; split; [done|]; split; [done|]; intros [?|?]; [done|lia]|].
    destruct (shift_still s HO Hs) as (s1 & E & T1 & T2). destruct (shift_ok s HO) as (s1' & b & E' & _ & O1 & _). rewrite E in E'. injection E' as <- <-. rewrite E. cbn [mbind option_bind].
    destruct (IH s1 O1 T1) as (s' & -> & I1 & I2 & I3). cbn [mbind option_bind]. exists s'. split; [done|]. split; [done|]. split; [done|]. intros _. apply I3. by left.
  Qed.
End Session.
