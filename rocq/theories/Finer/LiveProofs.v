(** The live shifter: sizes, one call, whole sessions. *)
From stdpp Require Import prelude list numbers.
From Coq Require Import ZArith QArith Qround Lia Lqa.
From Verif Require Import Base.Arith MathMisc.Model MathMisc.Proofs Finer.GuideModel Finer.GuideProofs Finer.EngineModel Finer.EngineSpec Finer.EngineShape Finer.LiveModel Finer.LiveSpec.
From stdpp Require Import list.
Local Open Scope Z_scope.

Record lsized (L : lshape) : Prop := LSized {
  v_ahead : ahead L = 64 \/ ahead L = 128 \/ ahead L = 256 \/ ahead L = 512 \/ ahead L = 1024 \/ ahead L = 2048;
  v_out : outLimit L = ahead L * 5 / 4;
  v_frame : frame L = Z.max 1024 (4 * ahead L);
  v_source : source L = frame L \/ source L = frame L + ahead L
}.
Lemma new_live medium rate : exists L, newLive medium rate = Some L /\ lsized L /\ source L = frame L + (if medium then ahead L else 0).
Proof.
  unfold newLive. destruct (valid_rate rate) as [H1 H2]. set (q := validRate rate) in *. assert (Hq : (0 < q)%Q) by lra.
  destruct (halves q 64) as (a & E128 & E64 & _); [lia|done| |change (inject_Z (2 * 64)) with 128%Q; lra|].
  { assert (192000 <= inject_Z 64 * inject_Z (2 ^ 63))%Q by (vm_compute; discriminate). lra. }
  destruct (halves q 32) as (b & E64' & E32 & _); [lia|done| |change (inject_Z (2 * 32)) with 64%Q; lra|].
  { assert (192000 <= inject_Z 32 * inject_Z (2 ^ 63))%Q by (vm_compute; discriminate). lra. }
  change (2 * 64) with 128 in *. change (2 * 32) with 64 in *. assert (b = 2 * a) as -> by congruence.
  destruct (roundUpDiv_spec q 128) as (r & Er & (k & Hk & Ek) & Hr1 & Hr2); [lia|done| |].
  { assert (192000 <= inject_Z 128 * inject_Z (2 ^ 63))%Q by (vm_compute; discriminate). lra. }
  assert (r = a) as -> by congruence.
  assert (Hhi : a <= 2 ^ 11). { apply Hr2; [lia|]. apply Qle_shift_div_r; [reflexivity|]. change (inject_Z (2 ^ 11) * inject_Z 128)%Q with 262144%Q. lra. }
  assert (K1 : 6 <= k).
  { destruct (Z_le_gt_dec 6 k); [done|]. assert (Hc : 2 ^ k <= 2 ^ 5) by (apply Z.pow_le_mono_r; lia). rewrite <- Ek in Hc.
    assert (Hq2 : (q / inject_Z 128 <= inject_Z (2 ^ 5))%Q) by (eapply Qle_trans; [exact Hr1|by rewrite <- Zle_Qle]).
    assert (q == q / inject_Z 128 * 128)%Q by (change (inject_Z 128) with 128%Q; field). change (inject_Z (2 ^ 5)) with 32%Q in Hq2. lra. }
  assert (K2 : k <= 11). { rewrite Ek in Hhi. apply Z.pow_le_mono_r_iff in Hhi; lia. }
  rewrite E128. cbn [mbind option_bind]. unfold newGuide. rewrite E32. cbn [mbind option_bind].
  assert (A : a = 64 \/ a = 128 \/ a = 256 \/ a = 512 \/ a = 1024 \/ a = 2048).
  { assert (k = 6 \/ k = 7 \/ k = 8 \/ k = 9 \/ k = 10 \/ k = 11) as [->|[->|[->|[->|[->| ->]]]]] by lia; rewrite Ek; vm_compute; tauto. }
  cbn [longest cfft]. set (c := if 2 * (2 * a) <? 1024 then 1024 else 2 * (2 * a)).
  assert (Ec : c = Z.max 1024 (4 * a)) by (unfold c; destruct (Z.ltb_spec (2 * (2 * a)) 1024); lia). clearbody c.
  destruct (Z.ltb_spec (c + a) c); [lia|]. eexists. split; [reflexivity|]. destruct medium; (split; [constructor|]; cbn [source frame ahead outLimit]; try done; lia).
Qed.
Lemma live_sized medium rate L : newLive medium rate = Some L -> lsized L.
Proof. intros H. destruct (new_live medium rate) as (L' & H' & HL & _). congruence. Qed.
Lemma sizes L : lsized L -> 64 <= ahead L <= 2048 /\ 80 <= outLimit L /\ outLimit L <= frame L /\ 1024 <= frame L <= 8192 /\ frame L <= source L <= frame L + ahead L /\
  3 * source L <= 51 * ahead L /\ ahead L <= frame L.
Proof. intros [[A|[A|[A|[A|[A|A]]]]] Ho Hf Hs]; rewrite A in *; change (64 * 5 / 4) with 80 in *; change (128 * 5 / 4) with 160 in *; change (256 * 5 / 4) with 320 in *;
  change (512 * 5 / 4) with 640 in *; change (1024 * 5 / 4) with 1280 in *; change (2048 * 5 / 4) with 2560 in *; lia. Qed.

(** The number of hops and what they add up to. *)
Lemma up_div n h : 1 <= n -> 1 <= h -> n <= h * (1 + (n - 1) / h) < n + h /\ 1 <= 1 + (n - 1) / h <= n.
Proof.
  intros Hn Hh. pose proof (Z_div_mod_eq_full (n - 1) h). pose proof (Z.mod_pos_bound (n - 1) h). pose proof (Z.div_pos (n - 1) h).
  split; [nia|]. split; [lia|]. assert ((n - 1) / h <= n - 1) by (apply Z.div_le_upper_bound; nia). lia.
Qed.
Lemma up_div_limit n h a : 1 <= n -> 1 <= a -> 1 + (n - 1) / a <= h -> 1 + (n - 1) / h <= a.
Proof.
  intros Hn Ha Hh. assert (Hh1 : 1 <= h) by (pose proof (Z.div_pos (n - 1) a); lia).
  assert ((n - 1) / h < a); [|lia]. apply Z.div_lt_upper_bound; [lia|]. pose proof (Z_div_mod_eq_full (n - 1) a). pose proof (Z.mod_pos_bound (n - 1) a). nia.
Qed.
Lemma hops_bound L c g H : lsized L -> 1 <= c -> 1 <= g <= 512 -> 7 <= H -> c <= H * ahead L -> 1 <= hopCount L c g <= H.
Proof.
  intros HL Hc Hg HH Hb. destruct (sizes L HL) as (A1 & A2 & _). unfold hopCount. pose proof (Z.div_pos (c - 1) (ahead L)). pose proof (Z.div_pos (g - 1) (outLimit L)).
  assert ((c - 1) / ahead L < H) by (apply Z.div_lt_upper_bound; nia). assert ((g - 1) / outLimit L < 7) by (apply Z.div_lt_upper_bound; nia). lia.
Qed.

Section Calls.
  Context {R : Type} (RS : resampler R) (L : lshape) (HL : lsized L).
  Notation lv := (live R).

  Lemma ratios p : (0 < p)%Q -> (0 < inRatio p /\ inRatio p <= 1 /\ 1 <= outRatio p)%Q.
  Proof.
    intros Hp. unfold inRatio, outRatio. split; [|split].
    - destruct (ltq 1 p) eqn:E; [|lra]. apply Qlt_shift_div_l; lra.
    - destruct (ltq 1 p) eqn:E; [|lra]. apply ltq_true in E. apply Qle_shift_div_r; lra.
    - destruct (ltq p 1) eqn:E; [|lra]. apply ltq_true in E. apply Qle_shift_div_l; lra.
  Qed.
  (** How many samples of output buffer a block needs. *)
  Definition needed (p : Q) : Z := cceil (inject_Z blockSize / outRatio p).
  Lemma needed_is p : (0 < p)%Q -> 1 <= needed p <= 512 /\ (512 <= outRatio p * inject_Z (needed p))%Q /\ needed p <= Z.max 1 (Qfloor (inject_Z blockSize / outRatio p)) + 1 /\
    0 <= Qfloor (inject_Z blockSize / outRatio p) /\ (((1 # 8) <= p)%Q -> 64 <= needed p).
  Proof.
    intros Hp. destruct (ratios p Hp) as (_ & _ & Ho). unfold needed. change (inject_Z blockSize) with 512%Q. set (x := (512 / outRatio p)%Q).
    assert (Hx : (outRatio p * x == 512)%Q) by (unfold x; field; lra). assert (Hx0 : (0 < x)%Q) by (apply Qlt_shift_div_l; lra). assert (Hx1 : (x <= 512)%Q) by (apply Qle_shift_div_r; lra).
    destruct (ceil_bounds x) as [C1 C2]. destruct (floor_bounds x) as [F1 F2].
    assert (0 < cceil x). { apply inject_Z_inj_lt. change (inject_Z 0) with 0%Q. lra. }
    assert (cceil x < 513). { apply inject_Z_inj_lt. change (inject_Z 513) with 513%Q. lra. }
    assert (-1 < Qfloor x). { apply inject_Z_inj_lt. change (inject_Z (-1)) with (-1)%Q. lra. }
    split; [lia|]. split; [nra|]. split. { assert (cceil x < Qfloor x + 2); [|lia]. apply inject_Z_inj_lt. rewrite inject_Z_plus. change (inject_Z 2) with 2%Q. lra. }
    split; [lia|]. intros H8. apply inject_Z_inj_le. change (inject_Z 64) with 64%Q.
    assert (64 <= x)%Q; [|lra]. unfold x, outRatio. destruct (ltq p 1) eqn:E; [|change (512 / 1)%Q with 512%Q; lra]. assert (512 / (1 / p) == 512 * p)%Q as -> by (field; lra). lra.
  Qed.

  (** Frames. *)
  Lemma loop_is n : forall i o (s : lv), 0 <= i -> 0 <= o -> 0 <= inFill s -> outFill s + Z.of_nat n * o <= room L ->
    let s' := loop L n i o s in
    inFill s' = Z.max 0 (inFill s - Z.of_nat n * i) /\ outFill s' = outFill s + Z.of_nat n * o /\ frames s' = replicate n (i, o) ++ frames s /\
    pitch s' = pitch s /\ firstProcess s' = firstProcess s /\ rin s' = rin s /\ rout s' = rout s /\ front s' = front s /\ refused s' = refused s /\ spilt s' = spilt s /\ lost s' = lost s /\
    delayIn s' = delayIn s /\ delayOut s' = delayOut s.
  Proof.
    induction n as [|n IH]; intros i o s Hi Ho Hf Hr; cbn [loop]; cbv zeta.
    - split_and!; try done; cbn [replicate app]; lia.
    - destruct (IH i o (oneFrame L i o s)) as (I1 & I2 & I3 & I4); cbn [oneFrame inFill outFill]; try lia.
      cbn [oneFrame inFill outFill frames pitch firstProcess rin rout front refused spilt lost delayIn delayOut] in *.
      destruct I4 as (-> & -> & -> & -> & -> & -> & -> & -> & -> & ->). rewrite I1, I2, I3. split_and!; try done; try lia.
      change (replicate (S n) (i, o)) with ([(i, o)] ++ replicate n (i, o)). rewrite <- app_assoc. change ((i, o) :: frames s) with ([(i, o)] ++ frames s). rewrite !app_assoc. f_equal.
      clear. induction n as [|n IHn]; [done|]. cbn [replicate app]. f_equal. exact IHn.
  Qed.
  (** Everything but levels is kept; the levels; the hops. *)
  Definition kept (s s' : lv) : Prop :=
    pitch s' = pitch s /\ firstProcess s' = firstProcess s /\ rin s' = rin s /\ rout s' = rout s /\ front s' = front s /\ refused s' = refused s /\ spilt s' = spilt s /\ lost s' = lost s /\
    delayIn s' = delayIn s /\ delayOut s' = delayOut s.
  Definition fits (e : Z * Z) : Prop := 1 <= e.1 <= ahead L /\ 1 <= e.2 <= outLimit L.
  Lemma generate_is (s : lv) n : 1 <= n <= 512 -> 0 <= inFill s <= room L -> 0 <= outFill s -> n <= outFill s \/ inFill s <= source L \/ False -> generate L s n = s.
  Proof. intros H1 H2 H3 [H|[H|[]]]; unfold generate; destruct (Z.leb_spec n (outFill s)); try done; try lia. destruct (Z.leb_spec (inFill s) (source L)); [done|lia]. Qed.
  Lemma generate_does (s : lv) n H : 1 <= n <= 512 -> source L < inFill s <= room L -> inFill s - source L <= H * ahead L -> 7 <= H <= 500 -> 0 <= outFill s < n ->
    exists h, 1 <= h <= H /\ let s' := generate L s n in kept s s' /\ inFill s' <= source L /\ source L - h < inFill s' /\ 0 <= inFill s' /\ n <= outFill s' < n + h /\
    exists i o, fits (i, o) /\ frames s' = replicate (Z.to_nat h) (i, o) ++ frames s /\
      h = hopCount L (inFill s - source L) (n - outFill s) /\ i = 1 + (inFill s - source L - 1) / h /\ o = 1 + (n - outFill s - 1) / h /\ inFill s' = Z.max 0 (inFill s - h * i) /\ outFill s' = outFill s + h * o.
  Proof.
    intros Hn Hi Hb HH Ho. destruct (sizes L HL) as (A1 & A2 & A3 & A4 & A5 & A6 & A7).
    unfold generate. destruct (Z.leb_spec n (outFill s)); [lia|]. destruct (Z.leb_spec (inFill s) (source L)); [lia|].
    set (tg := n - outFill s). set (tc := inFill s - source L). assert (Htc : 1 <= tc) by lia. assert (Htg : 1 <= tg <= 512) by lia.
    pose proof (hops_bound L tc tg H HL Htc Htg ltac:(lia) ltac:(lia)) as Hh.
    assert (E1 : 1 + (tc - 1) / ahead L <= hopCount L tc tg) by (unfold hopCount; lia). assert (E2 : 1 + (tg - 1) / outLimit L <= hopCount L tc tg) by (unfold hopCount; lia).
    remember (hopCount L tc tg) as h eqn:Eh. exists h. split; [done|]. cbv zeta.
    destruct (up_div tc h Htc ltac:(lia)) as [U1 U2]. destruct (up_div tg h ltac:(lia) ltac:(lia)) as [V1 V2].
    pose proof (up_div_limit tc h (ahead L) Htc ltac:(lia) E1). pose proof (up_div_limit tg h (outLimit L) ltac:(lia) ltac:(lia) E2).
    rewrite Z.min_l by lia. set (i := 1 + (tc - 1) / h) in *. set (o := 1 + (tg - 1) / h) in *.
    destruct (loop_is (Z.to_nat h) i o s) as (L1 & L2 & L3 & L4); [lia..|unfold room; lia|].
    rewrite Z2Nat.id in L1, L2 by lia. split; [exact L4|]. rewrite L1, L2, L3. do 4 (split; [lia|]). exists i, o. split; [unfold fits; cbn; lia|]. done.
  Qed.

  (** Output. *)
  Lemma fill_is (HF : fair RS) fuel : forall q tail level r count, 0 <= level -> 0 <= count <= 512 -> (Z.to_nat (level + (512 - count)) < fuel)%nat -> (1 <= q)%Q ->
    exists level' r' count', fill RS fuel q tail level r count = Some (level', r', count') /\ 0 <= level' <= level /\ count <= count' <= 512 /\
    (count < 512 -> level' <= Z.max 0 (level - if tail then 1 else Z.max 1 (Qfloor (inject_Z blockSize / q)))).
  Proof.
    induction fuel as [|fuel IH]; intros q tail level r count Hl Hc Hf Hq; [lia|]. cbn [fill]. change blockSize with 512 in *.
    destruct (Z.ltb_spec count 512) as [C|C]; cbn [negb]; [|exists level, r, count; split; [done|]; lia].
    set (want := if tail then 1 else _).
    assert (Hw : want = if tail then 1 else Z.max 1 (Qfloor (inject_Z 512 / q))).
    { unfold want. destruct tail; [done|]. assert (0 <= Qfloor (inject_Z 512 / q)). { apply floor_least. change (inject_Z 0) with 0%Q. apply Qle_shift_div_l; [lra|]. change (inject_Z 512) with 512%Q. lra. }
      destruct (Z.eqb_spec (Qfloor (inject_Z 512 / q)) 0); lia. }
    rewrite <- Hw. assert (Hw1 : 1 <= want) by (rewrite Hw; destruct tail; lia). clearbody want.
    destruct HF as [HF _]. pose proof (HF r (512 - count) (Z.min want level) q false ltac:(lia) ltac:(lia)) as Hk. destruct (rres RS r (512 - count) (Z.min want level) q false) as [k r']. cbn [fst] in Hk.
    destruct ((Z.min want level =? 0) && (k =? 0)) eqn:E.
    - exists (level - Z.min want level), r', count. split; [done|]. lia.
    - assert (Z.min want level <> 0 \/ k <> 0) as Hp. { apply andb_false_iff in E as [E|E]; apply Z.eqb_neq in E; [by left|by right]. }
      destruct (IH q true (level - Z.min want level) r' (count + k)) as (l' & r2 & c' & F1 & F2 & F3 & F4); try lia; [done|]. exists l', r2, c'. split; [exact F1|]. lia.
  Qed.
  Lemma fill_all (HF : fair RS) store fuel : (forall r cap n q f, (0 < q)%Q -> (0 <= store r)%Q -> 0 <= cap -> 0 <= n ->
    let k := (rres RS r cap n q f).1 in
    k = Z.min cap (Qfloor (q * (store r + inject_Z n))) /\ store (rres RS r cap n q f).2 == store r + inject_Z n - inject_Z k / q) ->
    forall q tail level r count level' r' count', 0 <= level -> 0 <= count <= 512 -> (1 <= q)%Q -> (0 <= store r)%Q -> (inject_Z (512 - count) <= q * (store r + inject_Z level))%Q ->
    fill RS fuel q tail level r count = Some (level', r', count') -> count' = 512 /\ (0 <= store r')%Q.
  Proof.
    intros HI. induction fuel as [|fuel IH]; intros q tail level r count level' r' count' Hl Hc Hq Hs He Hf; [done|]. cbn [fill] in Hf. change blockSize with 512 in *.
    destruct (Z.ltb_spec count 512) as [C|C]; cbn [negb] in Hf; [|injection Hf as <- <- <-; split; [lia|done]].
    set (want := if tail then 1 else _) in Hf.
    assert (Hw1 : 1 <= want).
    { unfold want. destruct tail; [done|]. assert (0 <= Qfloor (inject_Z 512 / q)). { apply floor_least. change (inject_Z 0) with 0%Q. apply Qle_shift_div_l; [lra|]. change (inject_Z 512) with 512%Q. lra. }
      destruct (Z.eqb_spec (Qfloor (inject_Z 512 / q)) 0); lia. }
    clearbody want. destruct (HI r (512 - count) (Z.min want level) q false ltac:(lra) Hs ltac:(lia) ltac:(lia)) as [K1 K2].
    destruct HF as [HF _]. pose proof (HF r (512 - count) (Z.min want level) q false ltac:(lia) ltac:(lia)) as Hk.
    destruct (rres RS r (512 - count) (Z.min want level) q false) as [k r1]. cbn [fst snd] in *.
    assert (Hs1 : (0 <= store r1)%Q).
    { rewrite K2. assert (Hf1 : (inject_Z k <= q * (store r + inject_Z (Z.min want level)))%Q).
      { eapply Qle_trans; [|apply Qfloor_le]. rewrite <- Zle_Qle. lia. }
      assert (inject_Z k / q <= store r + inject_Z (Z.min want level))%Q; [|lra]. apply Qle_shift_div_r; [lra|]. lra. }
    destruct ((Z.min want level =? 0) && (k =? 0)) eqn:E.
    - exfalso. apply andb_true_iff in E as [E1%Z.eqb_eq E2%Z.eqb_eq]. assert (level = 0) as -> by lia. rewrite E1 in K1. rewrite E2 in K1.
      assert (512 - count <= Qfloor (q * (store r + inject_Z 0))) by (by apply floor_least). lia.
    - eapply (IH q true _ _ _ _ _ _); [| | | | |exact Hf]; try lia; [done|done|]. rewrite K2.
      replace (512 - (count + k)) with (512 - count - k) by lia. unfold Z.sub at 1. rewrite inject_Z_plus, inject_Z_opp. unfold Z.sub at 2. rewrite inject_Z_plus, inject_Z_opp.
      assert (q * (store r + inject_Z (Z.min want level) - inject_Z k / q + (inject_Z level + - inject_Z (Z.min want level))) == q * (store r + inject_Z level) - inject_Z k)%Q as -> by (field; lra). lra.
  Qed.
  Lemma readOut_is (HF : fair RS) (s : lv) : (0 < pitch s)%Q -> 0 <= outFill s -> exists s' b, readOut RS s = Some (s', b) /\ one_block b /\
    pitch s' = pitch s /\ firstProcess s' = false /\ rin s' = rin s /\ inFill s' = inFill s /\ front s' = front s /\ refused s' = refused s /\ spilt s' = spilt s /\ lost s' = lost s /\
    frames s' = frames s /\ delayIn s' = delayIn s /\ delayOut s' = delayOut s /\ (firstProcess s = false -> b.1.1 = 0) /\
    0 <= outFill s' <= Z.max 0 (outFill s - Z.max 1 (Qfloor (inject_Z blockSize / outRatio (pitch s)))).
  Proof.
    intros Hp Ho. destruct (ratios _ Hp) as (_ & _ & Hq). unfold readOut. change blockSize with 512 in *.
    destruct (fill_is HF (Z.to_nat (outFill s + 512 + 1)) (outRatio (pitch s)) false (outFill s) (rout s) 0) as (l & r & c & -> & F1 & F2 & F3); [lia|lia|lia|done|].
    cbn [mbind option_bind]. eexists _, _. split; [reflexivity|]. specialize (F3 ltac:(lia)). change blockSize with 512 in *. split.
    { unfold one_block. destruct (Z.ltb_spec c 512); [destruct (firstProcess s)|]; lia. }
    cbn [pitch firstProcess rin inFill front refused spilt lost frames outFill delayIn delayOut]. do 11 (split; [done|]). split; [|lia]. intros ->. by destruct (c <? 512).
  Qed.
End Calls.
