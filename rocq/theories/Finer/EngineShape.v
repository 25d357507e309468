(** The constants of the finer engine and its hops. *)
From stdpp Require Import prelude list numbers.
From Coq Require Import ZArith QArith Qround Lia Lqa.
From Verif Require Import Base.Arith MathMisc.Model MathMisc.Proofs Finer.GuideModel Finer.GuideProofs Finer.EngineModel Finer.EngineSpec.
From stdpp Require Import list.
Local Open Scope Z_scope.

Lemma halves x d : 1 <= d -> (0 < x)%Q -> (x <= inject_Z d * inject_Z (2 ^ 63))%Q -> (inject_Z (2 * d) < x)%Q ->
  exists r, roundUpDiv x (2 * d) = Some r /\ roundUpDiv x d = Some (2 * r) /\ 2 <= r.
Proof.
  intros Hd Hx Hm Hb. assert (Hdq : (0 < inject_Z d)%Q) by (change 0%Q with (inject_Z 0); rewrite <- Zlt_Qlt; lia).
  assert (E2 : (x / inject_Z (2 * d) == x / inject_Z d * (1 # 2))%Q) by (rewrite inject_Z_mult; change (inject_Z 2) with 2%Q; field; lra).
  destruct (roundUpDiv_spec x d Hd Hx Hm) as (r & Er & (k & Hk & ->) & H1 & H2).
  destruct (roundUpDiv_spec x (2 * d)) as (r' & Er' & (k' & Hk' & ->) & H3 & H4); [lia|done| |].
  { rewrite inject_Z_mult. change (inject_Z 2) with 2%Q. assert (0 < inject_Z (2 ^ 63))%Q by reflexivity. nra. }
  exists (2 ^ k'). split; [done|].
  assert (Hgt : (1 < x / inject_Z (2 * d))%Q).
  { apply Qlt_shift_div_l; [rewrite inject_Z_mult; change (inject_Z 2) with 2%Q; lra|]. lra. }
  assert (K' : 1 <= k'). { destruct (Z_le_gt_dec 1 k'); [done|]. assert (k' = 0) as -> by lia. change (inject_Z (2 ^ 0)) with 1%Q in H3. lra. }
  assert (Hle1 : 2 ^ k <= 2 ^ (k' + 1)). { apply H2; [lia|]. rewrite Z.pow_add_r by lia. rewrite inject_Z_mult. change (inject_Z (2 ^ 1)) with 2%Q. lra. }
  assert (K : 1 <= k). { destruct (Z_le_gt_dec 1 k); [done|]. assert (k = 0) as -> by lia. change (inject_Z (2 ^ 0)) with 1%Q in H1. lra. }
  assert (Hle2 : 2 ^ k' <= 2 ^ (k - 1)). { apply H4; [lia|]. replace k with (k - 1 + 1) in H1 by lia. rewrite Z.pow_add_r in H1 by lia. rewrite inject_Z_mult in H1. change (inject_Z (2 ^ 1)) with 2%Q in H1. lra. }
  apply Z.pow_le_mono_r_iff in Hle1; [|lia|lia]. apply Z.pow_le_mono_r_iff in Hle2; [|lia|lia]. assert (k = k' + 1) as -> by lia.
  split; [rewrite Er; f_equal; rewrite Z.pow_add_r by lia; lia|]. apply (Z.pow_le_mono_r 2 1 k'); lia.
Qed.

(** With [m] for an eighth of a sixty-fourth of the rate, rounded up, and [c] the classification size. *)
Record sized (E : shape) (m c : Z) : Prop := Sized {
  z_m : 16 <= m <= 512; z_c : 16 * m <= c; z_c2 : c mod 8 = 0; z_c3 : 1024 <= c <= 8192; z_classify : classifyFft E = c;
  z_rest : if short E
    then minOut E = 2 * m /\ maxOut E = 5 * m /\ maxAhead E = 4 * m /\ maxIn E = 12 * m /\ longestFft E = c /\ windowSource E = c + 4 * m
    else minOut E = m /\ maxOut E = 4 * m /\ maxAhead E = 8 * m /\ maxIn E = 16 * m /\ longestFft E = 2 * c /\ windowSource E = 2 * c
}.
Lemma valid_rate r : (8000 <= validRate r /\ validRate r <= 192000)%Q.
Proof.
  unfold validRate. destruct (ltq r 8000) eqn:E1; [split; lra|]. apply ltq_false in E1. destruct (ltq 192000 r) eqn:E2; [split; lra|]. apply ltq_false in E2. done.
Qed.
Lemma new_shape rt sh hc hq r cv : exists E m c, newShape rt sh hc hq r cv = Some E /\ sized E m c /\
  realTime E = rt /\ short E = sh /\ highConsistency E = hc /\ highQuality E = hq /\ curve E = cv.
Proof.
  unfold newShape. destruct (valid_rate r) as [H1 H2]. set (q := validRate r) in *.
  assert (Hq : (0 < q)%Q) by lra.
  destruct (halves q 256) as (m & E512 & E256 & Hm); [lia|done| |change (inject_Z (2 * 256)) with 512%Q; lra|].
  { assert (192000 <= inject_Z 256 * inject_Z (2 ^ 63))%Q by (vm_compute; discriminate). lra. }
  destruct (halves q 128) as (m2 & E256' & E128 & _); [lia|done| |change (inject_Z (2 * 128)) with 256%Q; lra|].
  { assert (192000 <= inject_Z 128 * inject_Z (2 ^ 63))%Q by (vm_compute; discriminate). lra. }
  destruct (halves q 64) as (m3 & E128' & E64 & _); [lia|done| |change (inject_Z (2 * 64)) with 128%Q; lra|].
  { assert (192000 <= inject_Z 64 * inject_Z (2 ^ 63))%Q by (vm_compute; discriminate). lra. }
  destruct (halves q 32) as (m4 & E64' & E32 & _); [lia|done| |change (inject_Z (2 * 32)) with 64%Q; lra|].
  { assert (192000 <= inject_Z 32 * inject_Z (2 ^ 63))%Q by (vm_compute; discriminate). lra. }
  change (2 * 256) with 512 in *. change (2 * 128) with 256 in *. change (2 * 64) with 128 in *. change (2 * 32) with 64 in *.
  assert (m2 = 2 * m) as -> by congruence. assert (m3 = 4 * m) as -> by (rewrite E128 in E128'; injection E128'; lia).
  assert (m4 = 8 * m) as -> by (rewrite E64 in E64'; injection E64'; lia).
  rewrite E512, E256, E128, E64, E32. cbn [mbind option_bind].
  destruct (roundUpDiv_spec q 512) as (r' & Er & (k & Hk & Ek) & Hr1 & Hr2); [lia|done| |].
  { assert (192000 <= inject_Z 512 * inject_Z (2 ^ 63))%Q by (vm_compute; discriminate). lra. }
  assert (r' = m) as -> by congruence.
  assert (Hhi : m <= 2 ^ 9). { apply Hr2; [lia|]. apply Qle_shift_div_r; [reflexivity|]. change (inject_Z (2 ^ 9) * inject_Z 512)%Q with 262144%Q. lra. }
  assert (Hlo : 2 ^ 4 <= m).
  { rewrite Ek. apply Z.pow_le_mono_r; [lia|]. destruct (Z_le_gt_dec 4 k); [done|]. assert (Hc : 2 ^ k <= 2 ^ 3) by (apply Z.pow_le_mono_r; lia). rewrite <- Ek in Hc.
    assert (Hq2 : (q / inject_Z 512 <= inject_Z (2 ^ 3))%Q) by (eapply Qle_trans; [exact Hr1|by rewrite <- Zle_Qle]).
    assert (q == q / inject_Z 512 * 512)%Q by (change (inject_Z 512) with 512%Q; field). change (inject_Z (2 ^ 3)) with 8%Q in Hq2. lra. }
  change (2 ^ 9) with 512 in Hhi. change (2 ^ 4) with 16 in Hlo.
  unfold newGuide. rewrite E32. cbn [mbind option_bind].
  assert (H4 : 2 * (8 * m) mod 8 = 0) by (replace (2 * (8 * m)) with (m * 2 * 8) by lia; apply Z_mod_mult).
  set (c := if 2 * (8 * m) <? 1024 then 1024 else 2 * (8 * m)).
  assert (Hc : 16 * m <= c /\ c mod 8 = 0 /\ 1024 <= c <= 8192). { unfold c. destruct (Z.ltb_spec (2 * (8 * m)) 1024); (split; [lia|]; split; [done|lia]). }
  destruct Hc as (Hc1 & Hc2 & Hc3).
  destruct sh; cbn [longest cfft short].
  - eexists _, m, c. split; [reflexivity|]. split; [|done]. constructor; cbn [short minOut maxOut maxAhead maxIn longestFft classifyFft]; try lia; try done.
    unfold windowSource. cbn [classifyFft maxAhead longestFft]. assert (2 * (2 * m) * 5 / 4 = 5 * m) as -> by (replace (2 * (2 * m) * 5) with (5 * m * 4) by lia; apply Z.div_mul; lia).
    assert (2 * (4 * m) * 3 / 2 = 12 * m) as -> by (replace (2 * (4 * m) * 3) with (12 * m * 2) by lia; apply Z.div_mul; lia).
    destruct (Z.ltb_spec (c + 2 * (2 * m)) c); split_and!; lia.
  - eexists _, m, c. split; [reflexivity|]. split; [|done]. constructor; cbn [short minOut maxOut maxAhead maxIn longestFft classifyFft]; try lia; try done.
    unfold windowSource. cbn [classifyFft maxAhead longestFft]. destruct (Z.ltb_spec (c + 2 * (4 * m)) (c * 2)); split_and!; lia.
Qed.

(** Hops. *)
Lemma floor_least q k : (inject_Z k <= q)%Q -> k <= Qfloor q.
Proof. intros H. rewrite <- (Qfloor_Z k). by apply Qfloor_resp_le. Qed.
Lemma proposed_range E m c ratio : sized E m c -> (inject_Z (minOut E) <= proposedOuthop E ratio /\ proposedOuthop E ratio <= inject_Z (maxOut E))%Q.
Proof.
  intros Z0. assert (Hmm : (inject_Z (minOut E) <= inject_Z (maxOut E))%Q). { rewrite <- Zle_Qle. destruct Z0 as [Zm _ _ _ _ Zr]. destruct (short E); lia. }
  unfold proposedOuthop. set (p := if short E then _ else _).
  destruct (ltq (inject_Z (maxOut E)) p) eqn:E1.
  - destruct (ltq (inject_Z (maxOut E)) (inject_Z (minOut E))) eqn:E2; [apply ltq_true in E2|apply ltq_false in E2]; split; lra.
  - apply ltq_false in E1. destruct (ltq p (inject_Z (minOut E))) eqn:E2; [apply ltq_true in E2|apply ltq_false in E2]; split; lra.
Qed.
Lemma inhop_range E m c ratio : sized E m c -> 1 <= inhopFor E ratio <= maxIn E.
Proof.
  intros Z0. assert (Hmi : 1 <= maxIn E) by (destruct Z0 as [Zm _ _ _ _ Zr]; destruct (short E); lia). assert (Hq : (1 <= inject_Z (maxIn E))%Q) by (change 1%Q with (inject_Z 1); by rewrite <- Zle_Qle).
  unfold inhopFor. set (h := (proposedOuthop E ratio / ratio)%Q). change (inject_Z minIn) with 1%Q.
  set (h1 := if ltq h 1 then 1%Q else h). assert (H1 : (1 <= h1)%Q) by (unfold h1; destruct (ltq h 1) eqn:E1; [lra|by apply ltq_false in E1]).
  destruct (ltq (inject_Z (maxIn E)) h1) eqn:E2.
  - rewrite Qfloor_Z. lia.
  - apply ltq_false in E2. split; [by apply floor_least|]. rewrite <- (Qfloor_Z (maxIn E)). by apply Qfloor_resp_le.
Qed.
(** The output advance of an input hop. *)
Lemma nominal_range E m c ratio : sized E m c -> (0 < ratio)%Q -> (inject_Z (inhopFor E ratio) * ratio <= inject_Z (maxOut E))%Q \/ inhopFor E ratio = 1.
Proof.
  intros Z0 Hr. assert (Hmi : 1 <= maxIn E) by (destruct Z0 as [Zm _ _ _ _ Zr]; destruct (short E); lia). assert (Hq : (1 <= inject_Z (maxIn E))%Q) by (change 1%Q with (inject_Z 1); by rewrite <- Zle_Qle).
  destruct (proposed_range E m c ratio Z0) as [P1 P2].
  unfold inhopFor. set (h := (proposedOuthop E ratio / ratio)%Q). change (inject_Z minIn) with 1%Q.
  assert (Hh : (h * ratio == proposedOuthop E ratio)%Q) by (unfold h; field; lra).
  destruct (ltq h 1) eqn:E1.
  - right. destruct (ltq (inject_Z (maxIn E)) 1) eqn:E2; [apply ltq_true in E2; lra|done].
  - left. destruct (ltq (inject_Z (maxIn E)) h) eqn:E2.
    + rewrite Qfloor_Z. apply ltq_true in E2. assert (inject_Z (maxIn E) * ratio <= h * ratio)%Q by (apply Qmult_le_compat_r; lra). lra.
    + pose proof (Qfloor_le h). assert (inject_Z (Qfloor h) * ratio <= h * ratio)%Q by (apply Qmult_le_compat_r; lra). lra.
Qed.
Lemma nominal_limit E m c ratio : sized E m c -> (0 < ratio)%Q -> (ratio <= inject_Z (maxOut E))%Q -> (inject_Z (inhopFor E ratio) * ratio <= inject_Z (maxOut E))%Q.
Proof. intros Z0 H1 H2. destruct (nominal_range E m c ratio Z0 H1) as [H|H]; [done|]. rewrite H. change (inject_Z 1) with 1%Q. lra. Qed.

Lemma sanitise_pos t p : (0 < (sanitise t p).1 /\ 0 < (sanitise t p).2)%Q.
Proof.
  unfold sanitise, positiveOr1, notPositive.
  destruct t as [t|[]|]; cbn; try (destruct (ltq 0 t) eqn:Et; cbn; [apply ltq_true in Et|]);
  (destruct p as [p|[]|]; cbn; try (destruct (ltq 0 p) eqn:Ep; cbn; [apply ltq_true in Ep|]); split; try done; lra).
Qed.
Lemma sanitise_same t p : (0 < t)%Q -> (0 < p)%Q -> sanitise (Fin t) (Fin p) = (t, p).
Proof. intros H1 H2. apply ltq_true in H1. apply ltq_true in H2. unfold sanitise, positiveOr1, notPositive. by rewrite H1, H2. Qed.

Lemma shaped rt sh hc hq r cv E : newShape rt sh hc hq r cv = Some E ->
  exists m c, sized E m c /\ realTime E = rt /\ short E = sh /\ highConsistency E = hc /\ highQuality E = hq /\ curve E = cv.
Proof. intros H. destruct (new_shape rt sh hc hq r cv) as (E' & m & c & H' & X). assert (E' = E) as -> by congruence. by exists m, c. Qed.
(** Frames lie within the buffers they are cut from and added to. *)
Lemma cuts_fit rt sh hc hq r cv E ratio : newShape rt sh hc hq r cv = Some E -> exists g, newGuide (validRate r) sh = Some g /\
  Forall (fun e => 0 <= e.1 /\ 0 < e.2 /\ e.1 + e.2 <= windowSource E) (analysisCuts g (useReadahead E (inhopFor E ratio)) (inhopFor E ratio)) /\
  Forall (fun e => let '(from, to, w, fft) := e in 0 <= from /\ 0 < w /\ from + w <= fft /\ 0 <= to /\ to + w <= longestFft E /\ 2 * from = fft - w /\ 2 * to = longestFft E - w) (synthesisCuts g).
Proof.
  intros H. destruct (shaped _ _ _ _ _ _ _ H) as (m & c & Z0 & _ & Es & _). destruct (valid_rate r) as [V1 V2].
  destruct (guide_sizes (validRate r) sh V1 V2) as (g & n & Eg & Hn & Hn4 & _ & _ & Eg2 & Eg3 & Hsz). exists g. split; [done|].
  assert (Hl : longestFft E = longest g /\ classifyFft E = cfft g).
  { unfold newShape in H. rewrite Eg in H. repeat (match type of H with (?X ≫= _) = _ => destruct X as [?|]; [|done]; cbn [mbind option_bind] in H end). injection H as <-. by destruct sh. }
  destruct Hl as [L1 L2]. pose proof (inhop_range E m c ratio Z0) as Hi. destruct Z0 as [Zm Zc1 Zc2 Zc3 Zc Zr]. rewrite Es in Zr.
  assert (Ha : useReadahead E (inhopFor E ratio) = true -> inhopFor E ratio < maxAhead E) by (unfold useReadahead; by intros ?%Z.ltb_lt).
  set (h := inhopFor E ratio) in *. set (ra := useReadahead E h) in *. clearbody ra h.
  assert (Hn8 : n mod 8 = 0) by congruence.
  assert (Hd2 : n / 2 * 2 = n) by (pose proof (Z_div_mod_eq_full n 4); pose proof (Z_div_mod_eq_full n 2); pose proof (Z.mod_pos_bound n 2); lia).
  assert (Hd4 : n / 2 / 2 * 4 = n) by (pose proof (Z_div_mod_eq_full n 4); pose proof (Z_div_mod_eq_full (n / 2) 2); pose proof (Z.mod_pos_bound (n / 2) 2); lia).
  unfold analysisCuts, synthesisCuts, synthesisLength. rewrite Eg3, Eg2. destruct sh.
  - destruct Hsz as (S1 & S2 & ->). rewrite S1 in *. cbn [map bandLimits lfft]. split.
    + rewrite filter_cons, decide_False by (cbn; by rewrite Z.eqb_refl). cbn [filter list_filter map app]. rewrite Z.sub_diag. change (0 / 2) with 0.
      destruct ra; cbn [app]; repeat (apply Forall_cons_2; [cbn; try specialize (Ha eq_refl); lia|]); apply Forall_nil_2.
    + rewrite ?L1, ?S1, ?Z.sub_diag. change (0 / 2) with 0. repeat (apply Forall_cons_2; [lia|]). apply Forall_nil_2.
  - destruct Hsz as (S1 & S2 & -> & _). rewrite S1 in *. split.
    + rewrite filter_cons, decide_True by (cbn; destruct (Z.eqb_spec (n * 2) n); [lia|done]). rewrite filter_cons, decide_False by (cbn; by rewrite Z.eqb_refl).
      rewrite filter_cons, decide_True by (cbn -[Z.div]; destruct (Z.eqb_spec (n / 2) n); [lia|done]). cbn [filter list_filter map app bandLimits lfft].
      assert (E1 : (n * 2 - n * 2) / 2 = 0) by (by rewrite Z.sub_diag). assert (E2 : (n * 2 - n / 2) / 2 = n / 2 + n / 2 / 2).
      { replace (n * 2 - n / 2) with ((n / 2 + n / 2 / 2) * 2) by lia. apply Z.div_mul. lia. }
      assert (E3 : (n * 2 - n) / 2 = n / 2) by (f_equal; lia). rewrite E1, E2, E3.
      destruct ra; cbn [app]; repeat (apply Forall_cons_2; [cbn -[Z.div]; try specialize (Ha eq_refl); lia|]); apply Forall_nil_2.
    + rewrite ?L1, ?S1. cbn [map bandLimits lfft].
      assert (G : forall w f, 0 < w -> w <= f -> f <= n * 2 -> w mod 2 = 0 -> f mod 2 = 0 ->
        0 <= (f - w) / 2 /\ 0 < w /\ (f - w) / 2 + w <= f /\ 0 <= (n * 2 - w) / 2 /\ (n * 2 - w) / 2 + w <= n * 2 /\ 2 * ((f - w) / 2) = f - w /\ 2 * ((n * 2 - w) / 2) = n * 2 - w).
      { intros w f H1 H2 H3 H4 H5. pose proof (Z_div_mod_eq_full w 2). pose proof (Z_div_mod_eq_full f 2).
        assert ((f - w) / 2 = f / 2 - w / 2) as -> by (replace (f - w) with ((f / 2 - w / 2) * 2) by lia; apply Z.div_mul; lia).
        assert ((n * 2 - w) / 2 = n - w / 2) as -> by (replace (n * 2 - w) with ((n - w / 2) * 2) by lia; apply Z.div_mul; lia). lia. }
      assert (M1 : n mod 2 = 0) by (pose proof (Z_div_mod_eq_full n 2); lia). assert (M2 : n / 2 mod 2 = 0) by (pose proof (Z_div_mod_eq_full (n / 2) 2); lia).
      assert (M3 : n * 2 mod 2 = 0) by (apply Z_mod_mult). assert (M4 : n * 2 / 2 = n) by (apply Z.div_mul; lia).
      assert (M5 : n / 2 / 2 mod 2 = 0) by (pose proof (Z_div_mod_eq_full n 8); pose proof (Z_div_mod_eq_full (n / 2 / 2) 2); pose proof (Z.mod_pos_bound (n / 2 / 2) 2); lia).
      repeat (apply Forall_cons_2; [match goal with |- context [2048 <? ?x] => destruct (2048 <? x) end; apply G; rewrite ?M4; lia|]). apply Forall_nil_2.
Qed.
