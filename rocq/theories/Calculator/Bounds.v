(** How large the increments of a profile without key frames are, and how many there are
    at least. *)
From stdpp Require Import prelude.
From Coq Require Import ZArith QArith Qround Qfield Lia Lqa Sorting.Sorted ZifyBool.
From Verif.Base Require Import Arith.
From Verif.Calculator Require Import Model Spec Regions Peaks Maps Proofs.
Local Open Scope Z_scope.

Lemma nonnegQ z : 0 <= z -> (0 <= inject_Z z)%Q.
Proof. intros. change 0%Q with (inject_Z 0). by rewrite inject_Z_inj_le. Qed.
Lemma posQ z : 0 < z -> (0 < inject_Z z)%Q.
Proof. intros. change 0%Q with (inject_Z 0). by rewrite inject_Z_inj_lt. Qed.

Lemma spread_bound n : forall per acc total l total', (0 <= per)%Q -> settled per acc total ->
  spread n per acc total = Some (l, total') -> Forall (fun x => 0 <= x /\ (inject_Z x <= per + 1)%Q) l.
Proof.
  induction n as [|n IH]; intros per acc total l total' Hp Hs E; cbn [spread] in E.
  { injection E as <- <-. constructor. }
  pose proof (spread_ok (S n) per acc total Hp Hs) as (l1 & t1 & E1 & _ & Hnn & _).
  assert (Hs1 : settled per (acc + per) (total + cround (acc + per - inject_Z total))).
  { destruct (spread_ok 1 per acc total Hp Hs) as (l2 & t2 & E2 & _ & _ & _ & Hset). cbn [spread] in E2.
    destruct (cround _ <? 0); [done|]. cbn [mbind option_bind] in E2. injection E2 as <- <-.
    destruct Hset as (Ha & Hb & Hc). change (inject_Z (Z.of_nat 1)) with 1%Q in *. unfold settled. split_and!; lra. }
  destruct (Z.ltb_spec (cround (acc + per - inject_Z total)) 0); [done|].
  destruct (spread n per (acc + per) _) as [[l2 t2]|] eqn:E2; [|done]. cbn [mbind option_bind] in E. injection E as <- <-.
  constructor; [|by eapply IH]. destruct Hs as (Ha & Hb & _). destruct (cround_near (acc + per - inject_Z total)) as [Hc _].
  split; [lia|]. lra.
Qed.

(** [q = out / N] frames are due for each chunk. *)
Lemma region_bound m d n r l out N : 0 <= m -> 0 <= d -> 1 <= n -> 0 <= out -> 0 < N -> d * N <= n * out + N ->
  region m d n r = Some l ->
  Forall (fun x => Z.abs x * N <= 2 * out + 2 * N \/ (r = true /\ Z.abs x <= m)) l /\
  (forall x, head l = Some x -> Z.abs x * N <= out + 2 * N \/ (r = true /\ Z.abs x <= m)).
Proof.
  intros Hm Hd Hn Ho HN Hdn E. unfold region in E. destruct (Z.eqb_spec n 0); [lia|].
  fold (first_of m d n r) in E. fold (rest_of n r) in E.
  assert (Hf : 0 <= first_of m d n r <= d) by (unfold first_of; destruct r; [destruct (1 <? n)|]; lia).
  assert (Hfirst : r = true -> first_of m d n r * N <= out + 2 * N \/ (r = true /\ first_of m d n r <= m)).
  { intros ->. unfold first_of. destruct (Z.ltb_spec 1 n); [right; split; [done|lia]|]. left. assert (n = 1) as -> by lia. lia. }
  assert (Hpre : forall x, In x (if r then [- first_of m d n r] else []) -> Z.abs x * N <= out + 2 * N \/ (r = true /\ Z.abs x <= m)).
  { intros x. destruct r; [|done]. intros [<-|[]]. rewrite Z.abs_opp, Z.abs_eq by lia. by apply Hfirst. }
  destruct (Z.ltb_spec 0 (rest_of n r)) as [Hpos|Hz].
  - set (per := (inject_Z (d - first_of m d n r) / inject_Z (rest_of n r))%Q) in *.
    pose proof (posQ _ Hpos) as HrQ.
    assert (Hper : (per * inject_Z (rest_of n r) == inject_Z (d - first_of m d n r))%Q) by (unfold per; field; lra).
    assert (Hper0 : (0 <= per)%Q).
    { apply Qle_shift_div_l; [done|]. rewrite Qmult_0_l. apply nonnegQ. lia. }
    assert (Hset : settled per (inject_Z (first_of m d n r)) (first_of m d n r)) by (unfold settled; split_and!; lra).
    destruct (spread_ok (Z.to_nat (rest_of n r - 1)) per (inject_Z (first_of m d n r)) (first_of m d n r) Hper0 Hset)
      as (k & t & Ek & Hl & Hnn & Hsum & (Ha & Hb & _)).
    pose proof (spread_bound _ _ _ _ _ _ Hper0 Hset Ek) as Hbd.
    rewrite Ek in E. cbn [mbind option_bind] in E. injection E as <-.
    rewrite Z2Nat.id in Ha, Hb by lia.
    replace (rest_of n r - 1) with (rest_of n r + - 1) in Ha, Hb by lia. rewrite inject_Z_plus in Ha, Hb.
    change (inject_Z (-1)) with (-(1))%Q in Ha, Hb.
    assert (Hx : ((inject_Z (rest_of n r) + - (1)) * per == inject_Z (d - first_of m d n r) - per)%Q) by (rewrite <- Hper; ring).
    rewrite Hx in Ha, Hb. unfold Z.sub in Ha, Hb. rewrite inject_Z_plus, inject_Z_opp in Ha, Hb.
    assert (Hall : Forall (fun x => 0 <= x /\ (inject_Z x <= per + 1)%Q) (k ++ (if t <? d then [d - t] else []))).
    { apply Forall_app. split; [done|]. destruct (Z.ltb_spec t d); [|constructor]. constructor; [|constructor].
      split; [lia|]. unfold Z.sub. rewrite inject_Z_plus, inject_Z_opp. lra. }
    assert (Hmul : forall x, 0 <= x /\ (inject_Z x <= per + 1)%Q -> Z.abs x * rest_of n r <= d + rest_of n r).
    { intros x [H0 H1]. rewrite Z.abs_eq by done. rewrite <- inject_Z_inj_le, inject_Z_mult, inject_Z_plus.
      assert (inject_Z (d - first_of m d n r) <= inject_Z d)%Q by (rewrite inject_Z_inj_le; lia). nra. }
    assert (Htwo : forall x, 0 <= x /\ (inject_Z x <= per + 1)%Q ->
       Z.abs x * N <= 2 * out + 2 * N /\ (r = false -> Z.abs x * N <= out + 2 * N)).
    { intros x Hx0. specialize (Hmul x Hx0). pose proof (Z.abs_nonneg x).
      assert (Hmul2 : Z.abs x * N * rest_of n r <= n * out + N + rest_of n r * N) by nia.
      unfold rest_of in *. destruct r; (split; [|try done]); intros; nia. }
    split.
    + apply Forall_app. split.
      * apply List.Forall_forall. intros x Hin. destruct (Hpre x Hin); [left; lia|by right].
      * eapply Forall_impl; [exact Hall|]. intros x Hx0. left. apply Htwo. exact Hx0.
    + intros x Hhd. destruct r; cbn [app head] in Hhd.
      * injection Hhd as <-. apply Hpre. by left.
      * left. destruct (k ++ _) as [|y ys]; [done|]. injection Hhd as ->. apply Forall_cons_1 in Hall as [Hy _]. by apply Htwo.
  - injection E as <-. split.
    + apply List.Forall_forall. intros x Hin. destruct (Hpre x Hin); [left; lia|by right].
    + intros x Hhd. destruct r; [|done]. injection Hhd as <-. apply Hpre. by left.
Qed.

Section plain.
  Context (out N : Z) (Hout : 0 <= out) (HN : 0 < N).
  Local Notation pts := (fmap (fun p : peak => (p, tgt out N (chunk p)))).

  Lemma tgt_diff a b : a <= b -> (tgt out N b - tgt out N a) * N <= (b - a) * out + N.
  Proof using Hout HN.
    intros Hab. pose proof (NQ N HN) as HNQ. unfold tgt.
    set (u := (inject_Z b * inject_Z out / inject_Z N)%Q). set (v := (inject_Z a * inject_Z out / inject_Z N)%Q).
    destruct (rint_near u) as [Hu _], (rint_near v) as [_ Hv].
    assert (Eu : (u * inject_Z N == inject_Z b * inject_Z out)%Q) by (unfold u; field; lra).
    assert (Ev : (v * inject_Z N == inject_Z a * inject_Z out)%Q) by (unfold v; field; lra).
    rewrite <- inject_Z_inj_le, inject_Z_plus, !inject_Z_mult. unfold Z.sub. rewrite !inject_Z_plus, !inject_Z_opp. nra.
  Qed.
  Lemma tgt_min k : 0 <= k <= N -> Z.min (tgt out N k) out = tgt out N k.
  Proof using Hout HN.
    intros Hk. assert (tgt out N k <= tgt out N N) as H by (apply (tgt_le _ _ Hout HN); lia). rewrite tgt_N in H by done. lia.
  Qed.

  (** The parts of a profile, one region at a time. *)
  Lemma regions_step m sc r p ps l : 0 <= sc -> sc <= chunk p < N ->
    regions m out N sc (tgt out N sc) r (pts (p :: ps)) = Some l ->
    exists l1 l2, l = l1 ++ l2 /\ region m (tgt out N (chunk p) - tgt out N sc) (chunk p - sc) r = Some l1 /\
      regions m out N (chunk p) (tgt out N (chunk p)) (hard p) (pts ps) = Some l2.
  Proof using Hout HN.
    intros Hsc Hp E. cbn [fmap list_fmap regions] in E.
    rewrite !tgt_min in E by lia.
    replace (Z.min sc N) with sc in E by lia.
    replace (Z.max (Z.min (chunk p) N) sc) with (chunk p) in E by lia.
    assert (tgt out N sc <= tgt out N (chunk p)) by (apply (tgt_le _ _ Hout HN); lia).
    replace (Z.max (tgt out N (chunk p)) (tgt out N sc)) with (tgt out N (chunk p)) in E by lia.
    destruct (region _ _ _ _) as [l1|]; [|done]. cbn [mbind option_bind] in E.
    change (list_fmap ?A ?B ?f ps) with (f <$> ps) in E.
    destruct (regions m out N (chunk p) _ _ _) as [l2|] eqn:E2; [|done]. cbn [mbind option_bind] in E. injection E as <-.
    exists l1, l2. done.
  Qed.
  Lemma regions_last m sc r l : 0 <= sc <= N -> regions m out N sc (tgt out N sc) r (pts []) = Some l ->
    region m (tgt out N N - tgt out N sc) (N - sc) r = Some l.
  Proof using Hout HN.
    intros Hsc E. cbn [fmap list_fmap regions] in E. rewrite tgt_N by done. rewrite tgt_min in E by lia.
    replace (Z.min sc N) with sc in E by lia. replace (Z.max (Z.min N N) sc) with N in E by lia.
    assert (tgt out N sc <= tgt out N N) as Hle by (apply (tgt_le _ _ Hout HN); lia). rewrite tgt_N in Hle by done.
    replace (Z.max (Z.min out out) (tgt out N sc)) with out in E by lia.
    destruct (region _ _ _ _) as [l1|]; [|done]. exact E.
  Qed.

  Lemma plain_bound m : 0 <= m -> forall ps sc r l, 0 <= sc <= N ->
    StronglySorted (fun a b => chunk a < chunk b) ps -> Forall (fun p => sc <= chunk p < N) ps ->
    regions m out N sc (tgt out N sc) r (pts ps) = Some l ->
    let anyhard := r = true \/ Exists (fun p => hard p = true) ps in
    Forall (fun x => Z.abs x * N <= 2 * out + 2 * N \/ (anyhard /\ Z.abs x <= m)) l /\
    (forall x, head l = Some x -> Z.abs x * N <= out + 2 * N \/ (anyhard /\ Z.abs x <= m)).
  Proof using Hout HN.
    intros Hm. induction ps as [|p ps IH]; intros sc r l Hsc Hs Hr E anyhard.
    - apply regions_last in E; [|done]. destruct (Z.eq_dec sc N) as [->|Hne].
      { rewrite !Z.sub_diag, region_empty in E. injection E as <-. done. }
      destruct (region_bound m (tgt out N N - tgt out N sc) (N - sc) r l out N Hm) as [H1 H2]; [|lia|done|done| |exact E|].
      { assert (tgt out N sc <= tgt out N N) by (apply (tgt_le _ _ Hout HN); lia). lia. }
      { apply tgt_diff. lia. }
      split; [eapply Forall_impl; [exact H1|]|intros x Hx; specialize (H2 x Hx)]; unfold anyhard; [intros x H3|]; tauto.
    - apply Forall_cons_1 in Hr as [Hr1 Hr2]. inversion_clear Hs as [|? ? Hs' Hall].
      destruct (regions_step m sc r p ps l ltac:(lia) Hr1 E) as (l1 & l2 & -> & E1 & E2).
      destruct (IH (chunk p) (hard p) l2 ltac:(lia) Hs') as [I1 I2].
      { rewrite List.Forall_forall in *. intros q Hq. specialize (Hr2 q Hq). specialize (Hall q Hq). lia. }
      { exact E2. }
      assert (Hany : hard p = true \/ Exists (fun p => hard p = true) ps -> anyhard).
      { unfold anyhard. intros [H|H]; right; [by left|by right]. }
      destruct (Z.eq_dec sc (chunk p)) as [Heq|Hne].
      { rewrite <- Heq, !Z.sub_diag, region_empty in E1. injection E1 as <-. cbn [app]. split.
        - eapply Forall_impl; [exact I1|]. cbv beta. tauto.
        - intros x Hx. specialize (I2 x Hx). tauto. }
      destruct (region_bound m (tgt out N (chunk p) - tgt out N sc) (chunk p - sc) r l1 out N Hm) as [H1 H2]; [|lia|done|done| |exact E1|].
      { assert (tgt out N sc <= tgt out N (chunk p)) by (apply (tgt_le _ _ Hout HN); lia). lia. }
      { apply tgt_diff. lia. }
      split.
      + apply Forall_app. split; (eapply Forall_impl; [eassumption|]); cbv beta; intros x; unfold anyhard in *; tauto.
      + intros x Hx. destruct l1 as [|y l1]; [specialize (I2 x Hx); tauto|]. specialize (H2 x Hx). unfold anyhard; tauto.
  Qed.

  (** At most one increment is missing, that of the last chunk, when only the last region
      may be too short for its phase reset. *)
  Lemma plain_length m s : 0 <= m ->
    (forall a b, 0 <= a < b -> b <= N -> roomy m (tgt out N b - tgt out N a) (b - a) false = true) ->
    (forall a b, 0 <= a < b -> b <= N -> s <= b - a -> roomy m (tgt out N b - tgt out N a) (b - a) true = true) ->
    forall ps sc r l, 0 <= sc <= N ->
    StronglySorted (fun a b => chunk a < chunk b /\ (hard a = true -> s <= chunk b - chunk a)) ps ->
    Forall (fun p => sc <= chunk p < N /\ (r = true -> s <= chunk p - sc)) ps ->
    regions m out N sc (tgt out N sc) r (pts ps) = Some l -> N - sc - 1 <= zlen l.
  Proof using Hout HN.
    intros Hm Hf Ht. induction ps as [|p ps IH]; intros sc r l Hsc Hs Hr E.
    - apply regions_last in E; [|done]. destruct (Z.eq_dec sc N) as [->|Hne].
      { pose proof (zlen_nonneg l). lia. }
      destruct (region_ok m (tgt out N N - tgt out N sc) (N - sc) r Hm) as (l' & E' & _ & Hz & _); [|lia|].
      { assert (tgt out N sc <= tgt out N N) by (apply (tgt_le _ _ Hout HN); lia). lia. }
      rewrite E in E'. injection E' as <-. destruct (roomy _ _ _ _); lia.
    - apply Forall_cons_1 in Hr as [[Hr1 Hr1'] Hr2]. inversion_clear Hs as [|? ? Hs' Hall].
      destruct (regions_step m sc r p ps l ltac:(lia) Hr1 E) as (l1 & l2 & -> & E1 & E2).
      specialize (IH (chunk p) (hard p) l2 ltac:(lia) Hs'). rewrite zlen_app.
      assert (I : N - chunk p - 1 <= zlen l2).
      { apply IH; [|exact E2]. rewrite List.Forall_forall in *. intros q Hq. specialize (Hr2 q Hq). specialize (Hall q Hq).
        split; [lia|]. apply Hall. }
      destruct (Z.eq_dec sc (chunk p)) as [Heq|Hne].
      { pose proof (zlen_nonneg l1). lia. }
      destruct (region_ok m (tgt out N (chunk p) - tgt out N sc) (chunk p - sc) r Hm) as (l' & E' & _ & Hz & _); [|lia|].
      { assert (tgt out N sc <= tgt out N (chunk p)) by (apply (tgt_le _ _ Hout HN); lia). lia. }
      rewrite E1 in E'. injection E' as <-.
      assert (roomy m (tgt out N (chunk p) - tgt out N sc) (chunk p - sc) r = true) as Hroom.
      { destruct r; [apply Ht|apply Hf]; try lia. }
      rewrite Hroom in Hz. lia.
  Qed.
End plain.

Section nokeys.
  Context (c : calc) (Hrate : 1 <= sampleRate c) (Hincr : 1 <= increment c).
  Context (ratio : Q) (Hratio : (0 <= ratio)%Q) (df : list Q) (Hk : keyFrameMap c = []).
  Let out := output_duration c ratio df.
  Let N := zlen df.

  Lemma calculate_regions l : 0 < N -> calculate c ratio df = Some l -> exists ps, findPeaks c df = Some ps /\
    regions (increment c) out N 0 (tgt out N 0) false ((fun p => (p, tgt out N (chunk p))) <$> ps) = Some l.
  Proof using Hrate Hincr Hratio Hk.
    intros HN E. unfold calculate in E. destruct (findPeaks c df) as [ps|] eqn:Ep; [|done]. cbn [mbind option_bind] in E.
    fold out N in E. destruct (points_plain c Hrate Hincr ratio Hratio df ps Hk Ep HN) as [E1 _]. fold out N in E1.
    rewrite E1 in E. cbn [mbind option_bind] in E. exists ps. split; [done|]. by rewrite tgt_0.
  Qed.

  Lemma calculate_bound l : 0 < N -> calculate c ratio df = Some l ->
    Forall (fun x => Z.abs x * N <= 2 * out + 2 * N \/ (useHardPeaks c = true /\ Z.abs x <= increment c)) l /\
    (forall x, head l = Some x -> Z.abs x * N <= out + 2 * N \/ (useHardPeaks c = true /\ Z.abs x <= increment c)).
  Proof using Hrate Hincr Hratio Hk.
    intros HN E. destruct (calculate_regions l HN E) as (ps & Ep & Er).
    destruct (findPeaks_ok c Hrate Hincr df ps Ep) as (Hs & Hr & Hnh).
    pose proof (out_nonneg c Hincr ratio Hratio df) as Hout. fold out in Hout.
    destruct (plain_bound out N Hout HN (increment c) ltac:(lia) ps 0 false l ltac:(lia)) as [H1 H2].
    { by eapply before_chunk. }
    { exact Hr. }
    { exact Er. }
    assert (Hany : false = true \/ Exists (fun p => hard p = true) ps -> useHardPeaks c = true).
    { intros [?|He]; [done|]. destruct (useHardPeaks c) eqn:Eh; [done|]. exfalso. specialize (Hnh eq_refl).
      apply Exists_exists in He as (p & Hp & Hh). rewrite list.Forall_forall in Hnh. rewrite (Hnh p Hp) in Hh. done. }
    split.
    - eapply Forall_impl; [exact H1|]. cbv beta. intros x. tauto.
    - intros x Hx. specialize (H2 x Hx). tauto.
  Qed.

  (** Shortening with hard onsets: [s] chunks at least from one hard onset to the next onset, enough
      for more than one input increment of output. *)
  Lemma calculate_length s l : 0 < N -> 1 <= s <= 4 -> 20 * increment c * (s - 1) < sampleRate c ->
    (2 <= inject_Z (increment c) * ratio)%Q ->
    (inject_Z (increment c) + 1 < inject_Z s * (inject_Z (increment c) * ratio - (1 # 2)))%Q ->
    calculate c ratio df = Some l -> N - 1 <= zlen l.
  Proof using Hrate Hincr Hratio Hk.
    intros HN Hs Hgap Hx2 Hroom E. destruct (calculate_regions l HN E) as (ps & Ep & Er).
    destruct (findPeaks_ok c Hrate Hincr df ps Ep) as (Hso & Hr & Hnh).
    pose proof (out_nonneg c Hincr ratio Hratio df) as Hout. fold out in Hout.
    set (x := (inject_Z (increment c) * ratio)%Q) in *.
    assert (Hsh : forall a b, 0 <= a < b -> b <= N -> (inject_Z (b - a) * x - (3 # 2) <= inject_Z (tgt out N b - tgt out N a))%Q).
    { intros a b Hab Hb. apply (share out N Hout HN a b x ltac:(lia) (out_ratio c ratio df)); [lra|lia|lia]. }
    pose proof (plain_length out N Hout HN (increment c) s ltac:(lia)) as HL.
    specialize (HL) with (3 := ltac:(lia) : 0 <= 0 <= N).
    assert (N - 0 - 1 <= zlen l); [|lia]. eapply HL with (r := false); [| | | |exact Er].
    - intros a b Hab Hb. specialize (Hsh a b Hab Hb). unfold roomy, rest_of, first_of.
      destruct (Z.eqb_spec (b - a) 0) as [|Hn]; [done|]. cbn [orb]. apply Z.ltb_lt.
      set (n := b - a) in *. set (D := tgt out N b - tgt out N a) in *.
      assert (HnQ : (1 <= inject_Z n)%Q) by (change 1%Q with (inject_Z 1); rewrite inject_Z_inj_le; lia).
      assert (HD : (inject_Z n * 2 - (3 # 2) <= inject_Z D)%Q) by nra.
      assert (HDZ : n * 2 - 1 <= D).
      { apply Q_lt_Z. replace (n * 2 - 1) with (n * 2 + -1) by lia. rewrite inject_Z_plus, inject_Z_mult.
        change (inject_Z (-1)) with (-(1))%Q. change (inject_Z 2) with 2%Q. lra. }
      lia.
    - intros a b Hab Hb Hsb. specialize (Hsh a b Hab Hb). unfold roomy, rest_of, first_of.
      destruct (Z.eqb_spec (b - a - 1) 0) as [|Hn]; [done|]. cbn [orb]. destruct (Z.ltb_spec 1 (b - a)); [|lia]. apply Z.ltb_lt.
      set (n := b - a) in *. set (D := tgt out N b - tgt out N a) in *.
      assert (HnQ : (inject_Z s <= inject_Z n)%Q) by by rewrite inject_Z_inj_le.
      assert (HD : (inject_Z n * x - inject_Z n * (1 # 2) > inject_Z (increment c) + 1)%Q) by nra.
      assert (HDZ : (inject_Z (2 * D) > inject_Z (2 * increment c + n - 1))%Q).
      { unfold Z.sub. rewrite !inject_Z_plus, !inject_Z_mult. change (inject_Z 2) with 2%Q. change (inject_Z (- (1))) with (-(1))%Q. lra. }
      unfold Qlt in HDZ. cbn [Qnum Qden inject_Z] in HDZ. lia.
    - clear -Hso Hgap Hs Hincr. induction Hso as [|p ps Hs' IH Hall]; constructor; [done|].
      eapply Forall_impl; [exact Hall|]. intros q (H1 & H2 & H3). split; [done|]. intros Hh. destruct (hard q) eqn:Eq.
      + specialize (H2 Hh eq_refl). assert (20 * increment c * (s - 1) < 20 * increment c * (chunk q - chunk p)) by lia.
        apply Z.mul_lt_mono_pos_l in H; lia.
      + specialize (H3 Hh eq_refl). lia.
    - eapply Forall_impl; [exact Hr|]. intros p Hp. cbv beta in *. fold N in Hp. split; [lia|done].
  Qed.
End nokeys.
