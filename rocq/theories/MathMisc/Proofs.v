From Coq Require Import ZArith QArith Qabs Qround Znumtheory Reals Lia Lra Psatz ZifyBool.
From Verif.MathMisc Require Import Model Spec.
Local Open Scope Z_scope.

(** roundUp *)
Lemma land_pred_pow2 v : 0 < v -> Z.land v (v - 1) = 0 -> v = 2 ^ Z.log2 v.
Proof.
  intros Hv H. pose proof (Z.log2_spec v Hv) as [Hl Hu].
  set (k := Z.log2 v) in *. assert (Hk : 0 <= k) by apply Z.log2_nonneg.
  destruct (Z.eq_dec v (2 ^ k)) as [|Hne]; [assumption|]. exfalso.
  assert (Hb : Z.testbit (Z.land v (v - 1)) k = true).
  { rewrite Z.land_spec. rewrite Z.bit_log2 by assumption. cbn.
    assert (Z.log2 (v - 1) = k) as <-.
    { apply Z.log2_unique; lia. }
    apply Z.bit_log2. lia. }
  rewrite H, Z.bits_0 in Hb. discriminate.
Qed.

Lemma bit_count_spec fuel : forall v bits, 0 <= v -> v < 2 ^ Z.of_nat fuel -> (0 < Z.of_nat fuel)%Z ->
  bit_count (S fuel) v bits = Some (bits + (if v =? 0 then 0 else Z.log2 v + 1)).
Proof.
  induction fuel as [|f IH]; intros v bits Hv Hb Hf; [lia|].
  change (bit_count (S (S f)) v bits) with
    (if v =? 0 then Some bits else bit_count (S f) (Z.shiftr v 1) (bits + 1)).
  destruct (Z.eqb_spec v 0) as [->|Hne]; [f_equal; lia|].
  rewrite Z.shiftr_div_pow2 by lia. change (2 ^ 1) with 2.
  destruct f as [|f].
  - assert (v = 1) as -> by (change (2 ^ Z.of_nat 1) with 2 in Hb; lia). cbn; f_equal; lia.
  - rewrite IH; [|apply Z.div_pos; lia| |lia].
    + f_equal. rewrite <- Z.add_assoc. f_equal.
      destruct (Z.eqb_spec (v / 2) 0) as [H0|H0].
      * assert (v = 1) as -> by (pose proof (Z.div_mod v 2 ltac:(lia)); pose proof (Z.mod_pos_bound v 2 ltac:(lia)); lia).
        cbn. lia.
      * pose proof (Z.log2_shiftr v 1 ltac:(lia)) as L.
        rewrite Z.shiftr_div_pow2 in L by lia. change (2 ^ 1) with 2 in L. rewrite L.
        assert (2 <= v).
        { destruct (Z_lt_le_dec v 2); [|assumption]. exfalso. apply H0. apply Z.div_small. lia. }
        pose proof (Z.log2_le_mono 2 v ltac:(lia)). change (Z.log2 2) with 1 in *. lia.
    + apply Z.div_lt_upper_bound; [lia|]. rewrite <- Z.pow_succ_r by lia.
      replace (Z.succ (Z.of_nat (S f))) with (Z.of_nat (S (S f))) by lia. assumption.
Qed.

Lemma least_pow2_log v : 1 <= v -> least_pow2 v (2 ^ Z.log2_up v).
Proof.
  intros Hv. exists (Z.log2_up v). split; [apply Z.log2_up_nonneg|]. split; [reflexivity|].
  split.
  - destruct (Z.eq_dec v 1) as [->|]; [cbn; lia|]. apply Z.log2_log2_up_spec. lia.
  - intros j Hj Hle. apply Z.pow_le_mono_r; [lia|].
    apply Z.log2_up_le_mono in Hle. rewrite Z.log2_up_pow2 in Hle by lia. assumption.
Qed.

Lemma roundUp_spec v : 1 <= v <= 2 ^ 63 -> exists r, roundUp v = Some r /\ least_pow2 v r.
Proof.
  intros Hv. exists (2 ^ Z.log2_up v). split; [|apply least_pow2_log; lia].
  unfold roundUp, szmax. rewrite Z.mod_small by lia.
  destruct (Z.eqb_spec (Z.land v (v - 1)) 0) as [H|H].
  - apply land_pred_pow2 in H; [|lia]. f_equal. rewrite H at 2.
    rewrite Z.log2_up_pow2 by apply Z.log2_nonneg. assumption.
  - rewrite (bit_count_spec 64) by lia. destruct (Z.eqb_spec v 0); [lia|].
    assert (Hnp : v <> 2 ^ Z.log2 v).
    { intros E. apply H. rewrite E. 
      pose proof (Z.log2_nonneg v).
      rewrite <- (Z.ones_equiv (Z.log2 v)) || idtac.
      replace (2 ^ Z.log2 v - 1) with (Z.ones (Z.log2 v)) by (rewrite Z.ones_equiv; lia).
      rewrite Z.land_ones by assumption. apply Z_mod_same_full. }
    pose proof (Z.log2_spec v ltac:(lia)) as [Hl Hu].
    assert (Z.log2 v < 63).
    { apply Z.log2_lt_pow2; [lia|]. assert (v <> 2 ^ 63); [|lia]. intros ->. apply Hnp. reflexivity. }
    pose proof (Z.log2_nonneg v).
    rewrite Z.add_0_l. destruct (Z.ltb_spec (Z.log2 v + 1) 64); [|lia].
    f_equal. rewrite Z.shiftl_1_l. f_equal.
    destruct (Z.le_gt_cases (Z.log2_up v) (Z.log2 v)) as [Hc|Hc].
    + exfalso. pose proof (Z.log2_log2_up_spec v ltac:(lia)). 
      assert (2 ^ Z.log2_up v <= 2 ^ Z.log2 v) by (apply Z.pow_le_mono_r; lia). lia.
    + pose proof (Z.le_log2_up_succ_log2 v). lia.
Qed.

Lemma roundUp_zero : roundUp 0 = Some 0.
Proof. reflexivity. Qed.

Lemma Qceiling_spec q n : (q <= inject_Z n)%Q <-> Qceiling q <= n.
Proof.
  split; intros H.
  - apply Z.lt_succ_r. rewrite Zlt_Qlt.
    eapply Qlt_le_trans; [|rewrite inject_Z_plus' || idtac; apply Qle_refl].
    pose proof (Qceiling_lt q). unfold Z.succ. rewrite inject_Z_plus.
    unfold Z.sub in H0. rewrite inject_Z_plus in H0.
    assert (inject_Z (Qceiling q) + inject_Z (-1) < inject_Z n)%Q by (eapply Qlt_le_trans; eassumption).
    change (inject_Z (-1)) with (-(1))%Q in H1. change (inject_Z 1) with 1%Q. lra.
  - eapply Qle_trans; [apply Qle_ceiling|]. rewrite <- Zle_Qle. assumption.
Qed.

Lemma roundUpDiv_spec x d : 1 <= d -> (0 < x)%Q -> (x <= inject_Z d * inject_Z (2 ^ 63))%Q ->
  exists r, roundUpDiv x d = Some r /\ (exists k, 0 <= k /\ r = 2 ^ k) /\
    (x / inject_Z d <= inject_Z r)%Q /\
    forall j, 0 <= j -> (x / inject_Z d <= inject_Z (2 ^ j))%Q -> r <= 2 ^ j.
Proof.
  intros Hd Hx Hmax.
  assert (Hdq : (0 < inject_Z d)%Q) by (rewrite Zlt_Qlt in Hd || idtac; change 0%Q with (inject_Z 0); rewrite <- Zlt_Qlt; lia).
  unfold roundUpDiv. destruct (Qlt_le_dec x 0) as [Hn|_]; [exfalso; lra|].
  destruct (Z.eqb_spec d 0); [lia|].
  set (q := (x / inject_Z d)%Q).
  assert (Hq0 : (0 < q)%Q).
  { unfold q. apply Qlt_shift_div_l; [assumption|]. lra. }
  assert (Hq1 : (q <= inject_Z (2 ^ 63))%Q).
  { unfold q. apply Qle_shift_div_r; [assumption|]. rewrite Qmult_comm. assumption. }
  assert (Hc1 : Qceiling q <= 2 ^ 63) by (apply Qceiling_spec; assumption).
  assert (Hc0 : 1 <= Qceiling q).
  { destruct (Z_lt_le_dec (Qceiling q) 1); [|assumption]. exfalso.
    assert (Qceiling q <= 0) as H by lia. apply Qceiling_spec in H. change (inject_Z 0) with 0%Q in H. lra. }
  destruct (roundUp_spec (Qceiling q)) as (r & Hr & k & Hk & -> & Hle & Hmin); [lia|].
  exists (2 ^ k). unfold szmax. destruct (Z.ltb_spec (Qceiling q) (2 ^ 64)); [|lia].
  split; [assumption|]. split; [eauto|]. split; [apply Qceiling_spec; assumption|].
  intros j Hj Hjq. apply Hmin; [assumption|]. apply Qceiling_spec. assumption.
Qed.

(** princarg *)
Lemma princarg_spec P a : (0 < P)%R -> principal P a (princarg P a).
Proof.
  intros HP. unfold princarg, rmod, principal.
  set (x := ((a + P) / (-2 * P))%R). destruct (base_Int_part x) as [H1 H2].
  set (n := Int_part x) in *.
  assert (E : (a + P = x * (-2 * P))%R) by (unfold x; field; lra).
  split.
  - rewrite E. split; nra.
  - exists (n + 1)%Z. rewrite plus_IZR. ring.
Qed.

(** Farey *)
Section farey.
Context (ratio eps : Q) (m : Z).
Hypothesis Hpos : (0 < ratio)%Q.
Hypothesis Heps : (0 < eps)%Q.
Hypothesis Hm : 1 <= m.

Let n := Qnum ratio.
Let e := Zpos (Qden ratio).

(** [x/y < ratio] and so on, over the integers. *)
Definition below (x y : Z) : Prop := x * e < n * y.
Definition above (x y : Z) : Prop := n * y < x * e.

Lemma npos : 0 < n.
Proof. unfold n. unfold Qlt in Hpos. cbn in Hpos. lia. Qed.
Lemma epos : 0 < e.
Proof. reflexivity. Qed.

Lemma frac_lt x y : 0 < y -> (frac x y < ratio)%Q <-> below x y.
Proof. intros Hy. unfold frac, Qlt, below, n, e; cbn. rewrite Z2Pos.id by assumption. reflexivity. Qed.
Lemma frac_gt x y : 0 < y -> (ratio < frac x y)%Q <-> above x y.
Proof. intros Hy. unfold frac, Qlt, above, n, e; cbn. rewrite Z2Pos.id by assumption. reflexivity. Qed.
Lemma frac_div x y : 0 < y -> (frac x y == inject_Z x / inject_Z y)%Q.
Proof.
  intros Hy. unfold frac. rewrite (Qmake_Qdiv x (Z.to_pos y)). rewrite Z2Pos.id by assumption. reflexivity.
Qed.

Definition nb (a b c d : Z) : Prop := b * c - a * d = 1.

Record good (s : farey) : Prop := {
  g_b : 1 <= fb s; g_d : 0 <= fd s; g_a : 0 <= fa s; g_c : 1 <= fc s;
  g_nb : nb (fa s) (fb s) (fc s) (fd s);
  g_lo : below (fa s) (fb s); g_hi : above (fc s) (fd s);
  g_pb : 1 <= fpb s <= m; g_pd : 0 <= fpd s <= m; g_pa : 0 <= fpa s; g_pc : 1 <= fpc s;
  g_plo : below (fpa s) (fpb s); g_phi : above (fpc s) (fpd s);
  g_pg : Z.gcd (fpa s) (fpb s) = 1; g_pg2 : Z.gcd (fpc s) (fpd s) = 1
}.

Lemma good_init : good farey_init.
Proof.
  pose proof npos. pose proof epos.
  constructor; cbn; try lia; unfold nb, below, above; try lia.
Qed.

(** A fraction strictly between Farey neighbours has a large denominator. *)
Lemma between a b c d u v : nb a b c d -> 1 <= b -> 0 <= d -> 1 <= v ->
  a * v < u * b -> u * d < c * v -> b + d <= v.
Proof. unfold nb. intros. nia. Qed.

Lemma gcd_nb_l a b c d : nb a b c d -> Z.gcd a b = 1.
Proof.
  intros H. apply Zgcd_1_rel_prime. apply bezout_rel_prime. apply (Bezout_intro a b 1 (-d) c).
  unfold nb in H. lia.
Qed.
Lemma gcd_nb_r a b c d : nb a b c d -> Z.gcd c d = 1.
Proof.
  intros H. apply Zgcd_1_rel_prime. apply bezout_rel_prime. apply (Bezout_intro c d 1 b (-a)).
  unfold nb in H. lia.
Qed.

Lemma dist_frac x y : 0 < y -> (dist ratio x y == Qabs (ratio - frac x y))%Q.
Proof. intros Hy. unfold dist. rewrite frac_div by assumption. reflexivity. Qed.

Lemma dist_below x y : 0 < y -> below x y -> (dist ratio x y == ratio - frac x y)%Q.
Proof.
  intros Hy H. rewrite dist_frac by assumption. apply frac_lt in H; [|assumption].
  apply Qabs_pos. lra.
Qed.
Lemma dist_above x y : 0 < y -> above x y -> (dist ratio x y == frac x y - ratio)%Q.
Proof.
  intros Hy H. rewrite dist_frac by assumption. apply frac_gt in H; [|assumption].
  rewrite Qabs_Qminus. apply Qabs_pos. lra.
Qed.
Lemma frac_le x y u v : 0 < y -> 0 < v -> x * v <= u * y -> (frac x y <= frac u v)%Q.
Proof. intros. unfold frac, Qle; cbn. rewrite !Z2Pos.id by assumption. assumption. Qed.

(** What the answer satisfies. *)
Definition answer_ok (r : Z * Z) : Prop :=
  0 <= fst r /\ 1 <= snd r <= m /\ Z.gcd (fst r) (snd r) = 1 /\
  (dist ratio (fst r) (snd r) < eps \/ one_sided_best ratio m (fst r) (snd r))%Q /\
  (dist ratio (fst r) (snd r) < eps + (1 # Z.to_pos m))%Q /\
  ((exists u v, 1 <= v <= m /\ (ratio == inject_Z u / inject_Z v)%Q) ->
     (dist ratio (fst r) (snd r) < eps)%Q).

(** If the mediant of the current neighbours has too large a denominator, either
    neighbour is best on its own side, and nothing representable is between. *)
Lemma best_below a b c d : nb a b c d -> 1 <= b -> 0 <= d -> m < b + d ->
  below a b -> above c d -> forall x y, 1 <= y -> (dist ratio x y <= dist ratio a b)%Q ->
  one_sided_best ratio m x y.
Proof.
  intros Hn Hb Hd Hbd Hlo Hhi x y Hy Hxy. left. intros u v Hv Hu.
  eapply Qle_trans; [exact Hxy|].
  assert (Hle : (frac u v <= frac a b)%Q).
  { apply frac_le; try lia. destruct (Z_lt_le_dec (a * v) (u * b)) as [Hlt|]; [|lia].
    exfalso. assert (b + d <= v); [|lia]. apply (between a b c d u v); try assumption; try lia.
    rewrite <- frac_div in Hu by lia.
    unfold frac, Qle in Hu; cbn in Hu. rewrite Z2Pos.id in Hu by lia. fold n in Hu. fold e in Hu.
    unfold above in Hhi. pose proof epos. nia. }
  rewrite dist_below by (try lia; assumption). unfold dist.
  rewrite <- frac_div by lia.
  pose proof (proj2 (frac_lt a b ltac:(lia)) Hlo).
  rewrite Qabs_pos by lra. lra.
Qed.

Lemma best_above a b c d : nb a b c d -> 1 <= b -> 1 <= d -> m < b + d ->
  below a b -> above c d -> forall x y, 1 <= y -> (dist ratio x y <= dist ratio c d)%Q ->
  one_sided_best ratio m x y.
Proof.
  intros Hn Hb Hd Hbd Hlo Hhi x y Hy Hxy. right. intros u v Hv Hu.
  eapply Qle_trans; [exact Hxy|].
  assert (Hle : (frac c d <= frac u v)%Q).
  { apply frac_le; try lia. destruct (Z_lt_le_dec (u * d) (c * v)) as [Hlt|]; [|lia].
    exfalso. assert (b + d <= v); [|lia]. apply (between a b c d u v); try assumption; try lia.
    rewrite <- frac_div in Hu by lia.
    unfold frac, Qle in Hu; cbn in Hu. rewrite Z2Pos.id in Hu by lia. fold n in Hu. fold e in Hu.
    unfold below in Hlo. pose proof epos. nia. }
  rewrite dist_above by (try lia; assumption). unfold dist.
  rewrite <- frac_div by lia.
  pose proof (proj2 (frac_gt c d ltac:(lia)) Hhi).
  rewrite Qabs_Qminus. rewrite Qabs_pos by lra. lra.
Qed.

(** Distance between neighbours. *)
Lemma nb_gap a b c d : nb a b c d -> 1 <= b -> 1 <= d ->
  (frac c d - frac a b == 1 # Z.to_pos (b * d))%Q.
Proof.
  intros Hn Hb Hd. unfold frac, Qeq, Qminus, Qplus, Qopp; cbn.
  rewrite !Pos2Z.inj_mul, !Z2Pos.id by nia. unfold nb in Hn. nia.
Qed.
Lemma gap_small b d : 1 <= b -> 1 <= d -> m < b + d -> ((1 # Z.to_pos (b * d)) <= 1 # Z.to_pos m)%Q.
Proof.
  intros. unfold Qle; cbn. rewrite !Z2Pos.id by nia. nia.
Qed.

Lemma no_repr a b c d : nb a b c d -> 1 <= b -> 0 <= d -> m < b + d -> below a b -> above c d ->
  ~ exists u v, 1 <= v <= m /\ (ratio == inject_Z u / inject_Z v)%Q.
Proof.
  intros Hn Hb Hd Hbd Hlo Hhi (u & v & Hv & Hq). rewrite <- frac_div in Hq by lia.
  unfold frac, Qeq in Hq; cbn in Hq. rewrite Z2Pos.id in Hq by lia. fold n in Hq. fold e in Hq.
  assert (b + d <= v); [|lia]. apply (between a b c d u v); try assumption; try lia;
    unfold below, above in *; pose proof epos; nia.
Qed.

Lemma exit_left a b c d pc pd : nb a b c d -> 1 <= b <= m -> 0 <= d <= m -> m < b + d -> 0 <= a ->
  below a b -> above c d -> 0 <= pd <= m -> 1 <= pc -> above pc pd -> Z.gcd pc pd = 1 ->
  forall A B C D, answer_ok (farey_exit ratio (Farey A B C D a b pc pd)).
Proof.
  intros Hn Hb Hd Hbd Ha Hlo Hhi Hpd Hpc Hpa Hg A B C D.
  assert (Hd1 : 1 <= d) by lia.
  assert (Hab : (dist ratio a b < 1 # Z.to_pos m)%Q).
  { rewrite dist_below by (try lia; assumption).
    pose proof (proj2 (frac_gt c d ltac:(lia)) Hhi).
    pose proof (nb_gap a b c d Hn ltac:(lia) Hd1).
    pose proof (gap_small b d ltac:(lia) Hd1 Hbd). lra. }
  assert (Hnr := no_repr a b c d Hn ltac:(lia) ltac:(lia) Hbd Hlo Hhi).
  unfold farey_exit; cbn [fpa fpb fpc fpd].
  assert (HA : answer_ok (a, b)).
  { unfold answer_ok; cbn [fst snd]. repeat split; try lia.
    - eapply gcd_nb_l; eassumption.
    - right. eapply (best_below a b c d); try eassumption; try lia. apply Qle_refl.
    - lra.
    - intros H. exfalso. exact (Hnr H). }
  destruct (Z.eqb_spec pd 0) as [|Hpd0]; [assumption|].
  destruct (Qlt_le_dec _ _) as [Hlt|]; [|assumption].
  rewrite <- !dist_frac in Hlt by lia.
  unfold answer_ok; cbn [fst snd]. repeat split; try lia; try assumption.
  - right. eapply (best_below a b c d); try eassumption; try lia. apply Qlt_le_weak. assumption.
  - lra.
  - intros H. exfalso. exact (Hnr H).
Qed.

Lemma exit_right a b c d pa pb : nb a b c d -> 1 <= b <= m -> 1 <= d <= m -> m < b + d -> 1 <= c ->
  below a b -> above c d -> 1 <= pb <= m -> 0 <= pa -> below pa pb -> Z.gcd pa pb = 1 ->
  forall A B C D, answer_ok (farey_exit ratio (Farey A B C D pa pb c d)).
Proof.
  intros Hn Hb Hd Hbd Hc Hlo Hhi Hpb Hpa Hpl Hg A B C D.
  assert (Hcd : (dist ratio c d < 1 # Z.to_pos m)%Q).
  { rewrite dist_above by (try lia; assumption).
    pose proof (proj2 (frac_lt a b ltac:(lia)) Hlo).
    pose proof (nb_gap a b c d Hn ltac:(lia) ltac:(lia)).
    pose proof (gap_small b d ltac:(lia) ltac:(lia) Hbd). lra. }
  assert (Hnr := no_repr a b c d Hn ltac:(lia) ltac:(lia) Hbd Hlo Hhi).
  unfold farey_exit; cbn [fpa fpb fpc fpd].
  destruct (Z.eqb_spec d 0) as [|_]; [lia|].
  destruct (Qlt_le_dec _ _) as [Hlt|Hle]; rewrite <- !dist_frac in * by lia;
    unfold answer_ok; cbn [fst snd]; repeat split; try lia; try assumption.
  - eapply gcd_nb_r; eassumption.
  - right. eapply (best_above a b c d); try eassumption; try lia. apply Qle_refl.
  - lra.
  - intros H. exfalso. exact (Hnr H).
  - right. eapply (best_above a b c d); try eassumption; try lia.
  - lra.
  - intros H. exfalso. exact (Hnr H).
Qed.

Definition K := Qceiling ratio.
Definition measure (s : farey) : Z :=
  if fd s =? 0 then K - fa s + 2 * m + 3 else (m + 1 - fb s) + (m + 1 - fd s).

Lemma below_K x : below x 1 -> x < K.
Proof.
  intros H. apply frac_lt in H; [|lia]. rewrite Zlt_Qlt.
  eapply Qlt_le_trans; [|apply Qle_ceiling]. unfold frac in H.
  change (Z.to_pos 1) with 1%positive in H. exact H.
Qed.

Lemma farey_exit_any s : m < fb s \/ m < fd s -> forall f,
  farey_loop (S f) ratio eps m s = Some (farey_exit ratio s).
Proof.
  intros H f. destruct s as [a b c d pa pb pc pd]; cbn [farey_loop fb fd] in *.
  replace ((b <=? m) && (d <=? m))%bool with false by (destruct H; lia). reflexivity.
Qed.

Lemma loop_ok : forall k s, good s -> fb s <= m -> fd s <= m -> measure s <= Z.of_nat k ->
  forall fuel, (k < fuel)%nat -> exists r, farey_loop fuel ratio eps m s = Some r /\ answer_ok r.
Proof.
  induction k as [|k IH]; intros s G Hb Hd Hmeas fuel Hfuel.
  - exfalso. destruct G. unfold measure in Hmeas. destruct (Z.eqb_spec (fd s) 0) as [E|E]; [|lia].
    assert (fb s = 1) as E1. { unfold nb in g_nb0. rewrite E in g_nb0. assert (Hx : fb s * fc s = 1) by lia.
      apply Z.eq_mul_1_nonneg in Hx; lia. }
    rewrite E1 in g_lo0. apply below_K in g_lo0. lia.
  - destruct fuel as [|fuel]; [lia|].
    destruct s as [a b c d pa pb pc pd]. pose proof G as G'. destruct G' as [Gb Gd Ga Gc Gn Glo Ghi Gpb Gpd Gpa Gpc Gplo Gphi Gg1 Gg2].
    cbn [fa fb fc fd fpa fpb fpc fpd] in *.
    cbn [farey_loop]. replace ((b <=? m) && (d <=? m))%bool with true by lia.
    assert (Hbd0 : 0 < b + d) by lia.
    destruct (Qlt_le_dec (Qabs (ratio - frac (a + c) (b + d))) eps) as [He|He].
    { eexists; split; [reflexivity|].
      destruct (Z.leb_spec (b + d) m) as [Hle|Hgt].
      - rewrite <- dist_frac in He by assumption. unfold answer_ok; cbn [fst snd].
        repeat split; try lia; auto.
        + eapply (gcd_nb_l (a + c) (b + d) c d). unfold nb in *. lia.
        + assert (0 < 1 # Z.to_pos m)%Q by reflexivity. lra.
      - assert (Hd1 : 1 <= d) by lia.
        assert (Hnr := no_repr a b c d Gn ltac:(lia) ltac:(lia) Hgt Glo Ghi).
        pose proof (nb_gap a b c d Gn Gb Hd1). pose proof (gap_small b d Gb Hd1 Hgt).
        pose proof (proj2 (frac_gt c d ltac:(lia)) Ghi). pose proof (proj2 (frac_lt a b ltac:(lia)) Glo).
        destruct (Z.ltb_spec b d); unfold answer_ok; cbn [fst snd]; repeat split; try lia.
        + eapply gcd_nb_r; eassumption.
        + right. eapply (best_above a b c d); try eassumption; try lia. apply Qle_refl.
        + rewrite dist_above by (try lia; assumption). lra.
        + intros Hx. exfalso. exact (Hnr Hx).
        + eapply gcd_nb_l; eassumption.
        + right. eapply (best_below a b c d); try eassumption; try lia. apply Qle_refl.
        + rewrite dist_below by (try lia; assumption). lra.
        + intros Hx. exfalso. exact (Hnr Hx). }
    destruct (Qlt_le_dec (frac (a + c) (b + d)) ratio) as [Hl|Hl].
    + apply (frac_lt (a + c) (b + d) Hbd0) in Hl.
      destruct (Z_lt_le_dec m (b + d)) as [Hgt|Hle].
      * destruct fuel as [|fuel].
        { exfalso. destruct k; [|lia]. unfold measure in Hmeas; cbn [fa fb fc fd] in Hmeas.
          destruct (Z.eqb_spec d 0); lia. }
        eexists; split; [apply farey_exit_any; left; exact Hgt|].
        apply (exit_left a b c d); try assumption; lia.
      * apply IH; cbn [fa fb fc fd]; try lia.
        { constructor; cbn [fa fb fc fd fpa fpb fpc fpd]; try assumption; try lia.
          - unfold nb in *; lia.
          - eapply gcd_nb_l; eassumption. }
        unfold measure in *; cbn [fa fb fc fd] in *. destruct (Z.eqb_spec d 0); lia.
    + assert (Ha2 : above (c + a) (d + b)).
      { apply frac_gt; [lia|]. replace (c + a) with (a + c) by lia. replace (d + b) with (b + d) by lia.
        destruct (Qlt_le_dec ratio (frac (a + c) (b + d))) as [|Hle]; [assumption|exfalso].
        assert (E : (ratio == frac (a + c) (b + d))%Q) by lra.
        assert (E2 : (ratio - frac (a + c) (b + d) == 0)%Q) by lra. rewrite E2 in He. cbn in He. lra. }
      destruct (Z_lt_le_dec m (d + b)) as [Hgt|Hle].
      * destruct fuel as [|fuel].
        { exfalso. destruct k; [|lia]. unfold measure in Hmeas; cbn [fa fb fc fd] in Hmeas.
          destruct (Z.eqb_spec d 0) as [E|E]; [|lia].
          assert (b = 1) as E1. { unfold nb in Gn. rewrite E in Gn. assert (Hx : b * c = 1) by lia.
            apply Z.eq_mul_1_nonneg in Hx; lia. }
          rewrite E1 in Glo. apply below_K in Glo. lia. }
        eexists; split; [apply farey_exit_any; right; exact Hgt|].
        apply (exit_right a b c d); try assumption; lia.
      * apply IH; cbn [fa fb fc fd]; try lia.
        { constructor; cbn [fa fb fc fd fpa fpb fpc fpd]; try assumption; try lia.
          - unfold nb in *; lia.
          - eapply gcd_nb_r; eassumption. }
        unfold measure in *; cbn [fa fb fc fd] in *.
        destruct (Z.eqb_spec d 0) as [E|E]; destruct (Z.eqb_spec (d + b) 0); try lia.
        assert (b = 1) as E1. { unfold nb in Gn. rewrite E in Gn. assert (Hx : b * c = 1) by lia.
            apply Z.eq_mul_1_nonneg in Hx; lia. }
        rewrite E1 in Glo. apply below_K in Glo. lia.
Qed.

Lemma farey_ok : exists fuel0, forall fuel, (fuel0 <= fuel)%nat ->
  exists r, farey_loop fuel ratio eps m farey_init = Some r /\ answer_ok r.
Proof.
  exists (S (Z.to_nat (measure farey_init))). intros fuel Hf.
  apply (loop_ok (Z.to_nat (measure farey_init))); cbn [farey_init fb fd]; try lia.
  apply good_init.
Qed.
End farey.

(** The production limit: a run of 192000 steps to one side. *)
Lemma farey_run_left : forall j i, 1 <= i -> i + Z.of_nat j = 192000 ->
  farey_loop (S j) (99999999 # 100000000) farey_eps 192000 (Farey i (i + 1) 1 1 (i - 1) i 1 0) =
  Some (191999, 192000).
Proof.
  induction j as [|j IH]; intros i Hi Hj.
  - assert (i = 192000) as -> by lia. reflexivity.
  - remember (S j) as f eqn:Ef. cbn [farey_loop]. replace ((i + 1 <=? 192000) && (1 <=? 192000))%bool with true by lia.
    assert (Hgap : ((99999999 # 100000000) - frac (i + 1) (i + 1 + 1) ==
                   (1 # Z.to_pos (i + 1 + 1)) - (1 # 100000000))%Q).
    { unfold frac. assert (E : i + 1 = Zpos (Z.to_pos (i + 1 + 1)) - 1) by (rewrite Z2Pos.id by lia; lia).
      revert E. generalize (Z.to_pos (i + 1 + 1)). intros y ->. unfold Qeq, Qminus, Qplus, Qopp; cbn -[Z.mul Z.add Z.sub].
      rewrite ?Pos2Z.inj_mul, ?Pos2Z.opp_pos || idtac. nia. }
    assert (Hbig : ((1 # 192001) <= 1 # Z.to_pos (i + 1 + 1))%Q).
    { unfold Qle; cbn. rewrite Z2Pos.id by lia. lia. }
    assert (Hd : ((1 # 192001) - (1 # 100000000) <= (99999999 # 100000000) - frac (i + 1) (i + 1 + 1))%Q) by lra.
    assert (Hp : (0 < (1 # 192001) - (1 # 100000000))%Q) by reflexivity.
    assert (He : (farey_eps < (1 # 192001) - (1 # 100000000))%Q) by reflexivity.
    destruct (Qlt_le_dec (Qabs ((99999999 # 100000000) - frac (i + 1) (i + 1 + 1))) farey_eps) as [Hq|Hq].
    { exfalso. rewrite Qabs_pos in Hq by lra. lra. }
    destruct (Qlt_le_dec (frac (i + 1) (i + 1 + 1)) (99999999 # 100000000)) as [Hl|Hl]; [|exfalso; lra].
    replace (Farey (i + 1) (i + 1 + 1) 1 1 i (i + 1) 1 0) with
      (Farey (i + 1) (i + 1 + 1) 1 1 (i + 1 - 1) (i + 1) 1 0) by (f_equal; lia).
    subst f. apply IH; lia.
Qed.

Lemma farey_two_steps f : farey_loop (S (S f)) (99999999 # 100000000) farey_eps 192000 farey_init =
  farey_loop f (99999999 # 100000000) farey_eps 192000 (Farey 1 2 1 1 0 1 1 0).
Proof. reflexivity. Qed.

Lemma production_limit : exists fuel,
  pickNearestRational fuel (99999999 # 100000000) 192000 = Some (191999, 192000).
Proof.
  exists (S (S (S (Z.to_nat 191999)))). unfold pickNearestRational. rewrite farey_two_steps.
  apply (farey_run_left (Z.to_nat 191999) 1); lia.
Qed.
