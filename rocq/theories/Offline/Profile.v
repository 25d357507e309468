(** The stretch profile of a study pass meets the conditions for an exact output length. *)
From stdpp Require Import prelude.
From Coq Require Import ZArith QArith Qround Lia Lqa.
From Verif Require Import Base.Arith Faster.Model Faster.Core Faster.Chunks Faster.Stream Faster.Count.
From Verif Require Calculator.Model Calculator.Spec Calculator.Proofs Calculator.Bounds.
From Verif Require Import Offline.Model Faster.Count.
Local Open Scope Z_scope.

(** As Count.exact_profile, with one entry for each chunk or one less. *)
Lemma exact_profile' P N x0 : realtime P = false -> Qeq (pitchScale P) 1 -> after P = false -> before P = false ->
  window P mod 2 = 0 -> 0 < increment P -> 4 * increment P <= window P -> 0 <= N ->
  N / increment P <= zlen (increments P) <= N / increment P + 1 ->
  head (increments P) = Some x0 -> 2 * Z.abs x0 <= window P ->
  0 < rint (inject_Z N * timeRatio P) ->
  rint (inject_Z N * timeRatio P) <= absSum (increments P) <= rint (inject_Z N * timeRatio P) + window P / 2 ->
  Forall (fun x => Z.abs x <= rint (inject_Z N * timeRatio P)) (increments P) ->
  increment P <= rint (inject_Z N * timeRatio P) -> exact P N.
Proof.
  intros Hrt Hp Ha Hb Hev Hi Hw HN Hlen H0 Hx0 Hpos Hsum Hall Hlast.
  assert (Hq : 0 <= N / increment P) by (apply Z.div_pos; lia). pose proof (Z.div_mod (window P) 2) as Hdm.
  assert (Hl0 : 0 < zlen (increments P)).
  { destruct (increments P); [done|]. rewrite zlen_cons. pose proof (zlen_nonneg l). lia. }
  constructor; try done; try lia.
  - intros j Hj. unfold stepAt, shiftAt, phaseAt.
    assert (0 <= entryOf P j < zlen (increments P)) as He.
    { unfold entryOf. destruct (Z.eqb_spec (zlen (increments P)) 0); lia. }
    replace (entryOf P j) with (Z.of_nat (Z.to_nat (entryOf P j))) by lia.
    replace (Z.of_nat (Z.to_nat (entryOf P j)) + 1) with (Z.of_nat (Datatypes.S (Z.to_nat (entryOf P j)))) by lia.
    rewrite !getZ_lookup. rewrite Forall_lookup in Hall.
    destruct (increments P !! Datatypes.S _) eqn:E; [by eapply Hall|].
    unfold zlen in He. destruct (lookup_lt_is_Some_2 (increments P) (Z.to_nat (entryOf P j)) ltac:(lia)) as [y Hy]. rewrite Hy. by eapply Hall.
  - intros k Hk Hle. assert (k + 1 <= N / increment P).
    { apply Z.div_le_lower_bound; [lia|]. assert (2 * increment P <= window P / 2) by (apply Z.div_le_lower_bound; lia). lia. }
    unfold zlen in Hlen. pose proof (steps_full P x0 H0 (Z.to_nat k) ltac:(lia)) as Hs.
    pose proof (absSum_take_le (increments P) (Datatypes.S (Z.to_nat k))). lia.
  - unfold zlen in Hlen, Hl0. destruct (Z.eq_dec (Z.of_nat (length (increments P))) (N / increment P + 1)) as [El|El].
    + pose proof (steps_full P x0 H0 (Z.to_nat (N / increment P)) ltac:(lia)) as Hs.
      rewrite take_ge in Hs by lia. lia.
    + pose proof (steps_full P x0 H0 (Z.to_nat (N / increment P) - 1)%nat ltac:(lia)) as Hs.
      rewrite take_ge in Hs by lia.
      assert (Es : steps P (Z.to_nat (N / increment P)) = steps P (Z.to_nat (N / increment P) - 1)%nat + stepAt P (Z.of_nat (Z.to_nat (N / increment P) - 1))).
      { destruct (Z.to_nat (N / increment P)) as [|n] eqn:En; [lia|]. cbn [steps]. replace (Datatypes.S n - 1)%nat with n by lia. done. }
      assert (0 <= stepAt P (Z.of_nat (Z.to_nat (N / increment P) - 1))).
      { unfold stepAt, shiftAt, phaseAt. destruct (getZ _ _); [lia|]. destruct (getZ _ _); lia. }
      lia.
Qed.

(** ** Phase resets in silence change signs only *)
Lemma hush_abs limit : forall sil l h, Z.abs <$> hush limit sil l h = Z.abs <$> l.
Proof.
  induction sil as [|s sil IH]; intros [|x l] h; try done. cbn [hush]. rewrite !fmap_cons. rewrite IH. f_equal. destruct (_ && _); lia.
Qed.
Lemma abs_len (l l' : list Z) : Z.abs <$> l = Z.abs <$> l' -> zlen l = zlen l'.
Proof. intros H. unfold zlen. rewrite <- (fmap_length Z.abs l), H, fmap_length. done. Qed.
Lemma abs_head (l l' : list Z) x : Z.abs <$> l = Z.abs <$> l' -> head l = Some x -> exists y, head l' = Some y /\ Z.abs y = Z.abs x.
Proof. destruct l as [|a l], l' as [|b l']; try discriminate. rewrite !fmap_cons. intros [= E _] [= ->]. by exists b. Qed.
Lemma abs_all (l l' : list Z) T : Z.abs <$> l = Z.abs <$> l' -> Forall (fun x => Z.abs x <= T) l' -> Forall (fun x => Z.abs x <= T) l.
Proof.
  intros H Hl'. assert (H1 : Forall (fun x => x <= T) (Z.abs <$> l')) by (rewrite Forall_fmap; exact Hl').
  rewrite <- H in H1. rewrite Forall_fmap in H1. exact H1.
Qed.

(** Stretch ratios and onsets for which the profile has an entry for each chunk, or one less:
    lengthening; no hard onsets; or hard onsets far enough apart for the shortened chunks. *)
Definition roomyRatio (rate incr : Z) (hp : bool) (t : Q) : Prop :=
  ((1 <= t)%Q /\ 2 <= incr) \/ hp = false \/
  exists s, 1 <= s <= 4 /\ 20 * incr * (s - 1) < rate /\ (inject_Z incr + 1 < inject_Z s * (inject_Z incr * t - (1 # 2)))%Q.

Lemma profile_exact P N rate hp df sil limit : 1 <= rate ->
  realtime P = false -> Qeq (pitchScale P) 1 -> after P = false -> before P = false ->
  window P mod 2 = 0 -> 1 <= increment P -> 4 * increment P <= window P ->
  (inject_Z (4 * increment P) * timeRatio P <= inject_Z (window P))%Q ->
  4 * increment P <= N -> (3 <= inject_Z (increment P) * timeRatio P)%Q -> (inject_Z (increment P) <= inject_Z N * timeRatio P)%Q ->
  roomyRatio rate (increment P) hp (timeRatio P) ->
  zlen df = N / increment P + 1 ->
  forall l, Calculator.Model.calculate (Calculator.Model.create rate (increment P) hp) (timeRatio P) df = Some l ->
  increments P = hush limit sil l 0 -> exact P N.
Proof.
  intros Hrate Hrt Hp Ha Hb Hev Hi Hw Hwt HN Hit HNt Hroom Hdf l E Hincs.
  set (i := increment P) in *. set (t := timeRatio P) in *. set (M := N / i + 1) in *.
  set (c := Calculator.Model.create rate i hp) in *.
  assert (Hti : (0 <= t)%Q).
  { destruct (Qlt_le_dec t 0) as [Hlt|]; [|done]. exfalso.
    assert (0 < inject_Z i)%Q by (change 0%Q with (inject_Z 0); rewrite <- Zlt_Qlt; lia). nra. }
  assert (Hiq : (0 < inject_Z i)%Q) by (change 0%Q with (inject_Z 0); rewrite <- Zlt_Qlt; lia).
  pose proof (Z.div_mod N i ltac:(lia)) as Hdm. pose proof (Z.mod_pos_bound N i ltac:(lia)) as Hmb.
  assert (HM : 5 <= M). { unfold M. assert (4 <= N / i) by (apply Z.div_le_lower_bound; lia). lia. }
  destruct (Calculator.Proofs.calculate_total c Hrate Hi t Hti df [] eq_refl ltac:(split; [done|constructor]) l E) as [Htot Hle].
  destruct (Calculator.Bounds.calculate_bound c Hrate Hi t Hti df eq_refl l ltac:(lia) E) as [Hbnd Hhead].
  assert (Hlen : M - 1 <= zlen l).
  { destruct Hroom as [[Ht1 Hi2]|[->|(s & Hs & Hgap & Hsr)]].
    - rewrite (Calculator.Proofs.plain_full c Hrate Hi t Hti df eq_refl l (or_introl (conj Ht1 Hi2)) E). lia.
    - rewrite (Calculator.Proofs.plain_full c Hrate Hi t Hti df eq_refl l); [lia| |done]. right. split; [done|]. cbn. fold i. lra.
    - pose proof (Calculator.Bounds.calculate_length c Hrate Hi t Hti df eq_refl s l ltac:(lia) Hs Hgap) as H.
      rewrite Hdf in H. fold i in H. apply H; [|done|done]. cbn. fold i. lra. }
  set (out := Calculator.Model.output_duration c t df) in *.
  assert (Eout : out = rint (inject_Z (M * i) * t)) by (unfold out, Calculator.Model.output_duration; cbn; rewrite Hdf; done).
  set (T := rint (inject_Z N * t)).
  assert (HMi : M * i = N - N mod i + i) by (unfold M; lia).
  destruct (rint_near (inject_Z (M * i) * t)) as [O1 O2]. rewrite <- Eout in O1, O2.
  destruct (rint_near (inject_Z N * t)) as [T1 T2]. fold T in T1, T2.
  assert (HMN : (inject_Z N <= inject_Z (M * i))%Q) by (rewrite <- Zle_Qle; lia).
  assert (HMN2 : (inject_Z (M * i) <= inject_Z N + inject_Z i)%Q) by (rewrite <- inject_Z_plus, <- Zle_Qle; lia).
  assert (H4i : (4 * inject_Z i <= inject_Z N)%Q) by (change 4%Q with (inject_Z 4); rewrite <- inject_Z_mult, <- Zle_Qle; lia).
  assert (H4it : (4 * (inject_Z i * t) <= inject_Z N * t)%Q) by nra.
  assert (HiT : i <= T) by (rewrite <- (rint_Z i); by apply rint_le).
  assert (HTo : T <= out) by (rewrite Eout; apply rint_le; nra).
  set (x := (inject_Z i * t)%Q) in *. set (m := inject_Z M).
  assert (Hm5 : (5 <= m)%Q) by (unfold m; change 5%Q with (inject_Z 5); rewrite <- Zle_Qle; lia).
  assert (HMx : (inject_Z (M * i) * t == m * x)%Q) by (unfold m, x; rewrite inject_Z_mult; ring).
  rewrite HMx in O1, O2.
  assert (HNx : (m * x <= inject_Z N * t + x)%Q) by (rewrite <- HMx; unfold x; nra).
  assert (Hw2 : (2 * x <= inject_Z (window P / 2))%Q).
  { assert (Ew : window P = 2 * (window P / 2)) by (pose proof (Z.div_mod (window P) 2); lia).
    rewrite Ew in Hwt. rewrite !inject_Z_mult in Hwt. change (inject_Z 4) with 4%Q in Hwt. change (inject_Z 2) with 2%Q in Hwt.
    assert (4 * inject_Z i * t == 4 * x)%Q by (unfold x; ring). lra. }
  assert (HoT : out <= T + window P / 2).
  { rewrite Zle_Qle, inject_Z_plus. lra. }
  assert (Hbig : forall y b, 0 <= b -> Z.abs y * M <= b * out + 2 * M -> (inject_Z (Z.abs y) <= inject_Z b * x + 2 + inject_Z b * (1 # 10))%Q).
  { intros y b Hb0 Hy. rewrite Zle_Qle, inject_Z_plus, !inject_Z_mult in Hy. fold m in Hy. change (inject_Z 2) with 2%Q in Hy.
    assert (0 <= inject_Z b)%Q by (change 0%Q with (inject_Z 0); rewrite <- Zle_Qle; lia).
    set (q := inject_Z b) in *. set (z := inject_Z (Z.abs y)) in *.
    assert (z * m <= q * (m * x + (1 # 2)) + 2 * m)%Q by nra.
    destruct (Qlt_le_dec (q * x + 2 + q * (1 # 10)) z) as [Hlt|]; [|done]. exfalso. nra. }
  pose proof (hush_abs limit sil l 0) as Habs. rewrite <- Hincs in Habs.
  assert (Hne : exists y : Z, head l = Some y).
  { destruct l as [|y l']; [|by eexists]. rewrite (@zlen_nil Z) in Hlen. lia. }
  destruct Hne as [y0 Hy0]. destruct (abs_head l (increments P) y0 (eq_sym Habs) Hy0) as (x0 & Hx0 & Ex0).
  pose proof (abs_len _ _ Habs) as Hlen'.
  apply (exact_profile' P N x0); try done; try lia.
  - fold i. unfold M in *. lia.
  - rewrite Ex0. destruct (Hhead y0 Hy0) as [H|[_ H]].
    + specialize (Hbig y0 1 ltac:(lia)). rewrite Z.mul_1_l in Hbig. rewrite Hdf in H. specialize (Hbig H). change (inject_Z 1) with 1%Q in Hbig.
      rewrite Zle_Qle, inject_Z_mult. change (inject_Z 2) with 2%Q.
      assert (inject_Z (window P / 2) * 2 == inject_Z (window P))%Q.
      { change 2%Q with (inject_Z 2). rewrite <- inject_Z_mult. f_equiv. pose proof (Z.div_mod (window P) 2). lia. }
      lra.
    + cbn in H. fold i in H. lia.
  - fold t T. lia.
  - fold t T. unfold absSum. rewrite Habs. change (T <= Calculator.Spec.frames l <= T + window P / 2). lia.
  - fold t T. apply (abs_all _ _ _ Habs). eapply Forall_impl; [exact Hbnd|]. cbv beta. intros y [H|[_ H]].
    + rewrite Hdf in H. specialize (Hbig y 2 ltac:(lia) H). change (inject_Z 2) with 2%Q in Hbig. rewrite Zle_Qle. lra.
    + cbn in H. fold i in H. lia.
Qed.
