(** Proofs about [calculate]: lengths and sums. *)
From stdpp Require Import prelude.
From Coq Require Import ZArith QArith Qround Qfield Lia Lqa.
From Verif.Base Require Import Arith.
From Verif.Calculator Require Import Model Spec.
Local Open Scope Z_scope.

Lemma frames_app l k : frames (l ++ k) = frames l + frames k.
Proof. unfold frames. by rewrite fmap_app, sumZ_app. Qed.
Lemma frames_nonneg l : Forall (fun x => 0 <= x) l -> frames l = sumZ l.
Proof.
  unfold frames, sumZ. induction 1 as [|x l Hx Hl IH]; cbn [fmap list_fmap foldr]; [done|].
  rewrite IH. lia.
Qed.

Definition settled (per acc : Q) (total : Z) : Prop :=
  (- (1 # 2) <= acc - inject_Z total)%Q /\ (acc - inject_Z total < 1 # 2)%Q /\
  (per == 0 -> acc == inject_Z total)%Q.

Lemma spread_ok n : forall per acc total, (0 <= per)%Q -> settled per acc total ->
  exists l total', spread n per acc total = Some (l, total') /\ length l = n /\
    Forall (fun x => 0 <= x) l /\ sumZ l = total' - total /\
    settled per (acc + inject_Z (Z.of_nat n) * per)%Q total'.
Proof.
  induction n as [|n IH]; intros per acc total Hp (H1 & H2 & H3).
  - exists [], total. split_and!; try done.
    + cbn. lia.
    + unfold settled. change (inject_Z (Z.of_nat 0)) with 0%Q. split_and!; lra.
  - set (d := (acc + per - inject_Z total)%Q).
    assert (Hd : (- (1 # 2) < d)%Q).
    { unfold d. destruct (Qlt_le_dec 0 per) as [|Hz]; [lra|]. assert (per == 0)%Q as E by lra. specialize (H3 E). lra. }
    assert (Hk : 0 <= cround d) by by apply cround_nonneg.
    assert (Hs : settled per (acc + per) (total + cround d)).
    { unfold settled. rewrite inject_Z_plus. destruct (cround_near d) as [Ha Hb]. split_and!.
      - unfold d in *. lra.
      - destruct (Qlt_le_dec d 0) as [Hneg|Hpos].
        + unfold d in *. assert (0 <= inject_Z (cround (acc + per - inject_Z total)))%Q; [|lra].
          change 0%Q with (inject_Z 0). by rewrite inject_Z_inj_le.
        + apply cround_upper in Hpos. unfold d in *. lra.
      - intros E. specialize (H3 E).
        assert (Hd0 : (d == 0)%Q) by (unfold d; lra).
        assert (cround d = 0) as ->.
        { destruct (cround_near d). apply Z.le_antisymm; apply Q_lt_Z; change (inject_Z 0) with 0%Q; lra. }
        change (inject_Z 0) with 0%Q. unfold d in Hd0. lra. }
    destruct (IH per _ _ Hp Hs) as (l & t & E & Hl & Hf & Hsum & Hset).
    exists (cround d :: l), t. cbn [spread]. fold d. destruct (Z.ltb_spec (cround d) 0); [lia|].
    rewrite E. cbn [mbind option_bind]. split_and!; try done.
    + cbn. lia.
    + by constructor.
    + change (sumZ (cround d :: l)) with (cround d + sumZ l). lia.
    + destruct Hset as (Hx & Hy & Hz). unfold settled. rewrite Nat2Z.inj_succ, <- Z.add_1_l, inject_Z_plus.
      change (inject_Z 1) with 1%Q. split_and!; try lra.
Qed.

(** What is left of a region once its phase reset is dealt with. *)
Definition first_of (m_increment d n : Z) (r : bool) : Z :=
  if r then (if 1 <? n then Z.min m_increment d else d) else 0.
Definition rest_of (n : Z) (r : bool) : Z := if r then n - 1 else n.
(** The region has one increment for every chunk. *)
Definition roomy (m_increment d n : Z) (r : bool) : bool :=
  (rest_of n r =? 0) || (rest_of n r <? 2 * (d - first_of m_increment d n r)).

Lemma region_ok m d n r : 0 <= m -> 0 <= d -> 1 <= n ->
  exists l, region m d n r = Some l /\ frames l = d /\
    zlen l = (if roomy m d n r then n else n - 1) /\
    (forall k x, getZ l k = Some x -> x < 0 -> r = true /\ k = 0 /\ x = - first_of m d n r) /\
    (r = true -> getZ l 0 = Some (- first_of m d n r)).
Proof.
  intros Hm Hd Hn. unfold region. destruct (Z.eqb_spec n 0); [lia|].
  fold (first_of m d n r). fold (rest_of n r).
  assert (Hf : 0 <= first_of m d n r <= d) by (unfold first_of; destruct r; [destruct (1 <? n)|]; lia).
  assert (Hr : 0 <= rest_of n r) by (unfold rest_of; destruct r; lia).
  assert (Hpre : frames (if r then [- first_of m d n r] else []) = first_of m d n r).
  { unfold first_of. destruct r; [|done]. unfold frames. cbn. destruct (1 <? n); lia. }
  assert (Hlen : zlen (if r then [- first_of m d n r] else []) = n - rest_of n r).
  { unfold rest_of. destruct r; rewrite ?zlen_cons, zlen_nil; lia. }
  destruct (Z.ltb_spec 0 (rest_of n r)) as [Hpos|Hz].
  - set (per := (inject_Z (d - first_of m d n r) / inject_Z (rest_of n r))%Q).
    assert (HrQ : (0 < inject_Z (rest_of n r))%Q) by (change 0%Q with (inject_Z 0); by rewrite inject_Z_inj_lt).
    assert (Hper : (per * inject_Z (rest_of n r) == inject_Z (d - first_of m d n r))%Q).
    { unfold per. field. lra. }
    assert (Hper0 : (0 <= per)%Q).
    { apply Qle_shift_div_l; [done|]. rewrite Qmult_0_l. change 0%Q with (inject_Z 0). rewrite inject_Z_inj_le. lia. }
    destruct (spread_ok (Z.to_nat (rest_of n r - 1)) per (inject_Z (first_of m d n r)) (first_of m d n r) Hper0)
      as (l & t & E & Hl & Hnn & Hsum & (Ha & Hb & _)).
    { unfold settled. split_and!; try lra. }
    rewrite E. cbn [mbind option_bind]. eexists. split; [done|].
    rewrite Z2Nat.id in Ha, Hb by lia.
    replace (rest_of n r - 1) with (rest_of n r + - 1) in Ha, Hb by lia. rewrite inject_Z_plus in Ha, Hb.
    change (inject_Z (-1)) with (-(1))%Q in Ha, Hb.
    assert (Hx : ((inject_Z (rest_of n r) + - (1)) * per == inject_Z (d - first_of m d n r) - per)%Q)
      by (rewrite <- Hper; ring).
    rewrite Hx in Ha, Hb. unfold Z.sub in Ha, Hb. rewrite inject_Z_plus, inject_Z_opp in Ha, Hb.
    assert (Ht : t <= d) by (apply Q_lt_Z; lra).
    assert (Hroom : (t <? d) = roomy m d n r).
    { unfold roomy. destruct (Z.eqb_spec (rest_of n r) 0); [lia|]. cbn [orb]. apply eq_iff_eq_true.
      rewrite !Z.ltb_lt, <- (inject_Z_inj_lt (rest_of n r)), inject_Z_mult, <- Hper. change (inject_Z 2) with 2%Q.
      split; intros Hlt.
      - assert (Hlt2 : t + 1 <= d) by lia. rewrite <- inject_Z_inj_le, inject_Z_plus in Hlt2.
        change (inject_Z 1) with 1%Q in Hlt2. assert (1 # 2 < per)%Q by lra. nra.
      - assert (1 # 2 < per)%Q by nra. assert (t <> d); [|lia]. intros ->. lra. }
    assert (Hsgn : forall k x, getZ (l ++ (if t <? d then [d - t] else [])) k = Some x -> 0 <= x).
    { intros k x Hk. assert (Hall : Forall (fun x => 0 <= x) (l ++ (if t <? d then [d - t] else []))).
      { apply Forall_app. split; [done|]. destruct (t <? d); [|done]. constructor; [lia|done]. }
      unfold getZ in Hk. destruct (0 <=? k); [|done]. eapply Forall_lookup_1 in Hall; [|exact Hk]. done. }
    split_and!.
    + rewrite !frames_app, Hpre, (frames_nonneg l Hnn), Hsum.
      destruct (Z.ltb_spec t d); unfold frames; cbn; lia.
    + rewrite !zlen_app, Hlen. unfold zlen at 1. rewrite Hl, Z2Nat.id by lia. rewrite Hroom.
      destruct (roomy m d n r); rewrite ?zlen_cons, zlen_nil; lia.
    + intros k x Hk Hneg. destruct r; cbn [app] in Hk.
      * unfold getZ in Hk. destruct (Z.leb_spec 0 k); [|done].
        destruct (Z.eq_dec k 0) as [->|]; [by injection Hk as <-|].
        assert (0 <= x); [|lia]. apply (Hsgn (k - 1)). unfold getZ. destruct (Z.leb_spec 0 (k - 1)); [|lia].
        replace (Z.to_nat k) with (S (Z.to_nat (k - 1))) in Hk by lia. exact Hk.
      * apply Hsgn in Hk. lia.
    + intros ->. done.
  - assert (Hz0 : rest_of n r = 0) by lia.
    assert (r = true /\ n = 1) as [-> ->].
    { destruct r; change (rest_of n true) with (n - 1) in *; change (rest_of n false) with n in *; [split; [done|lia]|lia]. }
    exists [- first_of m d 1 true]. split; [done|]. split_and!.
    + rewrite Hpre. done.
    + unfold roomy. rewrite Hz0. done.
    + intros k x Hk _. pose proof (getZ_some _ _ _ Hk) as Hkr. change (0 <= k < 1) in Hkr. assert (k = 0) as -> by lia.
      injection Hk as <-. done.
    + done.
Qed.

Lemma region_empty m d r : region m d 0 r = Some [].
Proof. done. Qed.

(** A list of fixed points the region loop can follow. *)
Fixpoint chain (out total sc s : Z) (pts : list (peak * Z)) : Prop :=
  match pts with
  | [] => sc <= total /\ (sc = total -> Z.min s out = out)
  | (p, t) :: r =>
    sc <= chunk p /\ chunk p <= total /\ s <= t /\ (sc = chunk p -> Z.min s out = Z.min t out) /\
    chain out total (chunk p) t r
  end.
(** All regions have one increment for every chunk. *)
Fixpoint all_roomy (m out total sc s : Z) (r : bool) (pts : list (peak * Z)) : Prop :=
  match pts with
  | [] => sc < total -> roomy m (out - Z.min s out) (total - sc) r = true
  | (p, t) :: q =>
    (sc < chunk p -> roomy m (Z.min t out - Z.min s out) (chunk p - sc) r = true) /\
    all_roomy m out total (chunk p) t (hard p) q
  end.

Lemma take_zlen {A} (l k : list A) n : Z.to_nat n = length l -> take (Z.to_nat n) (l ++ k) = l.
Proof. intros ->. apply take_app. Qed.

Lemma regions_ok m out total : 0 <= m -> 0 <= out -> forall pts sc s r,
  0 <= s -> chain out total sc s pts ->
  exists l, regions m out total sc s r pts = Some l /\ frames l = out - Z.min s out /\
    zlen l <= total - sc /\
    (zlen l = total - sc <-> all_roomy m out total sc s r pts) /\
    (all_roomy m out total sc s r pts ->
      (forall p t, In (p, t) pts -> start_of l (chunk p - sc) = Z.min t out - Z.min s out) /\
      (forall k x, getZ l k = Some x -> x < 0 ->
         (r = true /\ k = 0) \/ exists p t, In (p, t) pts /\ hard p = true /\ chunk p = sc + k)).
Proof.
  intros Hm Hout. induction pts as [|[p t] pts IH]; intros sc s r Hs Hc; cbn [chain regions] in *.
  - destruct Hc as [H1 H2].
    replace (Z.min sc total) with sc by lia.
    replace (Z.max (Z.min total total) sc) with total by lia.
    replace (Z.max (Z.min out out) (Z.min s out)) with out by lia.
    destruct (Z.eq_dec sc total) as [->|Hne].
    + rewrite Z.sub_diag, region_empty. cbn [mbind option_bind]. exists []. split; [done|].
      specialize (H2 eq_refl). change (frames []) with 0. change (zlen []) with 0.
      split; [lia|]. split; [lia|]. split.
      * cbn [all_roomy]. split; [lia|intros _; lia].
      * intros _. split; [done|]. intros k x Hk. apply getZ_some in Hk. change (zlen []) with 0 in Hk. lia.
    + destruct (region_ok m (out - Z.min s out) (total - sc) r Hm) as (l & E & Hf & Hz & Hneg & _); [lia..|].
      rewrite E. cbn [mbind option_bind]. exists l. split; [done|].
      split; [done|]. split; [destruct (roomy _ _ _ _); lia|]. split.
      * cbn [all_roomy]. rewrite Hz. destruct (roomy _ _ _ _); split; intros H; try done; try lia.
      * intros _. split; [done|]. intros k x Hk Hx. destruct (Hneg k x Hk Hx) as (-> & -> & _). by left.
  - destruct Hc as (H1 & H2 & H3 & H4 & Hc).
    replace (Z.min sc total) with sc by lia.
    replace (Z.max (Z.min (chunk p) total) sc) with (chunk p) by lia.
    replace (Z.max (Z.min t out) (Z.min s out)) with (Z.min t out) by lia.
    destruct (IH (chunk p) t (hard p) ltac:(lia) Hc) as (k & Ek & Hfk & Hzk & Hrk & Hallk).
    rewrite Ek. destruct (Z.eq_dec sc (chunk p)) as [Heq|Hne].
    + specialize (H4 Heq). rewrite Heq, Z.sub_diag, region_empty. cbn [mbind option_bind app].
      exists k. split; [done|]. split; [lia|]. split; [lia|]. split.
      * cbn [all_roomy]. rewrite Hrk. split; [intros; split; [lia|done]|intros [_ H]; done].
      * cbn [all_roomy]. intros [_ Hall]. destruct (Hallk Hall) as [Hpos Hsg]. split.
        -- intros p' t' [[= <- <-]|Hin]; [rewrite Z.sub_diag; change (start_of k 0) with 0; lia|].
           rewrite (Hpos p' t' Hin). lia.
        -- intros i x Hi Hx. destruct (Hsg i x Hi Hx) as [(Hh & ->)|(p' & t' & Hin & Hh & Hch)].
           ++ right. exists p, t. split_and!; [by left|done|lia].
           ++ right. exists p', t'. split_and!; [by right|done|lia].
    + destruct (region_ok m (Z.min t out - Z.min s out) (chunk p - sc) r Hm) as (l & E & Hf & Hz & Hneg & _); [lia..|].
      rewrite E. cbn [mbind option_bind]. exists (l ++ k). split; [done|].
      rewrite frames_app, zlen_app, Hf, Hfk, Hz. split; [lia|]. split; [destruct (roomy _ _ _ _); lia|]. split.
      * cbn [all_roomy]. rewrite <- Hrk. destruct (roomy _ _ _ _).
        -- split; [intros H; split; [done|lia]|intros [_ H]; lia].
        -- split; [intros H; lia|intros [H _]; specialize (H ltac:(lia)); done].
      * cbn [all_roomy]. intros [Hr Hall]. specialize (Hr ltac:(lia)). rewrite Hr in Hz.
        destruct (Hallk Hall) as [Hpos Hsg]. unfold zlen in Hz. split.
        -- intros p' t' [[= <- <-]|Hin].
           ++ unfold start_of. rewrite take_zlen by lia. done.
           ++ specialize (Hpos p' t' Hin). unfold start_of in *.
              assert (chunk p <= chunk p') as Hle.
              { clear -Hc Hin. revert Hc Hin. generalize (chunk p) t. induction pts as [|[q u] pts IH]; intros c0 t0 Hc Hin; [done|].
                cbn [chain] in Hc. destruct Hc as (? & ? & ? & ? & Hc). destruct Hin as [[= <- <-]|Hin]; [lia|].
                specialize (IH _ _ Hc Hin). lia. }
              replace (Z.to_nat (chunk p' - sc)) with (length l + Z.to_nat (chunk p' - chunk p))%nat by lia.
              rewrite firstn_app_2. rewrite frames_app. lia.
        -- intros i x Hi Hx. pose proof (getZ_some _ _ _ Hi) as Hir. rewrite zlen_app in Hir. unfold zlen in Hir.
           unfold getZ in Hi. destruct (Z.leb_spec 0 i); [|done].
           destruct (Z_lt_ge_dec i (chunk p - sc)) as [Hlt|Hge].
           ++ rewrite lookup_app_l in Hi by lia.
              destruct (Hneg i x) as (-> & -> & _); [unfold getZ; destruct (Z.leb_spec 0 i); [done|lia]|done|]. by left.
           ++ rewrite lookup_app_r in Hi by lia.
              destruct (Hsg (i - (chunk p - sc)) x) as [(Hh & Hi0)|(p' & t' & Hin & Hh & Hch)].
              { unfold getZ. destruct (Z.leb_spec 0 (i - (chunk p - sc))); [|lia]. rewrite <- Hi. f_equal. lia. }
              { done. }
              ** right. exists p, t. split_and!; [by left|done|lia].
              ** right. exists p', t'. split_and!; [by right|done|lia].
Qed.
