(** Proofs about [calculate]. *)
From stdpp Require Import prelude.
From Coq Require Import ZArith QArith Qround Qfield Lia Lqa Sorting.Sorted ZifyBool.
From Verif.Base Require Import Arith.
From Verif.Calculator Require Import Model Spec Regions Peaks Maps.
Local Open Scope Z_scope.

Lemma before_chunk rate incr ps : StronglySorted (before rate incr) ps -> StronglySorted (fun a b => chunk a < chunk b) ps.
Proof.
  induction 1 as [|p ps Hs IH Hp]; constructor; [done|]. eapply Forall_impl; [exact Hp|]. intros q [H _]. exact H.
Qed.

Lemma with_zero_ok incr m : 1 <= incr -> admissible incr m -> admissible incr (with_zero m) /\
  match with_zero m with [] => m = [] | st :: _ => st = (0, 0) end.
Proof.
  intros Hi [Hinc Hall]. destruct m as [|[s t] m]; [done|]. cbn [with_zero].
  pose proof Hall as Hall0. apply Forall_cons_1 in Hall as [[[= -> ->]|[H1 H2]] Hm].
  - cbn. done.
  - cbn in H1, H2. destruct (Z.eqb_spec s 0) as [->|Hs]; [lia|]. split; [|done]. split.
    + cbn [increasing]. split; [lia|]. exact Hinc.
    + constructor; [by left|done].
Qed.

Lemma increasing_nonneg incr m : 1 <= incr -> admissible incr m -> Forall (fun st => 0 <= fst st /\ 0 <= snd st) m.
Proof.
  intros Hi [_ H]. eapply Forall_impl; [exact H|]. intros [s t] [[= -> ->]|[H1 H2]]; cbn in *; lia.
Qed.

Section calculate.
  Context (c : calc) (Hrate : 1 <= sampleRate c) (Hincr : 1 <= increment c).
  Context (ratio : Q) (Hratio : (0 <= ratio)%Q) (df : list Q).
  Let out := output_duration c ratio df.
  Let N := zlen df.

  Lemma out_nonneg : 0 <= out.
  Proof using Hincr Hratio.
    unfold out, output_duration. apply rint_nonneg.
    assert (0 <= inject_Z (zlen df * increment c))%Q.
    { change 0%Q with (inject_Z 0). rewrite inject_Z_inj_le. pose proof (zlen_nonneg df). nia. }
    nra.
  Qed.
  Lemma out_ratio : (inject_Z N * (inject_Z (increment c) * ratio) <= inject_Z out + (1 # 2))%Q.
  Proof using Type.
    unfold out, output_duration. destruct (rint_near (inject_Z (zlen df * increment c) * ratio)) as [_ H].
    rewrite inject_Z_mult in H. fold N in H. unfold N in *. rewrite inject_Z_mult. lra.
  Qed.

  (** The empty study. *)
  Lemma points_empty ps : N = 0 -> findPeaks c df = Some ps -> ps = [].
  Proof using Hrate Hincr ratio.
    intros H0 E. destruct (findPeaks_ok c Hrate Hincr df ps E) as (_ & Hr & _). destruct ps as [|p ps]; [done|].
    apply Forall_cons_1 in Hr as [H _]. fold N in H. lia.
  Qed.

  (** Fixed points for the regions, with and without key frames. *)
  Lemma points_plain ps : keyFrameMap c = [] -> findPeaks c df = Some ps -> 0 < N ->
    mapPeaks (increment c) (keyFrameMap c) ps out N = Some ((fun p => (p, tgt out N (chunk p))) <$> ps) /\
    chain out N 0 0 ((fun p => (p, tgt out N (chunk p))) <$> ps).
  Proof using Hrate Hincr Hratio.
    intros Hk E HN. rewrite Hk. split; [done|].
    destruct (findPeaks_ok c Hrate Hincr df ps E) as (Hs & Hr & _).
    rewrite <- (tgt_0 out N HN) at 2. apply plain_chain; [apply out_nonneg|done|lia|by eapply before_chunk|].
    fold N in Hr. eapply Forall_impl; [exact Hr|]. intros p Hp. cbv beta in *. lia.
  Qed.

  Lemma points_keyed ps m : keyFrameMap c = with_zero m -> admissible (increment c) m -> m <> [] ->
    findPeaks c df = Some ps -> 0 < N ->
    exists pts, mapPeaks (increment c) (keyFrameMap c) ps out N = Some pts /\ chain out N 0 0 pts /\
      (forall s t m' pre, with_zero m = pre ++ (s, t) :: m' -> followed (increment c) out N ((s, t) :: m') = true ->
         exists b, In b pts /\ chunk b.1 = s / increment c /\ b.2 = t).
  Proof using Hrate Hincr Hratio.
    intros Hk Hm Hne E HN. rewrite Hk. destruct (with_zero_ok _ _ Hincr Hm) as [Ha Hz].
    destruct (findPeaks_ok c Hrate Hincr df ps E) as (Hs & Hr & _).
    destruct (with_zero m) as [|[s0 t0] m0] eqn:Ew; [done|]. injection Hz as -> ->.
    destruct (map_loop_ok (increment c) Hincr out N ((0, 0) :: m0) ps []) as (pts & E' & H1 & H2 & _ & H4 & H5);
      [by destruct Ha|by eapply before_chunk|exact Hr|constructor|constructor| |].
    { split; [lia|]. split; [lia|]. constructor. }
    exists pts. split; [exact E'|]. split; [|exact H4].
    apply keyed_chain; [done|done|done| |].
    { eapply Forall_impl; [exact H2|]. intros a [H _]. exact H. }
    destruct pts as [|[p t] pts]; [done|]. apply Forall_cons_1 in H2 as [[Hp Ht] _]. cbn in Hp, Ht.
    split; [lia|]. split; [done|]. intros H0. destruct (H5 (p, t) ltac:(by left)) as [[]|[(a & [] & _)|(_ & _ & Hx)]].
    destruct (Hx (eq_sym H0)) as (s' & t' & Hin & Hsz & Ht'). cbn in Ht'. subst t.
    destruct Ha as [_ Hall]. rewrite List.Forall_forall in Hall. destruct (Hall _ Hin) as [[= -> ->]|[Hb _]]; [done|].
    cbn in Hb. assert (1 <= s' / increment c); [|lia]. apply Z.div_le_lower_bound; lia.
  Qed.

  Context (m : list (Z * Z)) (Hk : keyFrameMap c = with_zero m) (Hm : admissible (increment c) m).

  Lemma calculate_inv ps l : findPeaks c df = Some ps -> calculate c ratio df = Some l -> 0 < N ->
    exists pts, mapPeaks (increment c) (keyFrameMap c) ps out N = Some pts /\ chain out N 0 0 pts /\
      regions (increment c) out N 0 0 false pts = Some l /\
      (forall s t m' pre, with_zero m = pre ++ (s, t) :: m' -> followed (increment c) out N ((s, t) :: m') = true ->
         exists b, In b pts /\ chunk b.1 = s / increment c /\ b.2 = t).
  Proof using Hrate Hincr Hratio Hk Hm.
    intros E Ec HN. unfold calculate in Ec. rewrite E in Ec. cbn [mbind option_bind] in Ec. fold out N in Ec.
    destruct m as [|st m'] eqn:Em.
    - destruct (points_plain ps Hk E HN) as [E1 E2]. eexists. split; [exact E1|]. split; [done|].
      rewrite E1 in Ec. split; [exact Ec|]. intros s t m' pre Hx. destruct pre; discriminate Hx.
    - destruct (points_keyed ps (st :: m') Hk Hm ltac:(done) E HN) as (pts & E1 & E2 & E3).
      exists pts. split; [done|]. split; [done|]. rewrite E1 in Ec. split; [exact Ec|exact E3].
  Qed.

  Lemma calculate_empty : N = 0 -> calculate c ratio df = Some [] /\ out = 0.
  Proof using Hrate Hincr Hk Hm.
    intros H0. split.
    - destruct (findPeaks_some c Hrate Hincr df ltac:(fold N; lia)) as [ps E]. unfold calculate. rewrite E. cbn [mbind option_bind].
      fold out N. rewrite (points_empty ps H0 E), H0.
      assert (Hmp : mapPeaks (increment c) (keyFrameMap c) [] out 0 = Some []).
      { rewrite Hk. unfold mapPeaks. destruct (with_zero m) as [|st m'] eqn:Ew; [done|].
        assert (Hnn : Forall (fun st => 0 <= fst st /\ 0 <= snd st) (st :: m')).
        { rewrite <- Ew. eapply increasing_nonneg; [exact Hincr|]. by apply with_zero_ok. }
        clear Ew. revert Hnn. generalize (st :: m'). induction l as [|[s t] l IH]; intros Hnn; [done|].
        cbn [map_loop]. apply Forall_cons_1 in Hnn as [[Hs _] Hnn]. cbn in Hs.
        assert (0 <= s / increment c) by (apply Z.div_pos; lia).
        destruct (Z.leb_spec 0 (s / increment c)); [|lia]. cbn [orb]. by apply IH. }
      rewrite Hmp. cbn [mbind option_bind regions].
      replace (Z.max (Z.min 0 0) (Z.min 0 0) - Z.min 0 0) with 0 by lia. rewrite region_empty. done.
    - unfold out, output_duration. fold N. rewrite H0. change (0 * increment c) with 0.
      rewrite <- (rint_Z 0) at 2. apply rint_comp. change (inject_Z 0) with 0%Q. ring.
  Qed.

  Lemma calculate_some : N <> 1 -> exists l, calculate c ratio df = Some l.
  Proof using Hrate Hincr Hratio Hk Hm.
    intros HN1. destruct (Z.eq_dec N 0) as [H0|H0].
    - destruct (calculate_empty H0). eauto.
    - assert (HN : 0 < N) by (pose proof (zlen_nonneg df); unfold N in *; lia).
      destruct (findPeaks_some c Hrate Hincr df HN1) as [ps E].
      assert (Hp : exists pts, mapPeaks (increment c) (keyFrameMap c) ps out N = Some pts /\ chain out N 0 0 pts).
      { destruct m as [|st m'] eqn:Em.
        - destruct (points_plain ps Hk E HN) as [E1 E2]. eauto.
        - destruct (points_keyed ps (st :: m') Hk Hm ltac:(done) E HN) as (pts & E1 & E2 & _). eauto. }
      destruct Hp as (pts & Ep & Hc). unfold calculate. rewrite E. cbn [mbind option_bind]. fold out N. rewrite Ep.
      cbn [mbind option_bind].
      destruct (regions_ok (increment c) out N ltac:(lia) out_nonneg pts 0 0 false ltac:(lia) Hc) as (l & El & _). eauto.
  Qed.

  Lemma calculate_total l : calculate c ratio df = Some l -> frames l = out /\ zlen l <= N.
  Proof using Hrate Hincr Hratio Hk Hm.
    intros Ec. destruct (Z.eq_dec N 0) as [H0|H0].
    - destruct (calculate_empty H0) as [Ec' Ho]. rewrite Ec in Ec'. injection Ec' as ->. rewrite Ho, H0. done.
    - assert (HN : 0 < N) by (pose proof (zlen_nonneg df); unfold N in *; lia).
      pose proof Ec as Ec0. unfold calculate in Ec0. destruct (findPeaks c df) as [ps|] eqn:E; [|done]. clear Ec0.
      destruct (calculate_inv ps l E Ec HN) as (pts & _ & Hc & Er & _).
      destruct (regions_ok (increment c) out N ltac:(lia) out_nonneg pts 0 0 false ltac:(lia) Hc) as (l' & El & Hf & Hz & _).
      rewrite Er in El. injection El as <-. split; [|lia]. rewrite Hf. pose proof out_nonneg. lia.
  Qed.

  (** Key frames, when the profile is complete. *)
  Lemma calculate_keys l : calculate c ratio df = Some l -> zlen l = N -> forall pre s t post,
    m = pre ++ (s, t) :: post -> s / increment c < N -> t < out ->
    match post with [] => True | (s', _) :: _ => s / increment c < s' / increment c end ->
    start_of l (s / increment c) = t.
  Proof using Hrate Hincr Hratio Hk Hm.
    intros Ec Hfull pre s t post Hspl Hs Ht Hnext.
    assert (Hst : 0 <= s /\ 0 <= t).
    { pose proof (increasing_nonneg _ _ Hincr Hm) as Hnn. rewrite Hspl in Hnn. apply Forall_app in Hnn as [_ Hnn].
      apply Forall_cons_1 in Hnn as [Hnn _]. exact Hnn. }
    assert (Hs0 : 0 <= s / increment c) by (apply Z.div_pos; lia).
    assert (HN : 0 < N) by lia.
    pose proof Ec as Ec0. unfold calculate in Ec0. destruct (findPeaks c df) as [ps|] eqn:E; [|done]. clear Ec0.
    destruct (calculate_inv ps l E Ec HN) as (pts & _ & Hc & Er & Hkf).
    destruct (regions_ok (increment c) out N ltac:(lia) out_nonneg pts 0 0 false ltac:(lia) Hc) as (l' & El & Hf & Hz & Hfl & Hpos).
    rewrite Er in El. injection El as <-. destruct (Hpos (proj1 Hfl ltac:(lia))) as [Hp _].
    assert (Hincp : match post with [] => True | (s', t') :: _ => s < s' /\ t < t' end).
    { destruct Hm as [Hinc _]. rewrite Hspl in Hinc. clear -Hinc. induction pre as [|[a b] pre IH]; [by destruct Hinc|].
      cbn [app increasing] in Hinc. destruct Hinc as [_ Hinc]. by apply IH. }
    assert (Hwz : exists pre', with_zero m = pre' ++ (s, t) :: post).
    { destruct m as [|[k v] m']; [destruct pre; discriminate Hspl|]. cbn [with_zero].
      destruct (k =? 0); [by exists pre|]. exists ((0, 0) :: pre). cbn. by rewrite Hspl. }
    destruct Hwz as [pre' Hwz]. destruct (Hkf s t post pre' Hwz) as (b & Hb & Hc1 & Hc2).
    { unfold followed. destruct post as [|[s' t'] post]; lia. }
    destruct b as [p t']. cbn in Hc1, Hc2. subst t'. specialize (Hp p t Hb). rewrite Z.sub_0_r, Hc1 in Hp. rewrite Hp. lia.
  Qed.
End calculate.

Section nokeys.
  Context (c : calc) (Hrate : 1 <= sampleRate c) (Hincr : 1 <= increment c).
  Context (ratio : Q) (Hratio : (0 <= ratio)%Q) (df : list Q) (Hk : keyFrameMap c = []).
  Let out := output_duration c ratio df.
  Let N := zlen df.

  Lemma plain_inv ps l : findPeaks c df = Some ps -> calculate c ratio df = Some l -> 0 < N ->
    zlen l <= N /\
    (zlen l = N <-> all_roomy (increment c) out N 0 0 false ((fun p => (p, tgt out N (chunk p))) <$> ps)) /\
    (zlen l = N -> forall k x, getZ l k = Some x -> x < 0 -> exists p, In p ps /\ hard p = true /\ chunk p = k).
  Proof using Hrate Hincr Hratio Hk.
    intros E Ec HN. destruct (points_plain c Hrate Hincr ratio Hratio df ps Hk E HN) as [E1 Hc]. fold out N in E1, Hc.
    unfold calculate in Ec. rewrite E in Ec. cbn [mbind option_bind] in Ec. fold out N in Ec. rewrite E1 in Ec.
    cbn [mbind option_bind] in Ec.
    destruct (regions_ok (increment c) out N ltac:(lia) (out_nonneg c Hincr ratio Hratio df) _ 0 0 false ltac:(lia) Hc)
      as (l' & El & Hf & Hz & Hfl & Hpos).
    rewrite Ec in El. injection El as <-. rewrite Z.sub_0_r in Hz, Hfl. split; [done|]. split; [done|].
    intros Hfull k x Hg Hx. destruct (Hpos (proj1 Hfl Hfull)) as [_ Hneg].
    destruct (Hneg k x Hg Hx) as [[? _]|(p & t & Hin & Hh & Hch)]; [done|].
    apply elem_of_list_In, elem_of_list_fmap in Hin as (q & [= -> ->] & Hq). apply elem_of_list_In in Hq.
    exists q. split; [done|]. split; [done|]. lia.
  Qed.

  Lemma plain_full l :
    ((1 <= ratio)%Q /\ 2 <= increment c) \/ (useHardPeaks c = false /\ (2 <= inject_Z (increment c) * ratio)%Q) ->
    calculate c ratio df = Some l -> zlen l = N.
  Proof using Hrate Hincr Hratio Hk.
    intros Hcase Ec. destruct (Z.eq_dec N 0) as [H0|H0].
    { destruct (calculate_empty c Hrate Hincr ratio df [] Hk ltac:(split; [done|constructor]) H0) as [E _].
      rewrite Ec in E. injection E as ->. done. }
    assert (HN : 0 < N) by (pose proof (zlen_nonneg df); unfold N in *; lia).
    pose proof Ec as Ec0. unfold calculate in Ec0. destruct (findPeaks c df) as [ps|] eqn:E; [|done]. clear Ec0.
    destruct (plain_inv ps l E Ec HN) as (_ & Hfl & _). apply Hfl.
    destruct (findPeaks_ok c Hrate Hincr df ps E) as (Hs & Hr & Hnh).
    pose proof (out_nonneg c Hincr ratio Hratio df) as Hout. fold out in Hout.
    rewrite <- (tgt_0 out N HN) at 2. apply plain_roomy; [done|done|lia| |by eapply before_chunk|].
    2: { fold N in Hr. eapply Forall_impl; [exact Hr|]. intros p Hp. cbv beta in *. lia. }
    intros a b r Hab HbN Hr'. set (x := (inject_Z (increment c) * ratio)%Q).
    assert (HiQ : (1 <= inject_Z (increment c))%Q) by (change 1%Q with (inject_Z 1); by rewrite inject_Z_inj_le).
    assert (Hx2 : (2 <= x)%Q).
    { unfold x. destruct Hcase as [[H1 H2]|[_ H2]]; [|done].
      assert (2 <= inject_Z (increment c))%Q by (change 2%Q with (inject_Z 2); by rewrite inject_Z_inj_le). nra. }
    pose proof (share out N Hout HN a b x ltac:(lia) (out_ratio c ratio df) ltac:(lra) ltac:(lia) ltac:(lia)) as Hsh.
    unfold roomy, rest_of, first_of. destruct r.
    - (* the region starts with a phase reset *)
      assert (Hc1 : (1 <= ratio)%Q /\ 2 <= increment c).
      { destruct Hcase as [|[Hno _]]; [done|]. exfalso. destruct (Hr' eq_refl) as [?|He]; [done|].
        specialize (Hnh Hno). apply Exists_exists in He as (p & Hp & Hh). rewrite list.Forall_forall in Hnh.
        rewrite (Hnh p Hp) in Hh. done. }
      destruct Hc1 as [Hr1 Hi2]. destruct (Z.eqb_spec (b - a - 1) 0) as [|Hn]; [done|]. cbn [orb].
      destruct (Z.ltb_spec 1 (b - a)); [|lia]. apply Z.ltb_lt.
      set (n := b - a) in *. set (D := tgt out N b - tgt out N a) in *.
      assert (HnQ : (2 <= inject_Z n)%Q) by (change 2%Q with (inject_Z 2); rewrite inject_Z_inj_le; lia).
      assert (Hi2Q : (2 <= inject_Z (increment c))%Q) by (change 2%Q with (inject_Z 2); by rewrite inject_Z_inj_le).
      assert (Hxi : (inject_Z (increment c) <= x)%Q) by (unfold x; nra).
      assert (HD : (inject_Z n * inject_Z (increment c) - (3 # 2) <= inject_Z D)%Q) by nra.
      assert (HDZ : n * increment c - 1 <= D).
      { apply Q_lt_Z. replace (n * increment c - 1) with (n * increment c + -1) by lia.
        rewrite inject_Z_plus, inject_Z_mult. change (inject_Z (-1)) with (-(1))%Q. lra. }
      nia.
    - destruct (Z.eqb_spec (b - a) 0) as [|Hn]; [done|]. cbn [orb]. apply Z.ltb_lt.
      set (n := b - a) in *. set (D := tgt out N b - tgt out N a) in *.
      assert (HnQ : (1 <= inject_Z n)%Q) by (change 1%Q with (inject_Z 1); rewrite inject_Z_inj_le; lia).
      assert (HD : (inject_Z n * 2 - (3 # 2) <= inject_Z D)%Q) by nra.
      assert (HDZ : n * 2 - 1 <= D).
      { apply Q_lt_Z. replace (n * 2 - 1) with (n * 2 + -1) by lia. rewrite inject_Z_plus, inject_Z_mult.
        change (inject_Z (-1)) with (-(1))%Q.
        change (inject_Z 2) with 2%Q. lra. }
      lia.
  Qed.

  (** Hard onsets off: no phase resets, whether the profile is complete or not. *)
  Lemma plain_nohard l : useHardPeaks c = false -> calculate c ratio df = Some l -> Forall (fun x => 0 <= x) l.
  Proof using Hrate Hincr Hratio Hk.
    intros Hno Ec. pose proof Ec as Ec0. unfold calculate in Ec0. destruct (findPeaks c df) as [ps|] eqn:E; [|done].
    cbn [mbind option_bind] in Ec0. fold out N in Ec0. rewrite Hk in Ec0. cbn [mapPeaks mbind option_bind] in Ec0.
    destruct (findPeaks_ok c Hrate Hincr df ps E) as (_ & _ & Hnh). specialize (Hnh Hno).
    clear E Ec.
    assert (Hreg : forall d n l, 0 <= d -> 0 <= n -> region (increment c) d n false = Some l -> Forall (fun x => 0 <= x) l).
    { intros d n lr Hd Hn El. destruct (Z.eq_dec n 0) as [->|Hn0]; [rewrite region_empty in El; by injection El as <-|].
      destruct (region_ok (increment c) d n false ltac:(lia) Hd ltac:(lia)) as (l' & El' & _ & _ & Hneg & _).
      rewrite El in El'. injection El' as <-. apply Forall_lookup. intros i x Hi.
      destruct (Z_lt_ge_dec x 0) as [Hlt|]; [|lia]. destruct (Hneg (Z.of_nat i) x) as [? _]; [|done|done].
      unfold getZ. destruct (Z.leb_spec 0 (Z.of_nat i)); [|lia]. by rewrite Nat2Z.id. }
    enough (H : forall sc s l, regions (increment c) out N sc s false
      ((fun p => (p, rint (inject_Z (chunk p) * inject_Z out / inject_Z N))) <$> ps) = Some l -> Forall (fun x => 0 <= x) l)
      by by eapply H.
    clear Ec0 l. induction ps as [|p ps IH]; intros sc s l Er; cbn [fmap list_fmap regions] in Er.
    - destruct (region _ _ _ _) as [l0|] eqn:El; [|done]. cbn [mbind option_bind] in Er. injection Er as <-.
      eapply Hreg; [..|exact El]; lia.
    - apply Forall_cons_1 in Hnh as [Hp Hnh]. destruct (region _ _ _ _) as [l0|] eqn:El; [|done].
      cbn [mbind option_bind] in Er. rewrite Hp in Er.
      destruct (regions _ _ _ _ _ _ _) as [k|] eqn:Ek; [|done]. cbn [mbind option_bind] in Er. injection Er as <-.
      apply Forall_app. split; [eapply Hreg; [..|exact El]; lia|]. by eapply (IH Hnh).
  Qed.
End nokeys.
