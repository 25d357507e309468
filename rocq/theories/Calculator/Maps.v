(** Proofs about [mapPeaks] and [calculate]. *)
From stdpp Require Import prelude.
From Coq Require Import ZArith QArith Qround Qfield Lia Lqa Sorting.Sorted ZifyBool.
From Verif.Base Require Import Arith.
From Verif.Calculator Require Import Model Spec Regions Peaks.
Local Open Scope Z_scope.

(** ** Without key frames *)
Section plain.
  Context (out N : Z) (Hout : 0 <= out) (HN : 0 < N).
  Definition tgt (k : Z) : Z := rint (inject_Z k * inject_Z out / inject_Z N).

  Lemma NQ : (0 < inject_Z N)%Q.
  Proof using HN. change 0%Q with (inject_Z 0). by rewrite inject_Z_inj_lt. Qed.
  Lemma outQ : (0 <= inject_Z out)%Q.
  Proof using Hout. change 0%Q with (inject_Z 0). by rewrite inject_Z_inj_le. Qed.
  Lemma tgt_le a b : a <= b -> tgt a <= tgt b.
  Proof using Hout HN.
    intros H. apply rint_le. pose proof NQ. pose proof outQ.
    apply Qle_shift_div_l; [done|]. rewrite <- inject_Z_inj_le in H.
    setoid_replace (inject_Z a * inject_Z out / inject_Z N * inject_Z N)%Q with (inject_Z a * inject_Z out)%Q by (field; lra).
    nra.
  Qed.
  Lemma tgt_0 : tgt 0 = 0.
  Proof using HN. pose proof NQ. unfold tgt. rewrite <- (rint_Z 0) at 2. apply rint_comp. change (inject_Z 0) with 0%Q. field. lra. Qed.
  Lemma tgt_N : tgt N = out.
  Proof using HN. pose proof NQ. unfold tgt. rewrite <- (rint_Z out) at 2. apply rint_comp. field. lra. Qed.

  Lemma plain_chain ps : forall sc, 0 <= sc <= N -> StronglySorted (fun a b => chunk a < chunk b) ps ->
    Forall (fun p => sc <= chunk p < N) ps ->
    chain out N sc (tgt sc) ((fun p => (p, tgt (chunk p))) <$> ps).
  Proof using Hout HN.
    induction ps as [|p ps IH]; intros sc Hsc Hs Hr; cbn [fmap list_fmap chain].
    - split; [lia|]. intros ->. rewrite tgt_N. lia.
    - apply Forall_cons_1 in Hr as [Hr1 Hr2]. inversion_clear Hs as [|? ? Hs' Hall].
      split; [lia|]. split; [lia|]. split; [apply tgt_le; lia|]. split; [by intros ->|].
      apply IH; [lia|done|]. rewrite List.Forall_forall in *. intros q Hq. specialize (Hr2 q Hq). specialize (Hall q Hq). lia.
  Qed.

  (** Every region between two of the points has room enough. *)
  Lemma plain_roomy inc ps : forall sc r, 0 <= sc <= N ->
    (forall a b r', 0 <= a < b -> b <= N -> (r' = true -> r = true \/ Exists (fun p => hard p = true) ps) ->
       roomy inc (tgt b - tgt a) (b - a) r' = true) ->
    StronglySorted (fun a b => chunk a < chunk b) ps -> Forall (fun p => sc <= chunk p < N) ps ->
    all_roomy inc out N sc (tgt sc) r ((fun p => (p, tgt (chunk p))) <$> ps).
  Proof using Hout HN.
    assert (Hmin : forall k, 0 <= k <= N -> Z.min (tgt k) out = tgt k).
    { intros k Hk. assert (tgt k <= tgt N) as H by (apply tgt_le; lia). rewrite tgt_N in H. lia. }
    induction ps as [|p ps IH]; intros sc r Hsc H Hs Hr; cbn [fmap list_fmap all_roomy].
    - intros Hlt. rewrite Hmin by lia. rewrite <- tgt_N. apply H; [lia|lia|]. intros ->. by left.
    - apply Forall_cons_1 in Hr as [Hr1 Hr2]. inversion_clear Hs as [|? ? Hs' Hall]. split.
      + intros Hlt. rewrite !Hmin by lia. apply H; [lia|lia|]. intros ->. by left.
      + apply IH; [lia| |done|].
        * intros a b r' Ha Hb Hr'. apply H; [done|done|]. intros E. specialize (Hr' E). right.
          destruct Hr' as [Hp|Hp]; [by left|by right].
        * rewrite List.Forall_forall in *. intros q Hq. specialize (Hr2 q Hq). specialize (Hall q Hq). lia.
  Qed.

  (** The output of [b - a] chunks is at least their share less one frame. *)
  Lemma share a b x : a <= b -> (inject_Z N * x <= inject_Z out + (1 # 2))%Q -> (0 <= x)%Q -> b - a <= N -> 0 <= b - a ->
    (inject_Z (b - a) * x - (3 # 2) <= inject_Z (tgt b - tgt a))%Q.
  Proof using Hout HN.
    intros Hab Hx Hx0 Hn Hn0. pose proof NQ. pose proof outQ. unfold tgt.
    set (u := (inject_Z b * inject_Z out / inject_Z N)%Q). set (v := (inject_Z a * inject_Z out / inject_Z N)%Q).
    destruct (rint_near u) as [_ Hu], (rint_near v) as [Hv _].
    assert (E : ((u - v) * inject_Z N == inject_Z (b - a) * inject_Z out)%Q).
    { unfold u, v. unfold Z.sub. rewrite inject_Z_plus, inject_Z_opp. field. lra. }
    unfold Z.sub at 2. rewrite inject_Z_plus, inject_Z_opp.
    assert (Hd : (inject_Z (b - a) * x - (1 # 2) <= u - v)%Q); [|lra].
    assert (HnQ : (inject_Z (b - a) <= inject_Z N)%Q) by by rewrite inject_Z_inj_le.
    assert (Hn0Q : (0 <= inject_Z (b - a))%Q) by (change 0%Q with (inject_Z 0); by rewrite inject_Z_inj_le).
    apply (Qmult_le_r _ _ (inject_Z N)); [done|]. rewrite E.
    assert ((inject_Z (b - a) * (inject_Z N * x) <= inject_Z (b - a) * (inject_Z out + (1 # 2)))%Q) by nra. nra.
  Qed.
End plain.

(** ** With key frames *)
Definition later (a b : peak * Z) : Prop := chunk a.1 < chunk b.1 /\ a.2 <= b.2.

Section keyed.
  Context (incr : Z) (Hincr : 1 <= incr).

  Lemma between_ok ss se ts te : ts < te -> ss < se -> forall ps acc,
    StronglySorted (fun a b => chunk a < chunk b) ps -> acc <> [] ->
    StronglySorted (fun a b => later b a) acc ->
    Forall (fun a => chunk a.1 < se /\ a.2 <= te) acc ->
    Forall (fun a => Forall (fun p => ss < chunk p -> chunk a.1 < chunk p) ps) acc ->
    exists ps' acc', between incr ss se ts te ps acc = Some (ps', acc') /\
      (exists pre, ps = pre ++ ps') /\ acc' <> [] /\
      StronglySorted (fun a b => later b a) acc' /\ Forall (fun a => chunk a.1 < se /\ a.2 <= te) acc' /\
      (forall a, In a acc' -> (exists p, In p ps /\ chunk p = chunk a.1) \/ exists b, In b acc /\ chunk b.1 = chunk a.1) /\
      (forall a, In a acc -> exists b, In b acc' /\ chunk b.1 = chunk a.1 /\ b.2 = a.2).
  Proof using Hincr.
    intros Hte Hse. induction ps as [|p ps IH]; intros acc Hps Hne Hacc Hb Hahead; cbn [between].
    { exists [], acc. split_and!; try done; [by exists []|eauto|eauto]. }
    inversion_clear Hps as [|? ? Hps' Hall].
    assert (Hahead' : Forall (fun a => Forall (fun p => ss < chunk p -> chunk a.1 < chunk p) ps) acc).
    { eapply Forall_impl; [exact Hahead|]. intros a Ha. by apply Forall_cons_1 in Ha as [_ Ha]. }
    destruct (Z.ltb_spec (chunk p) ss) as [Hlt|Hge].
    { destruct (IH acc Hps' Hne Hacc Hb Hahead') as (ps' & acc' & E & [pre ->] & H1 & H2 & H3 & H4 & H5).
      exists ps', acc'. split_and!; try done; [by exists (p :: pre)|].
      intros a Ha. destruct (H4 a Ha) as [(q & Hq & Hc)|Hx]; [left; exists q; split; [by right|done]|by right]. }
    destruct (Z.eqb_spec (chunk p) ss) as [Heq|Hneq].
    { destruct acc as [|[q t] acc]; [done|].
      assert (Hsub : forall Q : peak * Z -> Prop, (forall a a', chunk a.1 = chunk a'.1 -> a.2 = a'.2 -> Q a -> Q a') ->
        Forall Q ((q, t) :: acc) -> Forall Q ((Peak (chunk q) true, t) :: acc)).
      { intros Q HQ HF. apply Forall_cons_1 in HF as [H1 H2]. constructor; [|done]. by eapply HQ; [..|exact H1]. }
      destruct (IH ((Peak (chunk q) true, t) :: acc) Hps') as (ps' & acc' & E & [pre ->] & H1 & H2 & H3 & H4 & H5); try done.
      - inversion_clear Hacc as [|? ? Ha1 Ha2]. constructor; [done|]. eapply Forall_impl; [exact Ha2|]. done.
      - apply Hsub; [|done]. intros a a' Hx Hy. cbv beta. by rewrite <- Hx, <- ?Hy.
      - apply Hsub; [|done]. intros a a' Hx Hy. cbv beta. by rewrite <- Hx, <- ?Hy.
      - exists ps', acc'. split_and!; try done; [by exists (p :: pre)| |].
        + intros a Ha. destruct (H4 a Ha) as [(q' & Hq & Hc)|(b & [<-|Hb'] & Hc)].
          * left. exists q'. split; [by right|done].
          * right. exists (q, t). split; [by left|done].
          * right. exists b. split; [by right|done].
        + intros a [<-|Ha].
          * destruct (H5 (Peak (chunk q) true, t)) as (b & Hb' & Hc & Hd); [by left|]. exists b. done.
          * apply H5. by right. }
    destruct (Z.leb_spec se (chunk p)) as [Hout|Hin].
    { exists (p :: ps), acc. split_and!; try done; [by exists []|eauto|eauto]. }
    destruct acc as [|[q t] acc]; [done|].
    set (prop := (inject_Z (chunk p - ss) / inject_Z (se - ss))%Q).
    set (target := ts + rint (prop * inject_Z (te - ts))).
    destruct (Z.leb_spec target (t + incr)) as [Hclose|Hfar].
    { destruct (IH ((q, t) :: acc) Hps' Hne Hacc Hb Hahead') as (ps' & acc' & E & [pre ->] & H1 & H2 & H3 & H4 & H5).
      exists ps', acc'. split_and!; try done; [by exists (p :: pre)|].
      intros a Ha. destruct (H4 a Ha) as [(q' & Hq & Hc)|Hx]; [left; exists q'; split; [by right|done]|by right]. }
    assert (Htgt : target <= te).
    { unfold target. assert (rint (prop * inject_Z (te - ts)) <= te - ts); [|lia].
      rewrite <- (rint_Z (te - ts)) at 2. apply rint_le.
      assert (HdQ : (0 < inject_Z (se - ss))%Q) by (change 0%Q with (inject_Z 0); rewrite inject_Z_inj_lt; lia).
      assert (Hp1 : (prop <= 1)%Q).
      { unfold prop. apply Qle_shift_div_r; [done|]. rewrite Qmult_1_l, inject_Z_inj_le. lia. }
      assert (HtQ : (0 <= inject_Z (te - ts))%Q) by (change 0%Q with (inject_Z 0); rewrite inject_Z_inj_le; lia).
      nra. }
    destruct (IH ((p, target) :: (q, t) :: acc) Hps') as (ps' & acc' & E & [pre ->] & H1 & H2 & H3 & H4 & H5); try done.
    - constructor; [done|]. inversion_clear Hacc as [|? ? Ha1 Ha2].
      assert (Hch : forall a, In a ((q, t) :: acc) -> chunk a.1 < chunk p).
      { intros a Ha. rewrite List.Forall_forall in Hahead. specialize (Hahead a Ha).
        apply Forall_cons_1 in Hahead as [Hx _]. apply Hx. lia. }
      constructor; [split; [apply (Hch (q, t)); by left|cbn; lia]|].
      rewrite List.Forall_forall in *. intros a Ha. split; [apply Hch; by right|].
      destruct (Ha2 a Ha) as [_ Hle]. cbn in *. lia.
    - constructor; [done|done].
    - constructor; [|done]. rewrite List.Forall_forall in *. intros x Hx _. cbn. by apply Hall.
    - exists ps', acc'. split_and!; try done; [by exists (p :: pre)| |].
      + intros a Ha. destruct (H4 a Ha) as [(q' & Hq & Hc)|(b & [<-|Hb'] & Hc)].
        * left. exists q'. split; [by right|done].
        * left. exists p. split; [by left|done].
        * right. exists b. done.
      + intros a Ha. apply H5. by right.
  Qed.

  Context (out total : Z).

  (** Is the key frame at the head of the list followed? *)
  Definition followed (m : list (Z * Z)) : bool :=
    match m with
    | [] => false
    | (s, t) :: m' =>
      let se := match m' with (s', _) :: _ => s' / incr | [] => total end in
      let te := match m' with (_, t') :: _ => t' | [] => out end in
      (s / incr <? total) && (s / incr <? se) && (t <? out) && (t <? te)
    end.

  Lemma map_loop_ok : forall m ps acc,
    increasing m -> StronglySorted (fun a b => chunk a < chunk b) ps -> Forall (fun p => 0 <= chunk p < total) ps ->
    StronglySorted (fun a b => later b a) acc -> Forall (fun a => 0 <= chunk a.1 < total /\ 0 <= a.2) acc ->
    match m with [] => True | (s, t) :: _ => 0 <= s /\ 0 <= t /\ Forall (fun a => chunk a.1 < s / incr /\ a.2 <= t) acc end ->
    exists pts, map_loop incr out total m ps acc = Some pts /\
      StronglySorted later pts /\ Forall (fun a => 0 <= chunk a.1 < total /\ 0 <= a.2) pts /\
      (forall a, In a acc -> exists b, In b pts /\ chunk b.1 = chunk a.1 /\ b.2 = a.2) /\
      (forall s t m' pre, m = pre ++ (s, t) :: m' -> followed ((s, t) :: m') = true ->
         exists b, In b pts /\ chunk b.1 = s / incr /\ b.2 = t) /\
      (forall b, In b pts -> In b acc \/ (exists a, In a acc /\ chunk a.1 = chunk b.1) \/
         match m with [] => False | (s, t) :: _ => s / incr <= chunk b.1 /\ t <= b.2 /\
                      (chunk b.1 = 0 -> exists s t, In (s, t) m /\ s / incr = 0 /\ b.2 = t) end).
  Proof using Hincr.
    induction m as [|[s t] m IH]; intros ps acc Hinc Hps Hpr Hacc Har Hhead; cbn [map_loop].
    { exists (rev acc). split; [done|]. split; [by apply SS_rev|]. split_and!.
      - rewrite List.Forall_forall in *. intros a Ha. apply Har. by apply in_rev.
      - intros a Ha. exists a. split; [by rewrite <- in_rev|done].
      - intros s t m' [|x pre] E; discriminate E.
      - intros b Hb. left. by apply in_rev. }
    destruct Hhead as (Hs & Ht & Hbelow). destruct Hinc as [Hnext Hinc].
    set (se := match m with (s', _) :: _ => s' / incr | [] => total end).
    set (te := match m with (_, t') :: _ => t' | [] => out end).
    assert (Hmono : forall a b, a <= b -> a / incr <= b / incr) by (intros; apply Z.div_le_mono; lia).
    destruct (((total <=? s / incr) || (se <=? s / incr) || (out <=? t) || (te <=? t))) eqn:Esk.
    { destruct (IH ps acc Hinc Hps Hpr Hacc Har) as (pts & E & H1 & H2 & H3 & H4 & H5).
      { destruct m as [|[s' t'] m]; [done|]. destruct Hnext. split; [lia|]. split; [lia|].
        eapply Forall_impl; [exact Hbelow|]. intros a [Ha1 Ha2]. pose proof (Hmono s s'). lia. }
      exists pts. split_and!; try done.
      - intros s0 t0 m0 [|x pre] E0 Hf.
        + injection E0 as <- <- <-. unfold followed in Hf. fold se te in Hf. lia.
        + injection E0 as _ E1. exact (H4 _ _ _ _ E1 Hf).
      - intros b Hb. destruct (H5 b Hb) as [Hx|[Hx|Hx]]; [by left|right; by left|]. right. right.
        destruct m as [|[s' t'] m]; [done|]. destruct Hnext as [Hn1 Hn2]. destruct Hx as (Hx1 & Hx2 & Hx3).
        pose proof (Hmono s s'). split; [lia|]. split; [lia|]. intros H0. destruct (Hx3 H0) as (s0 & t0 & Hin & Hz).
        exists s0, t0. split; [by right|done]. }
    assert (Hc : s / incr < total /\ s / incr < se /\ t < out /\ t < te) by lia.
    assert (Hs0 : 0 <= s / incr) by (apply Z.div_pos; lia).
    destruct (between_ok (s / incr) se t te ltac:(lia) ltac:(lia) ps ((Peak (s / incr) false, t) :: acc))
      as (ps' & acc' & E & [pre ->] & Hne & H1 & H2 & H3 & H4); try done.
    { constructor; [done|]. eapply Forall_impl; [exact Hbelow|]. intros a [Ha1 Ha2]. split; cbn; lia. }
    { constructor; [cbn; lia|]. eapply Forall_impl; [exact Hbelow|]. intros a [Ha1 Ha2]. lia. }
    { constructor; [apply List.Forall_forall; intros p _; done|]. eapply Forall_impl; [exact Hbelow|].
      intros a [Ha1 Ha2]. apply List.Forall_forall. intros p _ Hp. lia. }
    rewrite E. cbn [mbind option_bind].
    assert (Hsuf : StronglySorted (fun a b => chunk a < chunk b) ps').
    { clear -Hps. induction pre as [|x pre IH]; [done|]. inversion_clear Hps. by apply IH. }
    assert (Hmin : forall a, In a acc' -> 0 <= a.2).
    { assert (Hx : forall acc0 acc1 q, between incr (s / incr) se t te q acc0 = Some acc1 ->
        (forall a, In a acc0 -> 0 <= a.2) -> forall a, In a acc1.2 -> 0 <= a.2).
      { clear -Hincr Ht. intros acc0 acc1 q. revert acc0. induction q as [|p q IH]; intros acc0 E Hin; cbn [between] in E.
        - injection E as <-. done.
        - destruct (chunk p <? s / incr); [by eapply IH|]. destruct (chunk p =? s / incr).
          { destruct acc0 as [|[q0 t0] acc0]; [done|]. eapply IH; [exact E|]. intros a [<-|Ha]; [apply (Hin (q0, t0)); by left|].
            apply Hin. by right. }
          destruct (se <=? chunk p); [injection E as <-; done|]. destruct acc0 as [|[q0 t0] acc0]; [done|].
          destruct (Z.leb_spec (t + rint (inject_Z (chunk p - s / incr) / inject_Z (se - s / incr) * inject_Z (te - t))) (t0 + incr));
            [by eapply IH|]. eapply IH; [exact E|]. intros a [<-|Ha]; [|by apply Hin]. cbn.
          specialize (Hin (q0, t0) ltac:(by left)). cbn in Hin. lia. }
      intros a Ha. eapply (Hx _ _ _ E); [|exact Ha]. intros b [<-|Hb]; [done|]. rewrite List.Forall_forall in Har. by apply Har. }
    assert (Hrange : Forall (fun a => 0 <= chunk a.1 < total /\ 0 <= a.2) acc').
    { rewrite List.Forall_forall in *. intros a Ha. split; [|by apply Hmin].
      destruct (H3 a Ha) as [(p & Hp & <-)|(b & [<-|Hb] & <-)]; [by apply Hpr|cbn; lia|by apply Har]. }
    destruct (IH ps' acc' Hinc Hsuf) as (pts & E' & G1 & G2 & G3 & G4 & G5); try done.
    { apply Forall_app in Hpr as [_ Hpr]. done. }
    { destruct m as [|[s' t'] m]; [done|]. destruct Hnext. split; [lia|]. split; [lia|]. exact H2. }
    exists pts. split_and!; try done.
    - intros a Ha. destruct (H4 a ltac:(by right)) as (b & Hb & Hc1 & Hc2). destruct (G3 b Hb) as (b' & Hb' & Hd1 & Hd2).
      exists b'. split; [done|]. split; congruence.
    - intros s0 t0 m0 [|x pre0] E0 Hf.
      + injection E0 as <- <- <-. destruct (H4 (Peak (s / incr) false, t) ltac:(by left)) as (b & Hb & Hc1 & Hc2).
        destruct (G3 b Hb) as (b' & Hb' & Hd1 & Hd2). exists b'. cbn in *. split; [done|]. split; congruence.
      + injection E0 as _ E1. exact (G4 _ _ _ _ E1 Hf).
    - assert (Hlow : forall a, In a acc' -> In a acc \/ (exists a', In a' acc /\ chunk a'.1 = chunk a.1) \/
        (s / incr <= chunk a.1 /\ t <= a.2 /\ (chunk a.1 = 0 -> exists s0 t0, In (s0, t0) ((s, t) :: m) /\ s0 / incr = 0 /\ a.2 = t0))).
      { assert (Hx : forall q acc0 acc1, between incr (s / incr) se t te q acc0 = Some acc1 ->
          (forall a, In a acc0 -> In a acc \/ (exists a', In a' acc /\ chunk a'.1 = chunk a.1) \/
            (s / incr <= chunk a.1 /\ t <= a.2 /\ (chunk a.1 = 0 -> a.2 = t))) ->
          match acc0 with [] => False | a :: _ => t <= a.2 end ->
          forall a, In a acc1.2 -> In a acc \/ (exists a', In a' acc /\ chunk a'.1 = chunk a.1) \/
            (s / incr <= chunk a.1 /\ t <= a.2 /\ (chunk a.1 = 0 -> a.2 = t))).
        { clear -Hincr Ht Hs0. induction q as [|p q IH]; intros acc0 acc1 E Hin Hhd; cbn [between] in E.
          - injection E as <-. done.
          - destruct (Z.ltb_spec (chunk p) (s / incr)); [by eapply IH|]. destruct (Z.eqb_spec (chunk p) (s / incr)).
            { destruct acc0 as [|[q0 t0] acc0]; [done|]. eapply IH; [exact E| |done].
              intros a [<-|Ha]; [|apply Hin; by right]. destruct (Hin (q0, t0) ltac:(by left)) as [Hy|[(a' & Hy & Hz)|Hy]].
              - right. left. exists (q0, t0). done.
              - right. left. exists a'. done.
              - right. right. done. }
            destruct (se <=? chunk p); [injection E as <-; done|]. destruct acc0 as [|[q0 t0] acc0]; [done|].
            destruct (Z.leb_spec (t + rint (inject_Z (chunk p - s / incr) / inject_Z (se - s / incr) * inject_Z (te - t))) (t0 + incr));
              [by eapply IH|]. cbn in Hhd. eapply IH; [exact E| |cbn; lia]. intros a [<-|Ha]; [|by apply Hin].
            right. right. cbn. split_and!; lia. }
        intros a Ha. destruct (Hx _ _ _ E) with (a := a) as [Hy|[Hy|(Hy1 & Hy2 & Hy3)]]; try done.
        - intros b [<-|Hb]; [|by left]. right. right. cbn. split_and!; lia.
        - by left.
        - right; by left.
        - right. right. split; [done|]. split; [done|]. intros H0. exists s, t. split; [by left|]. split; [lia|by apply Hy3]. }
      intros b Hb. destruct (G5 b Hb) as [Hx|[(a & Ha & Hca)|Hx]].
      + destruct (Hlow b Hx) as [|[|]]; [by left|right; by left|right; by right].
      + destruct (G3 a Ha) as (b' & Hb' & Hc1 & Hc2).
        assert (b' = b) as ->.
        { assert (chunk b'.1 = chunk b.1) as Hcc by congruence. clear -G1 Hb Hb' Hcc.
          induction G1 as [|x l Hl IHl Hx]; [done|]. rewrite List.Forall_forall in Hx.
          destruct Hb as [->|Hb], Hb' as [->|Hb']; [done| | |by apply IHl].
          - specialize (Hx _ Hb'). destruct Hx. lia.
          - specialize (Hx _ Hb). destruct Hx. lia. }
        destruct (Hlow a Ha) as [Hy|[(a' & Hy & Hz)|(Hy1 & Hy2 & Hy3)]].
        * right. left. exists a. done.
        * right. left. exists a'. split; [done|congruence].
        * right. right. rewrite Hc1, Hc2. done.
      + right. right. destruct m as [|[s' t'] m]; [done|]. destruct Hnext as [Hn1 Hn2]. destruct Hx as (Hx1 & Hx2 & Hx3).
        pose proof (Hmono s s'). split; [lia|]. split; [lia|]. intros H0. destruct (Hx3 H0) as (s0 & t0 & Hin & Hz).
        exists s0, t0. split; [by right|done].
  Qed.

  Lemma keyed_chain pts : 0 < total -> forall sc s, sc < total ->
    StronglySorted later pts -> Forall (fun a => 0 <= chunk a.1 < total) pts ->
    match pts with [] => True | (p, t) :: _ => sc <= chunk p /\ s <= t /\ (sc = chunk p -> s = t) end ->
    chain out total sc s pts.
  Proof using Type.
    intros Htot. induction pts as [|[p t] pts IH]; intros sc s Hsc Hs Hr Hh; cbn [chain]; [lia|].
    destruct Hh as (H1 & H2 & H3). apply Forall_cons_1 in Hr as [Hr1 Hr2]. cbn in Hr1. inversion_clear Hs as [|? ? Hs' Hall].
    split; [done|]. split; [lia|]. split; [done|]. split; [intros E; by rewrite (H3 E)|].
    apply IH; [lia|done|done|]. destruct pts as [|[p' t'] pts]; [done|].
    apply Forall_cons_1 in Hall as [[Ha Hb] _]. cbn in Ha, Hb. split; [lia|]. split; [done|lia].
  Qed.
End keyed.
