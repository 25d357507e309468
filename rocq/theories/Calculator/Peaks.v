(** Proofs about [findPeaks]. *)
From stdpp Require Import prelude.
From Coq Require Import ZArith QArith Qround Lia Lqa Sorting.Sorted ZifyBool.
From Verif.Base Require Import Arith.
From Verif.Calculator Require Import Model Spec.
Local Open Scope Z_scope.

Lemma SS_snoc {A} (R : A -> A -> Prop) l x :
  StronglySorted R l -> Forall (fun y => R y x) l -> StronglySorted R (l ++ [x]).
Proof.
  induction 1 as [|y l Hs IH Hy]; intros HF; cbn [app]; [repeat constructor|].
  apply Forall_cons_1 in HF as [H1 H2]. constructor; [by apply IH|].
  apply Forall_app. split; [done|]. by constructor.
Qed.
Lemma SS_rev {A} (R : A -> A -> Prop) l : StronglySorted (fun a b => R b a) l -> StronglySorted R (rev l).
Proof.
  induction 1 as [|y l Hs IH Hy]; cbn [rev]; [constructor|]. apply SS_snoc; [done|].
  rewrite List.Forall_forall in *. intros z Hz. apply Hy. by apply in_rev.
Qed.
Lemma SS_lookup {A} (R : A -> A -> Prop) l : StronglySorted R l ->
  forall i j x y, (i < j)%nat -> l !! i = Some x -> l !! j = Some y -> R x y.
Proof.
  induction 1 as [|z l Hs IH Hz]; intros i j x y Hij Hi Hj; [done|].
  destruct j as [|j]; [lia|]. cbn in Hj. destruct i as [|i]; cbn in Hi.
  - injection Hi as ->. eapply Forall_lookup_1 in Hz; [|exact Hj]. done.
  - eapply (IH i j); [lia|done|done].
Qed.

Lemma set_insert_In x y s : In y (set_insert x s) -> y = x \/ In y s.
Proof.
  induction s as [|z s IH]; cbn [set_insert]; [cbn; intuition|].
  destruct (x <? z); [cbn; intuition|]. destruct (x =? z); [cbn; intuition|].
  intros [->|H]; [right; by left|]. destruct (IH H); [by left|right; by right].
Qed.
Lemma set_insert_sorted x s : StronglySorted Z.lt s -> StronglySorted Z.lt (set_insert x s).
Proof.
  induction 1 as [|z s Hs IH Hz]; cbn [set_insert]; [repeat constructor|].
  destruct (Z.ltb_spec x z).
  - constructor; [by constructor|]. constructor; [done|]. eapply Forall_impl; [exact Hz|]. intros; lia.
  - destruct (Z.eqb_spec x z); [by constructor|]. constructor; [done|].
    rewrite List.Forall_forall in *. intros y Hy. destruct (set_insert_In _ _ _ Hy) as [->|H2]; [lia|]. by apply Hz.
Qed.
Lemma set_insert_last x s : Forall (fun y => y < x) s -> set_insert x s = s ++ [x].
Proof.
  induction 1 as [|y s Hy Hs IH]; cbn [set_insert app]; [done|].
  destruct (Z.ltb_spec x y); [lia|]. destruct (Z.eqb_spec x y); [lia|]. by rewrite IH.
Qed.

Lemma smooth_at_ok df i : 0 <= i < zlen df -> exists x, smooth_at df i = Some x.
Proof.
  intros Hi. unfold smooth_at. destruct (getZ_is df i Hi) as [x ->].
  assert (Ha : exists tc, (if 0 <? i then y ← getZ df (i - 1); Some (y, 1) else Some (0%Q, 0)) = Some tc).
  { destruct (Z.ltb_spec 0 i); [|eauto]. destruct (getZ_is df (i - 1)) as [y ->]; [lia|]. cbn. eauto. }
  destruct Ha as [[t1 c1] ->]. cbn [mbind option_bind].
  destruct (Z.ltb_spec (i + 1) (zlen df)); [|cbn; eauto].
  destruct (getZ_is df (i + 1)) as [y ->]; [lia|]. cbn. eauto.
Qed.
Lemma smoothDF_ok raw : exists df, smoothDF raw = Some df /\ zlen df = zlen raw.
Proof.
  unfold smoothDF. assert (H : forall l, Forall (fun i => 0 <= i < zlen raw) l ->
    exists df, mapM (fun i => smooth_at raw i) l = Some df).
  { induction 1 as [|i l Hi Hl [df IH]]; cbn [mapM]; [eauto|].
    destruct (smooth_at_ok raw i Hi) as [x ->]. cbn [mbind option_bind].
    change (mapM (λ i0, smooth_at raw i0) l) with (mapM (fun i => smooth_at raw i) l). rewrite IH. cbn. eauto. }
  destruct (H (seqZ 0 (zlen raw))) as [df E].
  { apply list.Forall_forall. intros i Hi. apply elem_of_seqZ in Hi. lia. }
  exists df. split; [done|]. apply mapM_length in E. rewrite seqZ_length in E. unfold zlen in *. lia.
Qed.

Lemma spacing_bounds rate incr : 1 <= rate -> 1 <= incr ->
  1 <= spacing rate incr /\ rate <= 20 * incr * spacing rate incr.
Proof.
  intros Hr Hi. unfold spacing. rewrite rint_Z. set (q := (inject_Z rate / (20 * inject_Z incr))%Q).
  assert (HiQ : (0 < 20 * inject_Z incr)%Q).
  { assert (0 < inject_Z incr)%Q; [|lra]. change 0%Q with (inject_Z 0). rewrite inject_Z_inj_lt. lia. }
  assert (Hq : (q * (20 * inject_Z incr) == inject_Z rate)%Q) by (unfold q; field; lra).
  destruct (ceil_bounds q) as [H1 _].
  assert (H2 : (inject_Z rate <= inject_Z (20 * incr * cceil q))%Q).
  { rewrite <- Hq, !inject_Z_mult. change (inject_Z 20) with 20%Q. nra. }
  rewrite inject_Z_inj_le in H2. split; [|done]. nia.
Qed.

Definition apart (d a b : Z) : Prop := a + d <= b.

Lemma is_hard_ok df i d d1 : 1 <= i < zlen df -> exists h, is_hard df i d d1 = Some h.
Proof.
  intros Hi. unfold is_hard. destruct (ltQ (4 # 10) d); [eauto|]. destruct (ltQ _ d); [eauto|].
  assert (Ha : exists h, (if 1 <? i then d2 ← getZ df (i - 2); Some (ltQ (d1 * (12 # 10)) d && ltQ (d2 * (12 # 10)) d1)
                          else Some false) = Some h).
  { destruct (Z.ltb_spec 1 i); [|eauto]. destruct (getZ_is df (i - 2)) as [x ->]; [lia|]. cbn. eauto. }
  destruct Ha as [h ->]. cbn [mbind option_bind]. destruct h; [eauto|].
  destruct (Z.ltb_spec 2 i); [|eauto].
  destruct (getZ_is df (i - 2)) as [x ->]; [lia|]. destruct (getZ_is df (i - 3)) as [y ->]; [lia|]. cbn. eauto.
Qed.

Lemma hard_loop_ok raw df amn : 1 <= amn -> zlen df = zlen raw -> forall n i cand prev,
  1 <= i -> i + Z.of_nat n <= zlen df - 1 ->
  StronglySorted (apart amn) cand -> Forall (fun y => 1 <= y < zlen df) cand ->
  (cand <> [] -> Forall (fun y => y <= prev) cand /\ prev <= i) ->
  exists cand', hard_loop raw df amn n i cand prev = Some cand' /\
    StronglySorted (apart amn) cand' /\ Forall (fun y => 1 <= y < zlen df) cand'.
Proof.
  intros Ham Hlen. induction n as [|n IH]; intros i cand prev Hi Hn Hs Hr Hp; cbn [hard_loop]; [eauto|].
  destruct (getZ_is df i) as [d ->]; [lia|]. destruct (getZ_is df (i - 1)) as [d1 ->]; [lia|].
  cbn [mbind option_bind].
  assert (Hskip : exists cand', hard_loop raw df amn n (i + 1) cand prev = Some cand' /\
    StronglySorted (apart amn) cand' /\ Forall (fun y => 1 <= y < zlen df) cand').
  { apply IH; [lia|lia|done|done|]. intros Hne. destruct (Hp Hne). split; [done|lia]. }
  destruct (_ || _ || _ || _) eqn:Esk; [done|].
  destruct (is_hard_ok df i d d1) as [h ->]; [lia|]. cbn [mbind option_bind]. destruct h; [|done].
  assert (Hloc : exists loc, (if i + 1 <? zlen raw
     then a ← getZ raw i; b ← getZ raw (i + 1); Some (if ltQ (a * (14 # 10)) b then i + 1 else i)
     else Some i) = Some loc /\ (i <= loc <= i + 1) /\ loc < zlen df).
  { destruct (Z.ltb_spec (i + 1) (zlen raw)); [|exists i; split; [done|lia]].
    destruct (getZ_is raw i) as [a ->]; [lia|]. destruct (getZ_is raw (i + 1)) as [b ->]; [lia|].
    cbn [mbind option_bind]. destruct (ltQ _ b); eexists; (split; [done|lia]). }
  destruct Hloc as (loc & -> & Hl1 & Hl2). cbn [mbind option_bind].
  apply orb_false_iff in Esk as [_ Eam].
  assert (Hfar : Forall (fun y => apart amn y loc) cand).
  { destruct cand as [|c0 cand0]; [done|]. destruct (Hp ltac:(done)) as [Hle Hpi].
    rewrite bool_decide_eq_false_2 in Eam by done. cbn [negb andb] in Eam.
    eapply Forall_impl; [exact Hle|]. intros y Hy. unfold apart. cbv beta in Hy. lia. }
  rewrite set_insert_last by (eapply Forall_impl; [exact Hfar|]; unfold apart; intros; lia).
  apply IH; [lia|lia| | |].
  - by apply SS_snoc.
  - apply Forall_app. split; [done|]. constructor; [lia|done].
  - intros _. split; [|lia]. apply Forall_app. split; [|by constructor].
    eapply Forall_impl; [exact Hfar|]. unfold apart. intros; lia.
Qed.

Lemma insertQ_length x l : length (insertQ x l) = S (length l).
Proof. induction l as [|y l IH]; cbn; [done|]. destruct (Qle_bool x y); cbn; lia. Qed.
Lemma sortQ_length l : length (sortQ l) = length l.
Proof. unfold sortQ. induction l as [|x l IH]; cbn [foldr length]; [done|]. by rewrite insertQ_length, IH. Qed.
Lemma threshold_ok l : 1 <= zlen l -> exists t, threshold l = Some t.
Proof.
  intros Hl. unfold threshold. apply getZ_is.
  assert (0 <= zlen l * 90 / 100) by (apply Z.div_pos; lia).
  destruct (Z.leb_spec (zlen l) (zlen l * 90 / 100)); destruct (_ =? _); destruct (0 <? _) eqn:E; cbn [andb];
    try rewrite Z.ltb_lt in E; lia.
Qed.
Lemma max_loop_some win mid n : forall j mi mv, 0 <= j -> j + Z.of_nat n <= zlen win ->
  exists r, max_loop win mid n j mi mv = Some r.
Proof.
  induction n as [|n IH]; intros j mi mv Hj Hn; cbn [max_loop]; [eauto|].
  destruct (getZ_is win j) as [x ->]; [lia|]. cbn [mbind option_bind].
  destruct (ltQ mv x); [apply IH; lia|]. destruct (ltQ x mid); [eauto|apply IH; lia].
Qed.
Lemma max_loop_ge win mid n : forall j mi mv r, mi <= j -> max_loop win mid n j mi mv = Some r -> mi <= r.
Proof.
  induction n as [|n IH]; intros j mi mv r Hj; cbn [max_loop]; [intros [= ->]; lia|].
  destruct (getZ win j) as [x|]; [|done]. cbn [mbind option_bind].
  destruct (ltQ mv x); [intros E; apply IH in E; lia|]. destruct (ltQ x mid); [intros [= ->]; lia|].
  intros E. apply IH in E; lia.
Qed.

Definition wide (mm : Z) (win : list Q) : Prop := mm / 2 + 2 <= zlen win.

Lemma soft_step_some df mm ms i win cand lastp amn : 7 <= mm -> 0 <= i -> wide mm win ->
  exists win' r, soft_step df mm ms i (win, cand, lastp, amn) = Some (win', r.1.1, r.1.2, r.2) /\ wide mm win'.
Proof.
  intros Hmm Hi Hw. unfold wide in *. unfold soft_step.
  assert (Hm2 : mm / 2 + 2 <= mm) by (assert (mm / 2 * 2 <= mm) by (rewrite Z.mul_comm; apply Z.mul_div_le; lia); lia).
  assert (3 <= mm / 2) by (apply Z.div_le_lower_bound; lia).
  set (ms' := Z.min mm (zlen win)) in *. assert (Hms : mm / 2 + 2 <= ms') by lia.
  destruct (Z.leb_spec ms' (mm / 2)); [lia|].
  assert (Hnext : exists x, (if i + ms' - mm / 2 <? zlen df then getZ df (i + ms' - mm / 2) else Some 0%Q) = Some x).
  { destruct (Z.ltb_spec (i + ms' - mm / 2) (zlen df)); [|eauto]. apply getZ_is. lia. }
  destruct Hnext as [next ->]. cbn [mbind option_bind].
  destruct (Z.ltb_spec ms' 2); [lia|].
  assert (Htk : zlen (take (Z.to_nat ms') win) = ms').
  { unfold zlen in *. rewrite take_length. lia. }
  rewrite bool_decide_eq_false_2 by lia.
  destruct (threshold_ok (sortQ (take (Z.to_nat ms') win))) as [th ->].
  { unfold zlen. rewrite sortQ_length. fold (zlen (take (Z.to_nat ms') win)). lia. }
  cbn [mbind option_bind].
  assert (Ht : exists t, soft_test win (mm / 2) th amn = Some t).
  { unfold soft_test. destruct (getZ_is win (mm / 2)) as [m ->]; [lia|].
    destruct (getZ_is win (mm / 2 - 1)) as [a ->]; [lia|]. destruct (getZ_is win (mm / 2 + 1)) as [b ->]; [lia|].
    cbn [mbind option_bind]. destruct (ltQ th m); [|eauto]. destruct (ltQ a m); eauto. }
  destruct Ht as [t ->]. cbn [mbind option_bind].
  assert (Hw2 : mm / 2 + 2 <= zlen ((if mm <=? ms' then drop 1 win else win) ++ [next])).
  { rewrite zlen_app. change (zlen [next]) with 1. destruct (Z.leb_spec mm ms'); [|lia].
    unfold zlen in *. rewrite drop_length. lia. }
  destruct t.
  - destruct (getZ_is win (mm / 2)) as [m ->]; [lia|]. cbn [mbind option_bind].
    destruct (max_loop_some win m (Z.to_nat (ms' - (mm / 2 + 1))) (mm / 2 + 1) (mm / 2) m) as [r ->]; [lia|lia|].
    cbn [mbind option_bind]. eexists _, (_, _, _). split; [reflexivity|done].
  - cbn [mbind option_bind]. eexists _, (_, _, _). split; [reflexivity|done].
Qed.

Lemma soft_step_inv df mm ms i win cand lastp amn win' cand' lastp' amn' : 0 <= i ->
  soft_step df mm ms i (win, cand, lastp, amn) = Some (win', cand', lastp', amn') ->
  StronglySorted Z.lt cand -> Forall (fun y => 0 <= y < zlen df) cand ->
  StronglySorted Z.lt cand' /\ Forall (fun y => 0 <= y < zlen df) cand'.
Proof.
  intros Hi E Hs Hr. unfold soft_step in E.
  destruct (if _ <? zlen df then _ else _) as [next|]; [|done]. cbn [mbind option_bind] in E.
  destruct (Z.min mm (zlen win) <? 2).
  { injection E as <- <- <- <-. done. }
  destruct (bool_decide _); [done|].
  destruct (threshold _) as [th|]; [|done]. cbn [mbind option_bind] in E.
  set (middle := if Z.min mm (zlen win) <=? mm / 2 then _ else _) in *.
  destruct (soft_test _ _ _ _) as [[]|]; [..|done]; cbn [mbind option_bind] in E.
  - destruct (getZ win middle) as [m|]; [|done]. cbn [mbind option_bind] in E.
    destruct (max_loop _ _ _ _ _ _) as [mi|] eqn:Em; [|done]. cbn [mbind option_bind] in E.
    injection E as <- <- <- <-. apply max_loop_ge in Em; [|lia].
    destruct ((bool_decide (cand = []) || negb (lastp =? i + mi - middle)) && (i + mi - middle <? zlen df)) eqn:Ea; [|done].
    apply andb_true_iff in Ea as [_ Elt]. apply Z.ltb_lt in Elt. split; [by apply set_insert_sorted|].
    rewrite List.Forall_forall in *. intros y Hy. apply set_insert_In in Hy as [->|Hy]; [lia|]. by apply Hr.
  - injection E as <- <- <- <-. done.
Qed.

Lemma soft_loop_some df mm ms : 7 <= mm -> forall n i win cand lastp amn, 0 <= i -> wide mm win ->
  exists r, soft_loop df mm ms n i (win, cand, lastp, amn) = Some r.
Proof.
  intros Hmm. induction n as [|n IH]; intros i win cand lastp amn Hi Hw; cbn [soft_loop]; [eauto|].
  destruct (soft_step_some df mm ms i win cand lastp amn Hmm Hi Hw) as (win' & r & -> & Hw').
  cbn [mbind option_bind]. apply IH; [lia|done].
Qed.
Lemma soft_loop_inv df mm ms : forall n i win cand lastp amn win' cand' lastp' amn', 0 <= i ->
  soft_loop df mm ms n i (win, cand, lastp, amn) = Some (win', cand', lastp', amn') ->
  StronglySorted Z.lt cand -> Forall (fun y => 0 <= y < zlen df) cand ->
  StronglySorted Z.lt cand' /\ Forall (fun y => 0 <= y < zlen df) cand'.
Proof.
  induction n as [|n IH]; intros i win cand lastp amn win' cand' lastp' amn' Hi E Hs Hr; cbn [soft_loop] in E.
  - injection E as <- <- <- <-. done.
  - destruct (soft_step df mm ms i (win, cand, lastp, amn)) as [[[[w1 c1] l1] a1]|] eqn:E1; [|done].
    cbn [mbind option_bind] in E.
    destruct (soft_step_inv _ _ _ _ _ _ _ _ _ _ _ _ Hi E1 Hs Hr). eapply IH; [|exact E|done|done]. lia.
Qed.

Section merge.
  Context (rate incr amn N : Z) (Hamn : rate <= 20 * incr * amn) (Hincr : 0 <= incr).

  Definition ahead_h (o : peak) (h : Z) : Prop := chunk o < h /\ (hard o = true -> chunk o + amn <= h).
  Definition ahead_s (o : peak) (s : Z) : Prop := chunk o < s.

  Lemma merge_ok : forall n hs ss out, (length hs + length ss <= n)%nat ->
    StronglySorted (apart amn) hs -> StronglySorted Z.lt hs -> StronglySorted Z.lt ss ->
    Forall (fun y => 0 <= y < N) hs -> Forall (fun y => 0 <= y < N) ss ->
    StronglySorted (fun a b => before rate incr b a) out -> Forall (fun p => 0 <= chunk p < N) out ->
    Forall (fun o => Forall (ahead_h o) hs /\ Forall (ahead_s o) ss) out ->
    exists ps, merge_loop n hs ss out = Some ps /\ StronglySorted (before rate incr) ps /\
      Forall (fun p => 0 <= chunk p < N) ps.
  Proof using Hamn Hincr.
    assert (Hdone : forall out, StronglySorted (fun a b => before rate incr b a) out ->
      Forall (fun p => 0 <= chunk p < N) out ->
      exists ps, Some (rev out) = Some ps /\ StronglySorted (before rate incr) ps /\ Forall (fun p => 0 <= chunk p < N) ps).
    { intros out H1 H2. exists (rev out). split; [done|]. split; [by apply SS_rev|].
      rewrite List.Forall_forall in *. intros p Hp. apply H2. by apply in_rev. }
    assert (Hhard : forall (hs : list Z) h out, StronglySorted (fun a b => before rate incr b a) out ->
      Forall (fun o => ahead_h o h) out -> StronglySorted (fun a b => before rate incr b a) (Peak h true :: out)).
    { intros hs h out H1 H2. constructor; [done|]. eapply Forall_impl; [exact H2|]. intros o [Ha Hb].
      unfold before. cbn [chunk hard]. split; [done|]. split; [|done]. intros Ho _. specialize (Hb Ho). nia. }
    assert (Hsoft : forall s out, StronglySorted (fun a b => before rate incr b a) out ->
      Forall (fun o => ahead_s o s) out ->
      match out with q :: _ => hard q && (s <=? chunk q + 3) | [] => false end = false ->
      StronglySorted (fun a b => before rate incr b a) (Peak s false :: out)).
    { intros s out H1 H2 Hig. constructor; [done|]. destruct out as [|q out]; [constructor|].
      apply Forall_cons_1 in H2 as [Hq H2]. inversion_clear H1 as [|? ? H1' Hall].
      assert (Hb : before rate incr q (Peak s false)).
      { unfold before. cbn [chunk hard]. split; [done|]. split; [done|]. intros Hh _. rewrite Hh in Hig. cbn [andb] in Hig. lia. }
      constructor; [done|]. rewrite List.Forall_forall in *. intros o Ho. specialize (Hall o Ho).
      destruct Hall as (Ha & Hb1 & Hb2). destruct Hb as (Hc & _ & Hd). cbn [chunk hard] in *.
      split; [cbn; lia|]. split; [done|]. intros Hoh _. cbn [chunk].
      destruct (hard q) eqn:Eq; [specialize (Hd eq_refl eq_refl); lia|]. specialize (Hb2 Hoh eq_refl). lia. }
    induction n as [|n IH]; intros hs ss out Hn Hh Hhl Hs Hrh Hrs Ho Hro Hah.
    { destruct hs; [|cbn in Hn; lia]. destruct ss; [|cbn in Hn; lia]. cbn [merge_loop]. by apply Hdone. }
    destruct hs as [|h hs].
    - destruct ss as [|s ss]; [cbn [merge_loop]; by apply Hdone|].
      cbn [merge_loop]. rewrite (bool_decide_eq_true_2 ([] = [])) by done. cbn [negb andb head tail default from_option]. unfold id.
      inversion_clear Hs as [|? ? Hs' Hsall]. apply Forall_cons_1 in Hrs as [Hrs1 Hrs2].
      assert (Has : Forall (fun o => ahead_s o s) out).
      { eapply Forall_impl; [exact Hah|]. intros o [_ Hx]. by apply Forall_cons_1 in Hx as [Hx _]. }
      assert (Hah' : Forall (fun o => Forall (ahead_h o) [] /\ Forall (ahead_s o) ss) out).
      { eapply Forall_impl; [exact Hah|]. intros o [_ Hx]. split; [done|]. by apply Forall_cons_1 in Hx as [_ Hx]. }
      destruct (match out with q :: _ => hard q && (s <=? chunk q + 3) | [] => false end) eqn:Eig.
      + apply IH; try done; try by constructor. cbn in *. lia.
      + apply IH; [cbn in *; lia|constructor|constructor|done|done|done|by apply Hsoft|by constructor|].
        constructor; [|done]. split; [done|]. eapply Forall_impl; [exact Hsall|]. done.
    - inversion_clear Hh as [|? ? Hh' Hhall]. inversion_clear Hhl as [|? ? Hhl' Hhlall].
      apply Forall_cons_1 in Hrh as [Hrh1 Hrh2].
      assert (Hahh : Forall (fun o => ahead_h o h) out).
      { eapply Forall_impl; [exact Hah|]. intros o [Hx _]. by apply Forall_cons_1 in Hx as [Hx _]. }
      assert (Hph : Forall (ahead_h (Peak h true)) hs).
      { rewrite List.Forall_forall in *. intros x Hx. split; cbn [chunk]; [by apply Hhlall|]. intros _. by apply Hhall. }
      destruct ss as [|s ss].
      + cbn [merge_loop]. rewrite (bool_decide_eq_false_2 (h :: hs = [])), (bool_decide_eq_true_2 ([] = [])) by done.
        cbn [negb andb orb head tail default from_option]. unfold id.
        apply IH; try done; [cbn in *; lia|by apply (Hhard hs)|by constructor|].
        constructor; [done|]. eapply Forall_impl; [exact Hah|]. intros o [Hx _]. split; [|done].
        by apply Forall_cons_1 in Hx as [_ Hx].
      + cbn [merge_loop]. rewrite (bool_decide_eq_false_2 (h :: hs = [])), (bool_decide_eq_false_2 (s :: ss = [])) by done.
        cbn [negb andb orb head tail default from_option]. unfold id.
        pose proof Hs as Hs0. inversion_clear Hs0 as [|? ? Hs' Hsall]. pose proof Hrs as Hrs0. apply Forall_cons_1 in Hrs0 as [Hrs1 Hrs2].
        destruct (Z.leb_spec h s) as [Hle|Hgt].
        * destruct (Z.eqb_spec h s) as [<-|Hne].
          -- apply IH; try done; [cbn in *; lia|by apply (Hhard hs)|by constructor|].
             constructor; [split; [done|]; eapply Forall_impl; [exact Hsall|]; done|].
             eapply Forall_impl; [exact Hah|]. intros o [Hx Hy].
             apply Forall_cons_1 in Hx as [_ Hx]. apply Forall_cons_1 in Hy as [_ Hy]. done.
          -- apply IH; try done; [cbn in *; lia|by apply (Hhard hs)|by constructor|].
             constructor.
             ++ split; [done|]. constructor; [unfold ahead_s; cbn; lia|]. eapply Forall_impl; [exact Hsall|].
                intros x Hx. unfold ahead_s. cbn. lia.
             ++ eapply Forall_impl; [exact Hah|]. intros o [Hx Hy].
                apply Forall_cons_1 in Hx as [_ Hx]. done.
        * assert (Has : Forall (fun o => ahead_s o s) out).
          { eapply Forall_impl; [exact Hah|]. intros o [_ Hx]. by apply Forall_cons_1 in Hx as [Hx _]. }
          assert (Hah' : Forall (fun o => Forall (ahead_h o) (h :: hs) /\ Forall (ahead_s o) ss) out).
          { eapply Forall_impl; [exact Hah|]. intros o [Hy Hx]. split; [done|]. by apply Forall_cons_1 in Hx as [_ Hx]. }
          destruct (match out with q :: _ => hard q && (s <=? chunk q + 3) | [] => false end) eqn:Eig.
          -- apply IH; try done; [cbn in *; lia|by constructor|by constructor|by constructor].
          -- apply IH; try done; [cbn in *; lia|by constructor|by constructor|by constructor|by apply Hsoft|by constructor|].
             constructor; [|done]. split.
             ++ constructor; [split; cbn; [lia|done]|]. rewrite List.Forall_forall in *. intros x Hx.
                split; cbn; [|done]. specialize (Hhlall x Hx). lia.
             ++ eapply Forall_impl; [exact Hsall|]. done.
  Qed.
End merge.

Lemma apart_lt d l : 1 <= d -> StronglySorted (apart d) l -> StronglySorted Z.lt l.
Proof.
  intros Hd. induction 1 as [|x l Hs IH Hx]; constructor; [done|].
  eapply Forall_impl; [exact Hx|]. unfold apart. intros; lia.
Qed.

Section find.
  Context (c : calc) (Hrate : 1 <= sampleRate c) (Hincr : 1 <= increment c).

  Lemma median_max_ge : 7 <= median_max (sampleRate c) (increment c).
  Proof using Type. unfold median_max. lia. Qed.

  Lemma hard_part raw df : zlen df = zlen raw ->
    exists hs, (if useHardPeaks c
        then hard_loop raw df (spacing (sampleRate c) (increment c)) (Z.to_nat (zlen df - 2)) 1 [] 0
        else Some []) = Some hs /\
      StronglySorted (apart (spacing (sampleRate c) (increment c))) hs /\ Forall (fun y => 1 <= y < zlen df) hs /\
      (useHardPeaks c = false -> hs = []).
  Proof using Hrate Hincr.
    intros Hlen. destruct (spacing_bounds _ _ Hrate Hincr) as [Hs1 _].
    destruct (useHardPeaks c).
    - destruct (Z_lt_ge_dec (zlen df) 2) as [Hlt|Hge].
      + replace (Z.to_nat (zlen df - 2)) with 0%nat by lia. exists []. split; [done|]. split; [constructor|]. done.
      + destruct (hard_loop_ok raw df _ Hs1 Hlen (Z.to_nat (zlen df - 2)) 1 [] 0) as (hs & H1 & H2 & H3);
          [lia|lia|constructor|done|done|]. exists hs. done.
    - exists []. split_and!; try done. constructor.
  Qed.

  Lemma findPeaks_ok raw ps : findPeaks c raw = Some ps ->
    StronglySorted (before (sampleRate c) (increment c)) ps /\ Forall (fun p => 0 <= chunk p < zlen raw) ps /\
    (useHardPeaks c = false -> Forall (fun p => hard p = false) ps).
  Proof using Hrate Hincr.
    unfold findPeaks. destruct (smoothDF_ok raw) as (df & -> & Hlen). cbn [mbind option_bind].
    destruct (hard_part raw df Hlen) as (hs & -> & Hs & Hr & Hno). cbn [mbind option_bind].
    destruct (soft_loop _ _ _ _ _ _) as [[[[w ss] lp] am]|] eqn:El; [|done]. cbn [mbind option_bind].
    apply soft_loop_inv in El as [Hss Hsr]; [|lia|constructor|done].
    destruct (spacing_bounds _ _ Hrate Hincr) as [Hs1 Hs2]. intros E.
    destruct (merge_ok (sampleRate c) (increment c) (spacing (sampleRate c) (increment c)) (zlen raw) Hs2 ltac:(lia)
      (length hs + length ss) hs ss []) as (ps' & E' & H1 & H2); try done.
    - by eapply apart_lt.
    - rewrite <- Hlen. eapply Forall_impl; [exact Hr|]. cbv beta. intros; lia.
    - rewrite <- Hlen. done.
    - constructor.
    - rewrite E' in E. injection E as ->. split_and!; try done. intros Hu. specialize (Hno Hu). subst hs.
      clear -E'. cbn [length] in E'.
      assert (H : forall n ss out ps, Forall (fun p => hard p = false) out -> merge_loop n [] ss out = Some ps ->
        Forall (fun p => hard p = false) ps).
      { clear. induction n as [|n IH]; intros ss out ps Ho E.
        - destruct ss; cbn [merge_loop] in E; [|done]. injection E as <-. rewrite List.Forall_forall in *. intros p Hp. apply Ho. by apply in_rev.
        - destruct ss as [|s ss]; cbn [merge_loop] in E.
          + injection E as <-. rewrite List.Forall_forall in *. intros p Hp. apply Ho. by apply in_rev.
          + rewrite (bool_decide_eq_true_2 ([] = [])) in E by done. cbn [negb andb tail] in E.
            eapply IH; [|exact E]. match goal with |- Forall _ (if ?b then _ else _) => destruct b end; [done|by constructor]. }
      eapply H; [|exact E']. done.
  Qed.

  Lemma findPeaks_some raw : zlen raw <> 1 -> exists ps, findPeaks c raw = Some ps.
  Proof using Hrate Hincr.
    intros Hne. unfold findPeaks. destruct (smoothDF_ok raw) as (df & -> & Hlen). cbn [mbind option_bind].
    destruct (hard_part raw df Hlen) as (hs & -> & Hs & Hr & _). cbn [mbind option_bind].
    set (mm := median_max (sampleRate c) (increment c)). pose proof median_max_ge as Hmm. fold mm in Hmm.
    assert (Hso : exists r, soft_loop df mm (spacing (sampleRate c) (increment c)) (length df) 0
      (replicate (Z.to_nat (mm / 2)) 0%Q ++ take (Z.to_nat (mm / 2)) df, [], 0, 0) = Some r).
    { destruct (Z.eq_dec (zlen df) 0) as [H0|H0].
      - unfold zlen in H0. assert (length df = 0%nat) as -> by lia. cbn. eauto.
      - apply soft_loop_some; [done|lia|]. unfold wide. rewrite zlen_app. unfold zlen in *.
        rewrite replicate_length, take_length.
        assert (3 <= mm / 2) by (apply Z.div_le_lower_bound; lia). lia. }
    destruct Hso as [[[[w ss] lp] am] El]. rewrite El. cbn [mbind option_bind].
    apply soft_loop_inv in El as [Hss Hsr]; [|lia|constructor|done].
    destruct (spacing_bounds _ _ Hrate Hincr) as [Hs1 Hs2].
    destruct (merge_ok (sampleRate c) (increment c) (spacing (sampleRate c) (increment c)) (zlen raw) Hs2 ltac:(lia)
      (length hs + length ss) hs ss []) as (ps' & E' & H1 & H2); try done; eauto.
    - by eapply apart_lt.
    - rewrite <- Hlen. eapply Forall_impl; [exact Hr|]. cbv beta. intros; lia.
    - rewrite <- Hlen. done.
    - constructor.
  Qed.
End find.
