From stdpp Require Import base list numbers.
From Coq Require Import ZArith Lia ZifyNat ZifyBool.
From Verif.RingBuffer Require Import Model Proofs.
From Verif.Filters Require Import Model Spec MMProofs.
Local Open Scope nat_scope.

(** The histogram [h] counts the window [win]. *)
Definition counts (nv : nat) (h : list Z) (win : list Z) : Prop :=
  length h = nv /\ forall i, i < nv -> h !! i = Some (Z.of_nat (occurrences win (Z.of_nat i))).

Definition hf_inv (nv n : nat) (f : hf) (win : list Z) : Prop :=
  wf (hbuf f) /\ size (hbuf f) = n + 1 /\ contents (hbuf f) = win /\ length win <= n /\
  Forall (in_range nv) win /\ counts nv (hist f) win /\ (-1 <= hmode f < Z.of_nat nv)%Z.

(** The cached mode, if any, is right (a stale value on an empty window is harmless). *)
Definition mode_inv (f : hf) (win : list Z) : Prop :=
  hmode f = (-1)%Z \/ win = [] \/ is_mode win (hmode f).

Lemma occ_app l1 l2 v : occurrences (l1 ++ l2) v = occurrences l1 v + occurrences l2 v.
Proof. apply count_app. Qed.
Lemma occ_cons x l v : occurrences (x :: l) v = (if decide (v = x) then 1 else 0) + occurrences l v.
Proof. unfold occurrences, count; cbn. destruct (Z.eqb_spec v x); case_decide; cbn; try lia; done. Qed.
Lemma occ_nil v : occurrences [] v = 0.
Proof. done. Qed.
Lemma occ_single x v : occurrences [x] v = if decide (v = x) then 1 else 0.
Proof. rewrite occ_cons, occ_nil. lia. Qed.
Lemma occ_pos l v : v ∈ l <-> 0 < occurrences l v.
Proof.
  induction l as [|x l IH].
  - rewrite occ_nil, elem_of_nil. split; [done|lia].
  - rewrite elem_of_cons, occ_cons, IH. case_decide as Hd; split; intros; try lia; auto;
    try (destruct H; [done|lia]).
Qed.

Lemma hget_counts nv h win v : counts nv h win -> in_range nv v ->
  hget h v = Some (Z.of_nat (occurrences win v)).
Proof.
  intros [Hl H] [Hv1 Hv2]. unfold hget. destruct (Z.ltb_spec v 0); [lia|].
  rewrite H by lia. by rewrite Z2Nat.id by lia.
Qed.

Lemma hadd_counts nv h win win' v d : counts nv h win -> in_range nv v ->
  (forall u, in_range nv u -> Z.of_nat (occurrences win' u) =
        (Z.of_nat (occurrences win u) + if decide (u = v) then d else 0)%Z) ->
  exists h', hadd h v d = Some h' /\ counts nv h' win'.
Proof.
  intros Hc Hv Hd. unfold hadd. rewrite (hget_counts nv h win v Hc Hv). cbn [mbind option_bind].
  eexists; split; [done|]. destruct Hc as [Hl Hc]. destruct Hv. split; [by rewrite insert_length|].
  intros i Hi. destruct (decide (i = Z.to_nat v)) as [->|Hne].
  - rewrite list_lookup_insert by lia. f_equal. rewrite Z2Nat.id by lia.
    rewrite Hd by (split; lia). rewrite decide_True by done. done.
  - rewrite list_lookup_insert_ne by lia. rewrite Hc by done. f_equal.
    rewrite Hd by (split; lia). rewrite decide_False by lia. lia.
Qed.

Lemma is_mode_push win m x m' : is_mode win m ->
  m' = (if decide (occurrences win m + (if decide (m = x) then 1 else 0) <= occurrences win x + 1)
        then if decide (occurrences win m + (if decide (m = x) then 1 else 0) < occurrences win x + 1 \/ (x < m)%Z)
             then x else m
        else m) ->
  is_mode (win ++ [x]) m'.
Proof.
  intros [Hm1 Hm2] ->.
  assert (Hocc : forall v, occurrences (win ++ [x]) v = occurrences win v + if decide (v = x) then 1 else 0).
  { intros v. by rewrite occ_app, occ_single. }
  assert (Hall : forall v, occurrences win v < occurrences win m \/
                    (occurrences win v = occurrences win m /\ (m <= v)%Z)).
  { intros v. destruct (decide (v ∈ win)) as [H|H]; [auto|]. left.
    assert (~ 0 < occurrences win v) by (intros Hp; apply H; by apply occ_pos).
    apply occ_pos in Hm1. lia. }
  split.
  - apply elem_of_app. repeat case_decide; auto; right; by apply elem_of_list_singleton.
  - intros v _. specialize (Hall v) as Hv. specialize (Hall x) as Hx.
    rewrite !Hocc. destruct (decide (v = x)) as [->|Hvx]; destruct (decide (m = x)) as [->|Hmx];
    repeat case_decide; try lia.
Qed.

Lemma is_mode_drop y win m : is_mode (y :: win) m -> m <> y -> is_mode win m.
Proof.
  intros [H1 H2] Hne. apply elem_of_cons in H1 as [->|H1]; [done|]. split; [done|].
  intros v Hv. specialize (H2 v ltac:(by apply elem_of_cons; right)).
  rewrite !occ_cons in H2. rewrite (decide_False (P := m = y)) in H2 by done.
  repeat case_decide; try lia.
  Unshelve.
Qed.

Lemma slide_full {A} n (y : A) win x : length (y :: win) = n -> slide n (y :: win) x = win ++ [x].
Proof.
  intros H. unfold slide. rewrite app_length. cbn [length] in *.
  replace (S (length win) + 1 - n) with 1 by lia. done.
Qed.
Lemma slide_room {A} n (win : list A) x : length win < n -> slide n win x = win ++ [x].
Proof.
  intros H. unfold slide. rewrite app_length. cbn [length] in *.
  replace (length win + 1 - n) with 0 by lia. done.
Qed.

Lemma hf_push_inv nv n f win x : 1 <= n -> hf_inv nv n f win -> in_range nv x ->
  exists f', hf_push f x = Some f' /\ hf_inv nv n f' (slide n win x) /\
    (mode_inv f win -> harmless n win (HPush x) -> mode_inv f' (slide n win x)) /\
    (hmode f = -1 -> hmode f' = -1)%Z.
Proof.
  intros Hn (Hwf & Hs & Hc & Hle & Hr & Hcn & Hm) Hx.
  pose proof (contents_length _ Hwf) as Hcl. rewrite Hc in Hcl.
  pose proof (writeSpace_eq _ Hwf) as Hws. unfold getSize in Hws.
  change (getReadSpace (hbuf f)) with (st_readSpace (hbuf f)) in *.
  change (getWriteSpace (hbuf f)) with (st_writeSpace (hbuf f)) in *.
  unfold hf_push. set (first := if decide _ then _ else _).
  (* the eviction part *)
  assert (exists b1 h1 win1, first = Some (b1, h1) /\ wf b1 /\ size b1 = n + 1 /\ contents b1 = win1 /\
     length win1 < n /\ counts nv h1 win1 /\ slide n win x = win1 ++ [x] /\
     (length win < n /\ win1 = win \/ length win = n /\ exists y, win = y :: win1))
    as (b1 & h1 & win1 & -> & Hwf1 & Hs1 & Hc1 & Hl1 & Hcn1 & Hsl & Hcase).
  { unfold first. case_decide as Hd.
    - assert (Hfull : length win = n) by lia.
      destruct win as [|y win]; [cbn in *; lia|].
      destruct (st_readOne_spec 0%Z (hbuf f) Hwf) as (b1 & -> & Hwf1 & Hs1 & Hc1).
      rewrite Hc in Hc1 |- *. cbn [mbind option_bind head default from_option id].
      apply Forall_cons_1 in Hr as [Hy Hr'].
      destruct (hadd_counts nv (hist f) (y :: win) win y (-1) Hcn Hy) as (h1 & -> & Hcn1).
      { intros u _. rewrite occ_cons. repeat case_decide; lia. }
      cbn [mbind option_bind]. exists b1, h1, win. split; [done|].
      split_and!; auto; try lia; cbn [length drop] in *; try lia.
      + by apply slide_full.
      + right. split; [done|]. eauto.
    - assert (length win < n) by lia.
      exists (hbuf f), (hist f), win. split_and!; auto; try lia. by apply slide_room. }
  cbn [mbind option_bind].
  destruct (st_writeOne_spec b1 x Hwf1) as (b2 & -> & Hwf2 & Hs2 & Hc2).
  { pose proof (contents_length _ Hwf1) as Hcl1. rewrite Hc1 in Hcl1.
    change (getReadSpace b1) with (st_readSpace b1) in Hcl1. lia. }
  cbn [mbind option_bind].
  destruct (hadd_counts nv h1 win1 (win1 ++ [x]) x 1 Hcn1 Hx) as (h2 & -> & Hcn2).
  { intros u _. rewrite occ_app, occ_single. case_decide; lia. }
  cbn [mbind option_bind]. rewrite (hget_counts _ _ _ _ Hcn2 Hx). cbn [mbind option_bind].
  assert (Hr2 : Forall (in_range nv) (win1 ++ [x])).
  { apply Forall_app. split; [|by constructor; [|constructor]].
    destruct Hcase as [[_ ->]|[_ [y ->]]]; [done|]. by apply Forall_cons_1 in Hr as [_ ?]. }
  assert (Hinv : forall m, (-1 <= m < Z.of_nat nv)%Z -> hf_inv nv n (HF b2 h2 m) (slide n win x)).
  { intros m Hmm. rewrite Hsl. unfold hf_inv; cbn [hbuf hist hmode].
    split_and!; auto; try lia. { by rewrite Hc2, Hc1. } rewrite app_length; cbn; lia. }
  destruct (Z.leb_spec 0 (hmode f)) as [Hm0|Hm0].
  - rewrite (hget_counts _ _ _ (hmode f) Hcn2) by (split; lia). cbn [mbind option_bind].
    set (m' := if (_ <=? _)%Z then _ else _).
    assert (Hm' : m' = x \/ m' = hmode f) by (unfold m'; repeat case_match; auto).
    eexists; split; [done|]. split; [apply Hinv; destruct Hm' as [->| ->]; destruct Hx; lia|].
    split; [|lia]. intros HMI HH. unfold mode_inv; cbn [hmode]. right; right.
    rewrite Hsl. 
    assert (Hocc : forall v, occurrences (win1 ++ [x]) v = occurrences win1 v + if decide (v = x) then 1 else 0).
    { intros v. by rewrite occ_app, occ_single. }
    assert (Hm'eq : m' = if decide (occurrences win1 (hmode f) + (if decide (hmode f = x) then 1 else 0) <= occurrences win1 x + 1)
        then if decide (occurrences win1 (hmode f) + (if decide (hmode f = x) then 1 else 0) < occurrences win1 x + 1 \/ (x < hmode f)%Z)
             then x else hmode f
        else hmode f).
    { unfold m'. rewrite !Hocc. rewrite (decide_True (P := x = x)) by done.
      generalize (if decide (hmode f = x) then 1 else 0). intros d.
      destruct (Z.leb_spec (Z.of_nat (occurrences win1 (hmode f) + d)) (Z.of_nat (occurrences win1 x + 1)));
      [|rewrite decide_False by lia; done].
      rewrite decide_True by lia.
      destruct (Z.ltb_spec (Z.of_nat (occurrences win1 (hmode f) + d)) (Z.of_nat (occurrences win1 x + 1)));
      destruct (Z.ltb_spec x (hmode f)); cbn [orb];
      first [rewrite decide_True by lia; done | rewrite decide_False by lia; done]. }
    assert (Hnil : win1 = [] -> is_mode (win1 ++ [x]) m').
    { intros ->. assert (m' = x) as ->.
      { rewrite Hm'eq, !occ_nil. destruct (decide (hmode f = x)) as [->|].
        - repeat case_decide; auto.
        - rewrite decide_True by lia. rewrite decide_True by lia. done. }
      cbn. split; [by apply elem_of_list_singleton|]. intros v Hv.
      apply elem_of_list_singleton in Hv as ->. right. split; [done|lia]. }
    destruct HMI as [HMI|[HMI|HMI]]; [lia| |].
    { destruct Hcase as [[_ ->]|[_ [y E]]]; [auto|]. by rewrite HMI in E. }
    destruct Hcase as [[_ ->]|[Hfull [y ->]]].
    { apply (is_mode_push _ _ _ _ HMI Hm'eq). }
    destruct (decide (hmode f = y)) as [Ey|Ey].
    + (* evicting the mode: only when the same value comes back *)
      destruct (HH Hfull) as [<-|Hnm]; [|by rewrite Ey in HMI].
      (* y :: win1 and win1 ++ [y] have the same counts *)
      assert (m' = hmode f) as -> by (rewrite Hm'eq, Ey; repeat case_decide; auto).
      destruct HMI as [A B]. split.
      { apply elem_of_app. right. rewrite Ey. by apply elem_of_list_singleton. }
      intros v Hv. specialize (B v). rewrite !occ_cons in B. rewrite !Hocc.
      assert (v ∈ y :: win1) as Hv'.
      { apply elem_of_cons. apply elem_of_app in Hv as [Hv|Hv]; [auto|].
        apply elem_of_list_singleton in Hv. auto. }
      specialize (B Hv'). repeat case_decide; try lia.
    + apply is_mode_drop in HMI; [|done].
      apply (is_mode_push _ _ _ _ HMI Hm'eq).
  - eexists; split; [done|]. split; [by apply Hinv|]. split; [|done].
    intros HMI HH. left. cbn. lia.
Qed.

Lemma hf_drop_inv nv n f win : hf_inv nv n f win ->
  exists f', hf_drop f = Some f' /\ hf_inv nv n f' (tail win) /\
    (mode_inv f win -> mode_inv f' (tail win)) /\ (hmode f = -1 -> hmode f' = -1)%Z.
Proof.
  intros H. pose proof H as (Hwf & Hs & Hc & Hle & Hr & Hcn & Hm).
  pose proof (contents_length _ Hwf) as Hcl. rewrite Hc in Hcl.
  change (getReadSpace (hbuf f)) with (st_readSpace (hbuf f)) in *.
  unfold hf_drop. destruct win as [|y win]; cbn [length] in Hcl.
  { rewrite decide_False by lia. eauto. }
  rewrite decide_True by lia.
  destruct (st_readOne_spec 0%Z (hbuf f) Hwf) as (b1 & -> & Hwf1 & Hs1 & Hc1).
  rewrite Hc in Hc1 |- *. cbn [mbind option_bind head default from_option id].
  apply Forall_cons_1 in Hr as [Hy Hr'].
  destruct (hadd_counts nv (hist f) (y :: win) win y (-1) Hcn Hy) as (h1 & -> & Hcn1).
  { intros u _. rewrite occ_cons. repeat case_decide; lia. }
  cbn [mbind option_bind]. eexists; split; [done|].
  cbn [tail drop length] in *. split.
  { unfold hf_inv; cbn [hbuf hist hmode]. split_and!; auto; try lia;
    destruct (y =? hmode f)%Z; lia. }
  split.
  - intros [HM|[HM|HM]]; [|done|].
    + left. cbn. destruct (y =? hmode f)%Z; lia.
    + unfold mode_inv; cbn [hmode]. destruct (Z.eqb_spec y (hmode f)); [by left|].
      right; right. by apply is_mode_drop in HM.
  - intros HM. cbn. rewrite HM. destruct (y =? -1)%Z; done.
Qed.

Lemma hf_reset_inv nv n f win : hf_inv nv n f win ->
  hf_inv nv n (hf_reset f) [] /\ mode_inv (hf_reset f) [].
Proof.
  intros (Hwf & Hs & Hc & Hle & Hr & [Hl Hcn] & Hm). destruct (st_reset_spec _ Hwf) as [A B].
  split; [|right; left; done].
  unfold hf_inv, hf_reset; cbn [hbuf hist hmode]. split_and!; auto; cbn; try lia.
  split; [by rewrite replicate_length|]. intros i Hi. by rewrite lookup_replicate_2 by lia.
Qed.

Lemma hf_new_inv nv n : hf_inv nv n (hf_new nv n) [] /\ mode_inv (hf_new nv n) [].
Proof.
  split; [|by left]. unfold hf_inv, hf_new; cbn [hbuf hist hmode]. split_and!; auto; cbn; try lia.
  - apply st_new_wf.
  - split; [by rewrite replicate_length|]. intros i Hi. by rewrite lookup_replicate_2 by lia.
Qed.

(** [mode_loop] returns the first index of a maximum. *)
Lemma mode_loop_spec h : forall pre mx (mode : nat),
  (pre = [] \/ (pre !! mode = Some mx /\ forall i y, pre !! i = Some y -> (y < mx)%Z \/ y = mx /\ mode <= i)) ->
  pre ++ h <> [] ->
  let r := mode_loop h (length pre) mx mode in
  exists mxr, (pre ++ h) !! r = Some mxr /\
    forall i y, (pre ++ h) !! i = Some y -> (y < mxr)%Z \/ y = mxr /\ r <= i.
Proof.
  induction h as [|x h IH]; intros pre mx mode Hpre Hne r.
  - rewrite app_nil_r in *. destruct Hpre as [->|[A B]]; [done|]. exists mx. auto.
  - assert (Hlen : S (length pre) = length (pre ++ [x])) by (rewrite app_length; cbn; lia).
    replace (pre ++ x :: h) with ((pre ++ [x]) ++ h) in * by (by rewrite <- app_assoc).
    subst r. cbn [mode_loop]. rewrite Hlen.
    assert (Hcase1 : (pre = [] \/ (forall i y, pre !! i = Some y -> (y < x)%Z)) ->
      (pre ++ [x]) !! length pre = Some x /\
      forall i y, (pre ++ [x]) !! i = Some y -> (y < x)%Z \/ y = x /\ length pre <= i).
    { intros Hall. split; [by rewrite lookup_app_r, Nat.sub_diag by lia|].
      intros i y Hi. destruct (decide (i < length pre)).
      - rewrite lookup_app_l in Hi by done. destruct Hall as [->|Hall]; [cbn in *; lia|].
        left. eauto.
      - rewrite lookup_app_r in Hi by lia. apply list_lookup_singleton_Some in Hi as [? ->]. right. lia. }
    case_decide as Hd.
    + apply nil_length_inv in Hd as ->. apply IH; [|by destruct h]. right. apply Hcase1. by left.
    + destruct Hpre as [->|[A B]]; [done|].
      destruct (Z.ltb_spec mx x).
      * apply IH; [|done]. right. apply Hcase1. right. intros i y Hi. specialize (B i y Hi). lia.
      * apply IH; [|done]. right. split.
        { rewrite lookup_app_l; [done|]. by eapply lookup_lt_Some. }
        intros i y Hi. destruct (decide (i < length pre)).
        { rewrite lookup_app_l in Hi by done. eauto. }
        rewrite lookup_app_r in Hi by lia. apply list_lookup_singleton_Some in Hi as [? <-].
        apply lookup_lt_Some in A. lia.
Qed.

Lemma in_range_of nv n f win v : hf_inv nv n f win -> v ∈ win -> in_range nv v.
Proof. intros (_&_&_&_&Hr&_) Hv. rewrite list.Forall_forall in Hr. by apply Hr. Qed.

Lemma hf_fresh_mode nv n f win : hf_inv nv n f win -> win <> [] ->
  is_mode win (Z.of_nat (mode_loop (hist f) 0 0 0)).
Proof.
  intros H Hne. pose proof H as (Hwf & Hs & Hc & Hle & Hr & [Hl Hcn] & Hm).
  destruct win as [|w win0] eqn:E; [done|]. rewrite <- E in *.
  assert (Hw : in_range nv w). { eapply in_range_of; [exact H|]. subst win. apply elem_of_cons; by left. }
  destruct (mode_loop_spec (hist f) [] 0 0) as (mx & Hmx & Hall); [by left| |].
  { cbn. intros Hnil. rewrite Hnil in Hl. cbn in Hl. destruct Hw. lia. }
  cbn [length app] in *. set (r := mode_loop (hist f) 0 0 0) in *.
  pose proof (lookup_lt_Some _ _ _ Hmx) as Hrl. rewrite Hcn in Hmx by lia. injection Hmx as <-.
  assert (Hv : forall v, in_range nv v ->
     (Z.of_nat (occurrences win v) < Z.of_nat (occurrences win (Z.of_nat r)) \/
      Z.of_nat (occurrences win v) = Z.of_nat (occurrences win (Z.of_nat r)) /\ (Z.of_nat r <= v))%Z).
  { intros v [Hv1 Hv2]. specialize (Hall (Z.to_nat v) (Z.of_nat (occurrences win v))).
    rewrite Hcn in Hall by lia. rewrite Z2Nat.id in Hall by lia. specialize (Hall eq_refl). lia. }
  split.
  - apply occ_pos. specialize (Hv w Hw). assert (0 < occurrences win w); [|lia].
    apply occ_pos. subst win. apply elem_of_cons; by left.
  - intros v Hvw. specialize (Hv v (in_range_of _ _ _ _ _ H Hvw)). lia.
Qed.

Lemma hf_getMode_inv nv n f win : hf_inv nv n f win -> 1 <= nv ->
  hf_inv nv n (fst (hf_getMode f)) win /\
  (mode_inv f win -> mode_inv (fst (hf_getMode f)) win /\
    (win <> [] -> is_mode win (snd (hf_getMode f)))).
Proof.
  intros H Hnv. pose proof H as (Hwf & Hs & Hc & Hle & Hr & [Hl Hcn] & Hm).
  unfold hf_getMode. destruct (Z.leb_spec 0 (hmode f)).
  - cbn. split; [done|]. intros HM. split; [done|]. intros Hne. destruct HM as [HM|[HM|HM]]; [lia|done|done].
  - cbn [fst snd]. split.
    + unfold hf_inv; cbn [hbuf hist hmode]. split_and!; auto; [done| |].
      * lia.
      * destruct (mode_loop_spec (hist f) [] 0 0) as (mx & Hmx & Hall); [by left| |].
        { cbn. intros Hnil. rewrite Hnil in Hl. cbn in Hl. lia. }
        cbn [length app] in *. apply lookup_lt_Some in Hmx. lia.
    + intros _. destruct (decide (win = [])) as [->|Hne].
      * split; [right; by left|done].
      * pose proof (hf_fresh_mode nv n f win H Hne). split; [right; by right|done].
Qed.

Lemma hf_run_inv nv n os : 1 <= n -> 1 <= nv -> Forall (hf_op_ok nv) os ->
  forall f win, hf_inv nv n f win ->
  exists f', hf_run f os = Some f' /\ hf_inv nv n f' (fold_left (hf_win_step n) os win).
Proof.
  intros Hn Hnv. induction 1 as [|o os Ho Hos IH]; intros f win H; cbn.
  { eauto. }
  destruct o as [x| | |]; cbn [hf_step hf_win_step].
  - destruct (hf_push_inv nv n f win x Hn H Ho) as (f1 & -> & H1 & _). cbn [mbind option_bind]. auto.
  - destruct (hf_drop_inv nv n f win H) as (f1 & -> & H1 & _). cbn [mbind option_bind]. auto.
  - cbn [mbind option_bind]. apply IH. by apply (hf_reset_inv nv n f win).
  - cbn [mbind option_bind]. apply IH. by apply (hf_getMode_inv nv n f win).
Qed.

(** Median *)
Lemma count_lt_S win i : count (fun x => (x <? Z.of_nat (S i))%Z) win =
  count (fun x => (x <? Z.of_nat i)%Z) win + occurrences win (Z.of_nat i).
Proof.
  unfold occurrences, count. induction win as [|x win IH]; cbn [List.filter]; [done|].
  destruct (Z.ltb_spec x (Z.of_nat (S i))), (Z.ltb_spec x (Z.of_nat i)), (Z.eqb_spec (Z.of_nat i) x);
    cbn [length]; lia.
Qed.
Lemma count_le_lt win i : count (fun x => (x <=? Z.of_nat i)%Z) win =
  count (fun x => (x <? Z.of_nat (S i))%Z) win.
Proof.
  unfold count. induction win as [|x win IH]; cbn [List.filter]; [done|].
  destruct (Z.leb_spec x (Z.of_nat i)), (Z.ltb_spec x (Z.of_nat (S i))); cbn [length]; lia.
Qed.

Lemma median_loop_spec nv h0 win k : counts nv h0 win -> Forall (in_range nv) win -> k < length win ->
  forall h i, h = drop i h0 -> i <= nv ->
    count (fun x => (x <? Z.of_nat i)%Z) win <= k ->
    kth_smallest win k
      (median_loop h i (Z.of_nat (count (fun x => (x <? Z.of_nat i)%Z) win)) (Z.of_nat (S k))).
Proof.
  intros [Hl Hc] Hr Hk. induction h as [|x h IH]; intros i Hh Hi Hacc.
  - (* impossible: all values are below nv *)
    assert (i = nv) as ->.
    { apply (f_equal length) in Hh. rewrite drop_length in Hh. cbn in Hh. lia. }
    rewrite count_all in Hacc; [lia|]. intros y Hy. rewrite list.Forall_forall in Hr. specialize (Hr y Hy).
    destruct Hr. lia.
  - cbn [median_loop].
    assert (Hi' : i < nv). { apply (f_equal length) in Hh. rewrite drop_length in Hh. cbn in Hh. lia. }
    assert (Hx : x = Z.of_nat (occurrences win (Z.of_nat i))).
    { assert (h0 !! i = Some x) as Hx. { rewrite <- (Nat.add_0_r i), <- lookup_drop, <- Hh. done. }
      rewrite Hc in Hx by done. congruence. }
    subst x. rewrite <- Nat2Z.inj_add, <- count_lt_S.
    destruct (Z.leb_spec (Z.of_nat (S k)) (Z.of_nat (count (fun x => (x <? Z.of_nat (S i))%Z) win))).
    + split_and!; auto.
      * apply occ_pos. pose proof (count_lt_S win i). lia.
      * rewrite count_le_lt. lia.
    + apply IH; [|lia|lia].
      apply (f_equal (drop 1)) in Hh. rewrite drop_drop in Hh. cbn in Hh. rewrite drop_0 in Hh.
      by rewrite Nat.add_comm in Hh.
Qed.

Lemma hf_median_spec nv n f win : hf_inv nv n f win -> win <> [] ->
  kth_smallest win ((length win - 1) / 2) (hf_getMedian f).
Proof.
  intros (Hwf & Hs & Hc & Hle & Hr & Hcn & Hm) Hne.
  pose proof (contents_length _ Hwf) as Hcl. rewrite Hc in Hcl.
  change (getReadSpace (hbuf f)) with (st_readSpace (hbuf f)) in *.
  assert (Hpos : 0 < length win) by (destruct win; [done|cbn; lia]).
  unfold hf_getMedian. rewrite <- Hcl.
  replace (Z.quot (Z.of_nat (length win) + 1) 2) with (Z.of_nat (S ((length win - 1) / 2))).
  2: { rewrite Z.quot_div_nonneg by lia. rewrite Nat2Z.inj_succ, Nat2Z.inj_div, Nat2Z.inj_sub by lia.
       change (Z.of_nat 2) with 2%Z. change (Z.of_nat 1) with 1%Z.
       replace (Z.of_nat (length win) + 1)%Z with (Z.of_nat (length win) - 1 + 1 * 2)%Z by lia.
       rewrite Z.div_add by lia. lia. }
  pose proof (median_loop_spec nv (hist f) win ((length win - 1) / 2) Hcn Hr) as HM.
  assert (Hz : count (fun x => (x <? Z.of_nat 0)%Z) win = 0).
  { apply count_none. intros y Hy. rewrite list.Forall_forall in Hr. specialize (Hr y Hy). destruct Hr. lia. }
  assert (Hk : (length win - 1) / 2 < length win).
  { pose proof (Nat.div_le_upper_bound (length win - 1) 2 (length win - 1)). lia. }
  specialize (HM Hk (hist f) 0 (eq_sym (drop_0 _)) ltac:(lia) ltac:(lia)).
  rewrite Hz in HM. exact HM.
Qed.

Lemma final_median nv n os : 1 <= n -> 1 <= nv -> Forall (hf_op_ok nv) os ->
  let win := hf_window n os in win <> [] ->
  exists f, hf_run (hf_new nv n) os = Some f /\
    kth_smallest win ((length win - 1) / 2) (hf_getMedian f).
Proof.
  intros Hn Hnv Hos win Hne.
  destruct (hf_run_inv nv n os Hn Hnv Hos _ _ (proj1 (hf_new_inv nv n))) as (f & Hr & Hi).
  exists f. split; [done|]. by eapply hf_median_spec.
Qed.

(** Mode *)
Lemma hf_run_noquery nv n os : 1 <= n -> Forall (hf_op_ok nv) os -> Forall no_query os ->
  forall f win f', hf_inv nv n f win -> hmode f = (-1)%Z -> hf_run f os = Some f' ->
  hf_inv nv n f' (fold_left (hf_win_step n) os win) /\ hmode f' = (-1)%Z.
Proof.
  intros Hn. induction 1 as [|o os Ho Hos IH]; intros Hq f win f' H Hm Hr; cbn in *.
  { by injection Hr as <-. }
  inversion Hq as [|? ? Hq1 Hq2]; subst.
  destruct o as [x| | |]; cbn [hf_step hf_win_step no_query] in *; [| | |done].
  - destruct (hf_push_inv nv n f win x Hn H Ho) as (f1 & E & H1 & _ & H2). rewrite E in Hr. cbn in Hr. eauto.
  - destruct (hf_drop_inv nv n f win H) as (f1 & E & H1 & _ & H2). rewrite E in Hr. cbn in Hr. eauto.
  - cbn [mbind option_bind] in Hr. exact (IH Hq2 (hf_reset f) [] f' (proj1 (hf_reset_inv nv n f win H)) Hm Hr).
Qed.

Lemma hf_run_mode nv n os : 1 <= n -> 1 <= nv -> Forall (hf_op_ok nv) os ->
  forall f win f', hf_inv nv n f win -> mode_inv f win -> all_harmless n win os -> hf_run f os = Some f' ->
  hf_inv nv n f' (fold_left (hf_win_step n) os win) /\ mode_inv f' (fold_left (hf_win_step n) os win).
Proof.
  intros Hn Hnv. induction 1 as [|o os Ho Hos IH]; intros f win f' H Hm Hq Hr; cbn in *.
  { by injection Hr as <-. }
  destruct Hq as [Hq1 Hq2].
  destruct o as [x| | |]; cbn [hf_step hf_win_step] in *.
  - destruct (hf_push_inv nv n f win x Hn H Ho) as (f1 & E & H1 & H2 & _). rewrite E in Hr. cbn in Hr. eauto.
  - destruct (hf_drop_inv nv n f win H) as (f1 & E & H1 & H2 & _). rewrite E in Hr. cbn in Hr. eauto.
  - cbn [mbind option_bind] in Hr. destruct (hf_reset_inv nv n f win H). eapply IH; eauto.
  - cbn [mbind option_bind] in Hr. destruct (hf_getMode_inv nv n f win H Hnv) as [A B].
    destruct (B Hm) as [C _]. eapply IH; eauto.
Qed.

Lemma final_mode nv n os1 os2 : 1 <= n -> 1 <= nv ->
  Forall (hf_op_ok nv) (os1 ++ os2) -> Forall no_query os1 ->
  all_harmless n (hf_window n os1) os2 ->
  let win := hf_window n (os1 ++ os2) in win <> [] ->
  exists f, hf_run (hf_new nv n) (os1 ++ os2) = Some f /\ is_mode win (snd (hf_getMode f)).
Proof.
  intros Hn Hnv Hos Hq Hh win Hne. apply Forall_app in Hos as [Hos1 Hos2].
  destruct (hf_new_inv nv n) as [H0 _].
  destruct (hf_run_inv nv n os1 Hn Hnv Hos1 _ _ H0) as (f1 & Hr1 & _).
  destruct (hf_run_noquery nv n os1 Hn Hos1 Hq _ _ _ H0 eq_refl Hr1) as [Hi1 Hm1].
  destruct (hf_run_inv nv n os2 Hn Hnv Hos2 _ _ Hi1) as (f2 & Hr2 & _).
  destruct (hf_run_mode nv n os2 Hn Hnv Hos2 _ _ _ Hi1 (or_introl Hm1) Hh Hr2) as [Hi2 Hm2].
  exists f2. split.
  - clear -Hr1 Hr2. revert Hr1. generalize (hf_new nv n). induction os1 as [|o os1 IH]; cbn; intros f Hr1.
    + by injection Hr1 as ->.
    + destruct (hf_step f o); cbn in *; [|done]. eauto.
  - destruct (hf_getMode_inv nv n f2 _ Hi2 Hnv) as [_ B]. destruct (B Hm2) as [_ B2].
    unfold win, hf_window in *. rewrite fold_left_app in Hne |- *. auto.
Qed.

(** Array filter *)
Lemma hf_median_range nv n f win : hf_inv nv n f win -> win <> [] -> in_range nv (hf_getMedian f).
Proof.
  intros H Hne. destruct (hf_median_spec nv n f win H Hne) as [A _]. by eapply in_range_of.
Qed.
Lemma hf_mode_range nv n f win : hf_inv nv n f win -> 1 <= nv -> in_range nv (snd (hf_getMode f)).
Proof.
  intros H Hnv. pose proof H as (Hwf & Hs & Hc & Hle & Hr & [Hl Hcn] & Hm).
  unfold hf_getMode. destruct (Z.leb_spec 0 (hmode f)); cbn [snd]; [split; lia|].
  destruct (mode_loop_spec (hist f) [] 0 0) as (mx & Hmx & Hall); [by left| |].
  { cbn. intros Hnil. rewrite Hnil in Hl. cbn in Hl. lia. }
  cbn [length app] in *. apply lookup_lt_Some in Hmx. split; lia.
Qed.

Lemma hf_filter_loop_spec nv n (v0 : list Z) (modal : bool) : 1 <= n -> 1 <= nv -> Forall (in_range nv) v0 ->
  let half := n / 2 in
  let good (i : nat) (x : Z) : Prop := in_range nv x /\
     if modal then array_harmless n v0 -> is_mode (centred n v0 i) x
     else kth_smallest (centred n v0 i) ((length (centred n v0 i) - 1) / 2) x in
  forall k j f v, j + k = length v0 + half ->
    hf_inv nv n f (drop (j - n) (take j v0)) ->
    (array_harmless n v0 -> mode_inv f (drop (j - n) (take j v0))) ->
    length v = length v0 ->
    (forall i, i + half < j -> i < length v0 -> exists x, v !! i = Some x /\ good i x) ->
    (forall i, j <= i + half -> v !! i = v0 !! i) ->
    exists f' v', hf_filter_loop k f v (length v0) n j modal = Some (f', v') /\
      length v' = length v0 /\ (exists w, hf_inv nv n f' w) /\
      forall i, i < length v0 -> exists x, v' !! i = Some x /\ good i x.
Proof.
  intros Hn Hnv Hv0 half good.
  assert (Hhalf : half + (n - 1) / 2 = n - 1).
  { unfold half. pose proof (Nat.div_mod n 2 ltac:(lia)). pose proof (Nat.mod_upper_bound n 2 ltac:(lia)).
    pose proof (Nat.div_mod (n-1) 2 ltac:(lia)). pose proof (Nat.mod_upper_bound (n-1) 2 ltac:(lia)). lia. }
  induction k as [|k IH]; intros j f v Hjk Hi HM Hl Hdone Htodo.
  - cbn [hf_filter_loop]. rewrite decide_True by (unfold half in *; lia).
    exists f, v. split_and!; eauto. intros i Hii. apply Hdone; lia.
  - cbn [hf_filter_loop]. rewrite decide_False by (unfold half in *; lia).
    set (nxt := if decide (j < length v0) then _ else _).
    assert (exists f1, nxt = Some f1 /\ hf_inv nv n f1 (drop (S j - n) (take (S j) v0)) /\
        (array_harmless n v0 -> mode_inv f1 (drop (S j - n) (take (S j) v0))))
      as (f1 & -> & Hi1 & HM1).
    { unfold nxt. case_decide as Hj.
      - rewrite (Htodo j ltac:(lia)).
        destruct (lookup_lt_is_Some_2 v0 j Hj) as [x Hx]. rewrite Hx. cbn [mbind option_bind].
        assert (Hxr : in_range nv x) by (rewrite list.Forall_forall in Hv0; apply Hv0; by eapply elem_of_list_lookup_2).
        destruct (hf_push_inv nv n f _ x Hn Hi Hxr) as (f1 & Hf1 & Hi1 & Hm1 & _). exists f1.
        split; [done|]. rewrite <- (slide_spec id (fun _ => true) 0%Z n v0 j x Hn Hx). split; [done|].
        intros Hah. apply Hm1; [auto|]. destruct (decide (n <= j)).
        + by apply (Hah j x).
        + intros Hlen. rewrite drop_length, take_length in Hlen. lia.
      - rewrite (take_ge v0 (S j)) by lia. rewrite (take_ge v0 j) in Hi, HM by lia. case_decide as Hj2.
        + destruct (hf_drop_inv nv n f _ Hi) as (f1 & Hf1 & Hi1 & Hp1 & _). exists f1.
          split; [done|].
          replace (S j - n) with ((j - n) + 1) by lia. rewrite <- drop_drop.
          assert (drop 1 (drop (j - n) v0) = tail (drop (j - n) v0)) as -> by (by destruct (drop (j - n) v0)).
          auto.
        + exists f. split; [done|]. replace (S j - n) with (j - n) by lia. auto. }
    cbn [mbind option_bind].
    destruct (if modal then hf_getMode f1 else (f1, hf_getMedian f1)) as [f2 m] eqn:E2.
    set (nx := if decide (n / 2 <= j) then _ else _).
    assert (exists f3 v1, nx = Some (f3, v1) /\ hf_inv nv n f3 (drop (S j - n) (take (S j) v0)) /\
       (array_harmless n v0 -> mode_inv f3 (drop (S j - n) (take (S j) v0))) /\
       length v1 = length v0 /\
       (forall i, i + half < S j -> i < length v0 -> exists x, v1 !! i = Some x /\ good i x) /\
       (forall i, S j <= i + half -> v1 !! i = v0 !! i)) as (f3 & v1 & -> & Hi3 & HM3 & Hl1 & Hd1 & Ht1).
    { unfold nx. fold half. case_decide as Hj.
      - assert (Hcen : drop (S j - n) (take (S j) v0) = centred n v0 (j - half)).
        { unfold centred. fold half. f_equal; [lia|]. f_equal. lia. }
        rewrite Hcen in Hi1, HM1 |- *.
        assert (Hne : centred n v0 (j - half) <> []).
        { unfold centred. fold half. intros Hnil. apply (f_equal length) in Hnil.
          rewrite drop_length, take_length in Hnil. cbn [length] in Hnil. lia. }
        assert (hf_inv nv n f2 (centred n v0 (j - half)) /\
            (array_harmless n v0 -> mode_inv f2 (centred n v0 (j - half))) /\ good (j - half) m) as (Hi2 & HM2 & Hgood).
        { unfold good. destruct modal.
          - destruct (hf_getMode_inv nv n f1 _ Hi1 Hnv) as [A B].
            pose proof (hf_mode_range nv n f1 _ Hi1 Hnv) as C. rewrite E2 in *. cbn [fst snd] in *.
            split; [done|]. split; [intros Hah; by apply B, HM1|]. split; [done|].
            intros Hah. apply B; auto.
          - injection E2 as <- <-. split; [done|]. split; [done|]. split.
            + by apply (hf_median_range nv n f1 (centred n v0 (j - half))).
            + by apply (hf_median_spec nv n). }
        unfold set_at. rewrite decide_True by lia. cbn [mbind option_bind].
        eexists _, _; split; [done|]. split; [done|]. split; [done|]. split; [by rewrite insert_length|]. split.
        + intros i Hij Hil. destruct (decide (i = j - half)) as [->|Hne'].
          * exists m. rewrite list_lookup_insert by lia. done.
          * rewrite list_lookup_insert_ne by lia. apply Hdone; lia.
        + intros i Hij. rewrite list_lookup_insert_ne by lia. apply Htodo. lia.
      - exists f1, v. split_and!; auto.
        + intros i Hij Hil. lia.
        + intros i Hij. apply Htodo. lia. }
    cbn [mbind option_bind]. replace (j + 1) with (S j) by lia.
    apply IH; auto. lia.
Qed.

Lemma final_hf_filter nv n os f v (modal : bool) : 1 <= n -> 1 <= nv -> Forall (hf_op_ok nv) os ->
  Forall (in_range nv) v -> hf_run (hf_new nv n) os = Some f ->
  exists f' v', hf_filter f v modal = Some (f', v') /\ length v' = length v /\
    forall i, i < length v -> exists x, v' !! i = Some x /\ in_range nv x /\
      if modal then array_harmless n v -> is_mode (centred n v i) x
      else kth_smallest (centred n v i) ((length (centred n v i) - 1) / 2) x.
Proof.
  intros Hn Hnv Hos Hv Hr.
  destruct (hf_run_inv nv n os Hn Hnv Hos _ _ (proj1 (hf_new_inv nv n))) as (f0 & Hr0 & Hi).
  rewrite Hr in Hr0. injection Hr0 as <-.
  destruct (hf_reset_inv nv n f _ Hi) as [Hi0 Hm0].
  unfold hf_filter. assert (hf_len (hf_reset f) = n) as ->.
  { destruct Hi0 as (_ & Hs & _). unfold hf_len. lia. }
  destruct (hf_filter_loop_spec nv n v modal Hn Hnv Hv (length v + n / 2) 0
              (hf_reset f) v) as (f' & v' & A & B & _ & C); auto.
  - intros i Hi1. lia.
  - exists f', v'. auto.
Qed.
