(** The modal array filter gives the same answer whatever the filter was used for before. *)
From stdpp Require Import base list numbers.
From Coq Require Import ZArith Lia ZifyNat ZifyBool.
From Verif.RingBuffer Require Import Model Proofs.
From Verif.Filters Require Import Model Spec MMProofs HFProofs.
Local Open Scope nat_scope.

(** Two filters in use on the same window, with the same mode in store. *)
Definition twins (nv n : nat) (f g : hf) (win : list Z) : Prop := hf_inv nv n f win /\ hf_inv nv n g win /\ hmode f = hmode g.
(** As long as nothing has been evicted, the stored modes may differ but are right. *)
Definition kin (nv n : nat) (f g : hf) (win : list Z) : Prop :=
  hf_inv nv n f win /\ hf_inv nv n g win /\ mode_inv f win /\ mode_inv g win /\ length win < n.

Lemma counts_unique nv h1 h2 win : counts nv h1 win -> counts nv h2 win -> h1 = h2.
Proof.
  intros [L1 H1] [L2 H2]. apply list_eq. intros i. destruct (decide (i < nv)); [by rewrite H1, H2|].
  rewrite !lookup_ge_None_2 by lia. done.
Qed.
Lemma hist_unique nv n f g win : hf_inv nv n f win -> hf_inv nv n g win -> hist f = hist g.
Proof. intros (_&_&_&_&_&H1&_) (_&_&_&_&_&H2&_). by eapply counts_unique. Qed.
Lemma is_mode_unique win a b : is_mode win a -> is_mode win b -> a = b.
Proof. intros [H1 H2] [H3 H4]. destruct (H2 b H3), (H4 a H1); lia. Qed.

Lemma push_mode f x f' : hf_push f x = Some f' ->
  hmode f' = (if 0 <=? hmode f then
    let hm := default 0 (hget (hist f') (hmode f)) in let height := default 0 (hget (hist f') x) in
    if hm <=? height then if (hm <? height) || (x <? hmode f) then x else hmode f else hmode f
  else hmode f)%Z.
Proof.
  unfold hf_push. intros H.
  match type of H with (?a ≫= _) = _ => destruct a as [[b1 h1]|] end; [|done]. cbn [mbind option_bind] in H.
  destruct (st_writeOne b1 x) as [[b2 ?]|]; [|done]. cbn [mbind option_bind] in H.
  destruct (hadd h1 x 1) as [h2|]; [|done]. cbn [mbind option_bind] in H.
  destruct (hget h2 x) as [height|] eqn:E1; [|done]. cbn [mbind option_bind] in H.
  destruct (0 <=? hmode f)%Z.
  - destruct (hget h2 (hmode f)) as [hm|] eqn:E2; [|done]. cbn [mbind option_bind] in H. injection H as <-. cbn [hmode hist]. by rewrite E1, E2.
  - injection H as <-. done.
Qed.
Lemma twins_push nv n f g win x : 1 <= n -> in_range nv x -> twins nv n f g win ->
  exists f' g', hf_push f x = Some f' /\ hf_push g x = Some g' /\ twins nv n f' g' (slide n win x).
Proof.
  intros Hn Hx (Hf & Hg & Hm). destruct (hf_push_inv nv n f win x Hn Hf Hx) as (f' & Ef & Hf' & _). destruct (hf_push_inv nv n g win x Hn Hg Hx) as (g' & Eg & Hg' & _).
  exists f', g'. split; [done|]. split; [done|]. split; [done|]. split; [done|].
  rewrite (push_mode _ _ _ Ef), (push_mode _ _ _ Eg), Hm, (hist_unique _ _ _ _ _ Hf' Hg'). done.
Qed.
Lemma drop_mode nv n f win f' : hf_inv nv n f win -> hf_drop f = Some f' ->
  hmode f' = match win with [] => hmode f | y :: _ => if (y =? hmode f)%Z then (-1)%Z else hmode f end.
Proof.
  intros (Hwf & Hs & Hc & _) H. pose proof (contents_length _ Hwf) as Hcl. rewrite Hc in Hcl.
  change (getReadSpace (hbuf f)) with (st_readSpace (hbuf f)) in Hcl. unfold hf_drop in H. destruct win as [|y win]; cbn [length] in Hcl.
  - rewrite decide_False in H by lia. by injection H as <-.
  - rewrite decide_True in H by lia. destruct (st_readOne_spec 0%Z (hbuf f) Hwf) as (b1 & E & _). rewrite E, Hc in H.
    cbn [mbind option_bind head default from_option id] in H. destruct (hadd _ _ _); [|done]. cbn [mbind option_bind] in H. injection H as <-. done.
Qed.
Lemma twins_drop nv n f g win : twins nv n f g win -> exists f' g', hf_drop f = Some f' /\ hf_drop g = Some g' /\ twins nv n f' g' (tail win).
Proof.
  intros (Hf & Hg & Hm). destruct (hf_drop_inv nv n f win Hf) as (f' & Ef & Hf' & _). destruct (hf_drop_inv nv n g win Hg) as (g' & Eg & Hg' & _).
  exists f', g'. split; [done|]. split; [done|]. split; [done|]. split; [done|].
  rewrite (drop_mode _ _ _ _ _ Hf Ef), (drop_mode _ _ _ _ _ Hg Eg), Hm. done.
Qed.
Lemma twins_mode nv n f g win : 1 <= nv -> twins nv n f g win -> twins nv n (fst (hf_getMode f)) (fst (hf_getMode g)) win /\ snd (hf_getMode f) = snd (hf_getMode g).
Proof.
  intros Hnv (Hf & Hg & Hm). destruct (hf_getMode_inv nv n f win Hf Hnv) as [H1 _]. destruct (hf_getMode_inv nv n g win Hg Hnv) as [H2 _].
  unfold twins. unfold hf_getMode in *. rewrite <- Hm in *. rewrite (hist_unique _ _ _ _ _ Hf Hg) in *. destruct (0 <=? hmode f)%Z; done.
Qed.
Lemma kin_mode nv n f g win : 1 <= nv -> win <> [] -> kin nv n f g win ->
  twins nv n (fst (hf_getMode f)) (fst (hf_getMode g)) win /\ snd (hf_getMode f) = snd (hf_getMode g).
Proof.
  intros Hnv Hw (Hf & Hg & Mf & Mg & _). destruct (hf_getMode_inv nv n f win Hf Hnv) as [H1 H2]. destruct (hf_getMode_inv nv n g win Hg Hnv) as [H3 H4].
  destruct (H2 Mf) as [_ H5]. destruct (H4 Mg) as [_ H6]. pose proof (is_mode_unique _ _ _ (H5 Hw) (H6 Hw)) as E. split; [|done]. split; [done|]. split; [done|].
  assert (H : forall f, hmode (fst (hf_getMode f)) = snd (hf_getMode f)) by (intros k; unfold hf_getMode; by destruct (0 <=? hmode k)%Z). by rewrite !H.
Qed.
Lemma kin_push nv n f g win x : 1 <= n -> in_range nv x -> S (length win) < n -> kin nv n f g win ->
  exists f' g', hf_push f x = Some f' /\ hf_push g x = Some g' /\ kin nv n f' g' (slide n win x).
Proof.
  intros Hn Hx Hlen (Hf & Hg & Mf & Mg & _). destruct (hf_push_inv nv n f win x Hn Hf Hx) as (f' & Ef & Hf' & Hm & _). destruct (hf_push_inv nv n g win x Hn Hg Hx) as (g' & Eg & Hg' & Hm' & _).
  assert (Hh : harmless n win (HPush x)) by (intros H; lia).
  exists f', g'. split; [done|]. split; [done|]. split; [done|]. split; [done|]. split; [auto|]. split; [auto|]. rewrite slide_room by lia. rewrite app_length. cbn. lia.
Qed.

(** Two filters run over the same array. *)
Lemma filter_loop_same nv n (v0 : list Z) : 1 <= n -> 1 <= nv -> Forall (in_range nv) v0 -> let half := n / 2 in
  forall k j f g v, j + k = length v0 + half -> length v = length v0 -> (forall i, j <= i + half -> v !! i = v0 !! i) ->
    let win := drop (j - n) (take j v0) in
    (twins nv n f g win \/ (kin nv n f g win /\ j <= half)) ->
    snd <$> hf_filter_loop k f v (length v0) n j true = snd <$> hf_filter_loop k g v (length v0) n j true.
Proof.
  intros Hn Hnv Hv0 half.
  assert (Hhalf : half < n) by (unfold half; apply Nat.div_lt; lia).
  induction k as [|k IH]; intros j f g v Hjk Hl Htodo win HR.
  - cbn [hf_filter_loop]. fold half. rewrite !decide_True by lia. reflexivity.
  - cbn [hf_filter_loop]. fold half. destruct (decide (j = length v0 + half)); [lia|].
    (* what comes after the push or drop *)
    assert (Hgo : forall f1 g1, twins nv n f1 g1 (drop (S j - n) (take (S j) v0)) \/ (kin nv n f1 g1 (drop (S j - n) (take (S j) v0)) /\ j <= half) ->
      snd <$> (let '(f2, m) := hf_getMode f1 in
        '(f3, v1) ← (if decide (half <= j) then v1 ← set_at v (j - half) m; Some (f2, v1) else Some (f1, v));
        hf_filter_loop k f3 v1 (length v0) n (j + 1) true) =
      snd <$> (let '(f2, m) := hf_getMode g1 in
        '(f3, v1) ← (if decide (half <= j) then v1 ← set_at v (j - half) m; Some (f2, v1) else Some (g1, v));
        hf_filter_loop k f3 v1 (length v0) n (j + 1) true)).
    { intros f1 g1 HR1. destruct (hf_getMode f1) as [f2 m1] eqn:E1, (hf_getMode g1) as [g2 m2] eqn:E2. replace (j + 1) with (S j) by lia. case_decide as Hj.
      - assert (Hw : drop (S j - n) (take (S j) v0) <> []).
        { intros Hnil. apply (f_equal length) in Hnil. rewrite drop_length, take_length in Hnil. cbn [length] in Hnil. lia. }
        assert (HT : twins nv n f2 g2 (drop (S j - n) (take (S j) v0)) /\ m1 = m2).
        { destruct HR1 as [HR1|[HR1 _]]; [apply twins_mode in HR1|apply kin_mode in HR1]; try done; by rewrite E1, E2 in HR1. }
        destruct HT as [HT ->]. unfold set_at. rewrite decide_True by lia. cbn [mbind option_bind].
        apply IH; [lia|by rewrite insert_length| |by left]. intros i Hi. rewrite list_lookup_insert_ne by lia. apply Htodo. lia.
      - cbn [mbind option_bind]. apply IH; [lia|done|intros i Hi; apply Htodo; lia|]. destruct HR1 as [HR1|[HR1 _]]; [by left|right; split; [done|lia]]. }
    destruct (decide (j < length v0)) as [Hj|Hj].
    + rewrite (Htodo j ltac:(lia)). destruct (lookup_lt_is_Some_2 v0 j Hj) as [x Hx]. rewrite Hx. cbn [mbind option_bind].
      assert (Hxr : in_range nv x) by (rewrite list.Forall_forall in Hv0; apply Hv0; by eapply elem_of_list_lookup_2).
      assert (Hsl : slide n win x = drop (S j - n) (take (S j) v0)) by exact (slide_spec id (fun _ => true) 0%Z n v0 j x Hn Hx).
      destruct HR as [HR|[HR Hjh]].
      * destruct (twins_push nv n f g win x Hn Hxr HR) as (f1 & g1 & -> & -> & H1). cbn [mbind option_bind]. apply Hgo. left. by rewrite <- Hsl.
      * assert (Hwl : length win = j) by (unfold win; rewrite drop_length, take_length; lia).
        destruct (decide (S j < n)) as [Hs|Hs].
        -- destruct (kin_push nv n f g win x Hn Hxr ltac:(lia) HR) as (f1 & g1 & -> & -> & H1). cbn [mbind option_bind]. apply Hgo. right. by rewrite <- Hsl.
        -- (* the window becomes full: only for lengths 1 and 2 *)
           destruct HR as (Hf & Hg & Mf & Mg & Hlt).
           destruct (hf_push_inv nv n f win x Hn Hf Hxr) as (f1 & Ef & Hf1 & Hm1 & _). destruct (hf_push_inv nv n g win x Hn Hg Hxr) as (g1 & Eg & Hg1 & Hm2 & _).
           rewrite Ef, Eg. cbn [mbind option_bind].
           assert (Hhm : harmless n win (HPush x)) by (intros H; lia). specialize (Hm1 Mf Hhm). specialize (Hm2 Mg Hhm). rewrite Hsl in *.
           assert (Hw : drop (S j - n) (take (S j) v0) <> []).
           { intros Hnil. apply (f_equal length) in Hnil. rewrite drop_length, take_length in Hnil. cbn [length] in Hnil. lia. }
           destruct (hf_getMode f1) as [f2 m1] eqn:E1, (hf_getMode g1) as [g2 m2] eqn:E2.
           assert (half <= j) by (unfold half; pose proof (Nat.div_mod n 2 ltac:(lia)); pose proof (Nat.mod_upper_bound n 2 ltac:(lia)); lia). rewrite !decide_True by done.
           destruct (hf_getMode_inv nv n f1 _ Hf1 Hnv) as [A1 B1]. destruct (B1 Hm1) as [_ B1']. destruct (hf_getMode_inv nv n g1 _ Hg1 Hnv) as [A2 B2]. destruct (B2 Hm2) as [_ B2'].
           specialize (B1' Hw). specialize (B2' Hw). rewrite E1 in *. rewrite E2 in *. cbn [fst snd] in *. pose proof (is_mode_unique _ _ _ B1' B2') as ->.
           unfold set_at. rewrite decide_True by lia. cbn [mbind option_bind]. replace (j + 1) with (S j) by lia.
           apply IH; [lia|by rewrite insert_length| |].
           ++ intros i Hi. rewrite list_lookup_insert_ne by lia. apply Htodo. lia.
           ++ left. split; [done|]. split; [done|].
              assert (Hk : forall k k' m, hf_getMode k = (k', m) -> hmode k' = m) by (intros k0 k' m; unfold hf_getMode; destruct (0 <=? hmode k0)%Z; intros H'; by inversion H').
              by rewrite (Hk _ _ _ E1), (Hk _ _ _ E2).
    + assert (Ht : take (S j) v0 = take j v0) by (rewrite !take_ge by lia; done). rewrite Ht in Hgo. destruct (decide (n <= j)) as [Hj2|Hj2].
      * destruct HR as [HR|[_ HR]]; [|lia]. destruct (twins_drop nv n f g win HR) as (f1 & g1 & -> & -> & H1). cbn [mbind option_bind]. apply Hgo. left.
        replace (S j - n) with ((j - n) + 1) by lia. rewrite <- drop_drop. fold win. assert (Htl : drop 1 win = tail win) by (by destruct win). by rewrite Htl.
      * cbn [mbind option_bind]. apply Hgo. replace (S j - n) with (j - n) by lia. destruct HR as [HR|[HR Hh]]; [by left|right; split; [done|lia]].
Qed.
Lemma modal_filter_same nv n os1 os2 f g v : 1 <= n -> 1 <= nv -> Forall (hf_op_ok nv) os1 -> Forall (hf_op_ok nv) os2 -> Forall (in_range nv) v ->
  hf_run (hf_new nv n) os1 = Some f -> hf_run (hf_new nv n) os2 = Some g -> snd <$> hf_filter f v true = snd <$> hf_filter g v true.
Proof.
  intros Hn Hnv H1 H2 Hv Hf Hg.
  destruct (hf_run_inv nv n os1 Hn Hnv H1 _ _ (proj1 (hf_new_inv nv n))) as (f0 & Hr0 & Hi). rewrite Hf in Hr0. injection Hr0 as <-.
  destruct (hf_run_inv nv n os2 Hn Hnv H2 _ _ (proj1 (hf_new_inv nv n))) as (g0 & Hr0 & Hi'). rewrite Hg in Hr0. injection Hr0 as <-.
  destruct (hf_reset_inv nv n f _ Hi) as [A1 B1]. destruct (hf_reset_inv nv n g _ Hi') as [A2 B2].
  unfold hf_filter. assert (hf_len (hf_reset f) = n) as -> by (destruct A1 as (_ & Hs & _); unfold hf_len; lia).
  assert (hf_len (hf_reset g) = n) as -> by (destruct A2 as (_ & Hs & _); unfold hf_len; lia).
  apply (filter_loop_same nv n v Hn Hnv Hv (length v + n / 2) 0); [lia|done|done|]. right. rewrite take_0, drop_nil. split; [|apply Nat.le_0_l]. split; [done|]. split; [done|]. split; [done|]. split; [done|]. cbn [length]. lia.
Qed.

(** A pass over an array is a sequence of operations on the filter. *)
Lemma hf_run_app os1 : forall os2 f, hf_run f (os1 ++ os2) = (hf_run f os1) ≫= (fun g => hf_run g os2).
Proof. induction os1 as [|o os1 IH]; intros os2 f; [done|]. cbn [app hf_run]. destruct (hf_step f o); [|done]. cbn [mbind option_bind]. apply IH. Qed.
Lemma filter_loop_ops nv n (v0 : list Z) : Forall (in_range nv) v0 -> forall k j f v f' v', (forall i, j <= i -> v !! i = v0 !! i) ->
  hf_filter_loop k f v (length v0) n j true = Some (f', v') -> exists os, Forall (hf_op_ok nv) os /\ hf_run f os = Some f'.
Proof.
  intros Hv0. induction k as [|k IH]; intros j f v f' v' Hv H; cbn [hf_filter_loop] in H.
  - case_decide; [|done]. injection H as <- <-. by exists [].
  - case_decide as Hj; [injection H as <- <-; by exists []|].
    assert (Hgo : forall f1 os1, Forall (hf_op_ok nv) os1 -> hf_run f os1 = Some f1 ->
      (let '(f2, m) := hf_getMode f1 in '(f3, v1) ← (if decide (n / 2 <= j) then v1 ← set_at v (j - n / 2) m; Some (f2, v1) else Some (f1, v));
        hf_filter_loop k f3 v1 (length v0) n (j + 1) true) = Some (f', v') -> exists os, Forall (hf_op_ok nv) os /\ hf_run f os = Some f').
    { intros f1 os1 Ho1 Er1 E. destruct (hf_getMode f1) as [f2 m] eqn:Em. destruct (decide (n / 2 <= j)) as [Hh|Hh].
      - destruct (set_at v (j - n / 2) m) as [v1|] eqn:Es; [|done]. cbn [mbind option_bind] in E.
        destruct (IH (j + 1) f2 v1 f' v') as (os & Ho & Er); [|done|].
        { intros i Hi. unfold set_at in Es. destruct (decide (j - n / 2 < length v)); [|done]. injection Es as <-. rewrite list_lookup_insert_ne by lia. apply Hv. lia. }
        exists (os1 ++ HGetMode :: os). split; [apply Forall_app; split; [done|]; by constructor|]. rewrite hf_run_app, Er1. cbn [mbind option_bind hf_run hf_step]. rewrite Em. done.
      - cbn [mbind option_bind] in E. destruct (IH (j + 1) f1 v f' v') as (os & Ho & Er); [|done|]. { intros i Hi. apply Hv. lia. }
        exists (os1 ++ os). split; [by apply Forall_app|]. by rewrite hf_run_app, Er1. }
    destruct (decide (j < length v0)) as [Hl|Hl].
    + destruct (v !! j) as [x|] eqn:Ex; [|done]. cbn [mbind option_bind] in H. destruct (hf_push f x) as [f1|] eqn:Ep; [|done]. cbn [mbind option_bind] in H.
      apply (Hgo f1 [HPush x]); [|cbn [hf_run hf_step]; by rewrite Ep|done]. constructor; [|constructor]. rewrite Hv in Ex by lia. rewrite Forall_lookup in Hv0. by apply (Hv0 j).
    + destruct (decide (n <= j)).
      * destruct (hf_drop f) as [f1|] eqn:Ep; [|done]. cbn [mbind option_bind] in H. apply (Hgo f1 [HDrop]); [by constructor|cbn [hf_run hf_step]; by rewrite Ep|done].
      * cbn [mbind option_bind] in H. by apply (Hgo f []).
Qed.
Lemma filter_ops nv v f f' v' : Forall (in_range nv) v -> hf_filter f v true = Some (f', v') -> exists os, Forall (hf_op_ok nv) os /\ hf_run f os = Some f'.
Proof.
  intros Hv H. unfold hf_filter in H. destruct (filter_loop_ops nv _ v Hv _ _ _ v _ _ ltac:(done) H) as (os & Ho & Er). exists (HReset :: os). split; [by constructor|done].
Qed.
