(** Where [findPeaks] puts soft onsets. *)
From stdpp Require Import prelude.
From Coq Require Import ZArith QArith Qround Lia Lqa Sorting.Sorted ZifyBool.
From Verif.Base Require Import Arith.
From Verif.Calculator Require Import Model Spec Peaks.
Local Open Scope Z_scope.

(** The values of a list, zero outside. *)
Definition val (df : list Q) (k : Z) : Q := default 0%Q (getZ df k).

(** [p] tops a climb that starts at a chunk higher than its neighbours. *)
Definition summit (df : list Q) (p : Z) : Prop :=
  exists i, 0 <= i <= p /\ (val df (i - 1) < val df i)%Q /\ (val df (i + 1) < val df i)%Q /\
    forall k, i <= k <= p -> (val df k <= val df p)%Q.

Lemma val_in df k x : getZ df k = Some x -> val df k = x.
Proof. unfold val. by intros ->. Qed.
Lemma getZ_out {A} (l : list A) k : k < 0 \/ zlen l <= k -> getZ l k = None.
Proof.
  intros H. destruct (getZ l k) as [x|] eqn:E; [|done]. apply getZ_some in E. lia.
Qed.
Lemma getZ_app_l {A} (l k : list A) i : i < zlen l -> getZ (l ++ k) i = getZ l i.
Proof.
  intros H. unfold getZ. destruct (Z.leb_spec 0 i); [|done]. apply lookup_app_l. unfold zlen in H. lia.
Qed.
Lemma getZ_app_r {A} (l k : list A) i : zlen l <= i -> getZ (l ++ k) i = getZ k (i - zlen l).
Proof.
  intros H. unfold getZ, zlen in *. destruct (Z.leb_spec 0 i); [|lia]. destruct (Z.leb_spec 0 (i - Z.of_nat (length l))); [|lia].
  rewrite lookup_app_r by lia. f_equal. lia.
Qed.

Section loop.
  Context (df : list Q) (mm ms : Z) (Hmm : 7 <= mm) (Heven : mm = 2 * (mm / 2)).

  Definition framed (i : Z) (win : list Q) : Prop :=
    zlen win = mm /\ forall j, 0 <= j < mm -> getZ win j = Some (val df (i + j - mm / 2)).

  Lemma max_loop_top win mid i : framed i win -> forall n j mi mv r,
    mm / 2 <= mi < j -> mv = val df (i + mi - mm / 2) -> j + Z.of_nat n <= mm ->
    (forall k, mm / 2 <= k < j -> (val df (i + k - mm / 2) <= mv)%Q) ->
    max_loop win mid n j mi mv = Some r ->
    mm / 2 <= r /\ forall k, mm / 2 <= k <= r -> (val df (i + k - mm / 2) <= val df (i + r - mm / 2))%Q.
  Proof using Hmm Heven.
    intros [Hl Hw]. assert (0 <= mm / 2) by (apply Z.div_pos; lia).
    induction n as [|n IH]; intros j mi mv r Hmi Hmv Hn Hall E; cbn [max_loop] in E.
    { injection E as <-. split; [lia|]. intros k Hk. rewrite <- Hmv. apply Hall. lia. }
    rewrite (Hw j) in E by lia. cbn [mbind option_bind] in E.
    destruct (ltQ mv (val df (i + j - mm / 2))) eqn:Elt.
    - apply ltQ_true in Elt. eapply (IH (j + 1) j _ r); [lia|reflexivity|lia| |exact E].
      intros k Hk. destruct (Z.eq_dec k j) as [->|]; [lra|]. specialize (Hall k ltac:(lia)). lra.
    - apply ltQ_false in Elt. destruct (ltQ (val df (i + j - mm / 2)) mid).
      + injection E as <-. split; [lia|]. intros k Hk. rewrite <- Hmv. apply Hall. lia.
      + eapply (IH (j + 1) mi mv r); [lia|done|lia| |exact E].
        intros k Hk. destruct (Z.eq_dec k j) as [->|]; [done|]. apply Hall. lia.
  Qed.

  Lemma soft_step_summit i win cand lastp amn win' cand' lastp' amn' : 0 <= i ->
    framed i win -> Forall (summit df) cand ->
    soft_step df mm ms i (win, cand, lastp, amn) = Some (win', cand', lastp', amn') ->
    framed (i + 1) win' /\ Forall (summit df) cand'.
  Proof using Hmm Heven.
    intros Hi Hf Hc E. pose proof Hf as [Hl Hw]. unfold soft_step in E.
    assert (3 <= mm / 2) by (apply Z.div_le_lower_bound; lia).
    rewrite Hl, Z.min_id in E. destruct (Z.leb_spec mm (mm / 2)); [lia|].
    destruct (if i + mm - mm / 2 <? zlen df then _ else _) as [next|] eqn:En; [|done]. cbn [mbind option_bind] in E.
    destruct (Z.ltb_spec mm 2); [lia|]. destruct (bool_decide _); [done|].
    destruct (threshold _) as [th|]; [|done]. cbn [mbind option_bind] in E.
    destruct (Z.leb_spec mm mm); [|lia].
    assert (Hnext : next = val df (i + mm - mm / 2)).
    { destruct (Z.ltb_spec (i + mm - mm / 2) (zlen df)); [by rewrite (val_in _ _ _ En)|].
      injection En as <-. unfold val. rewrite getZ_out by lia. done. }
    assert (Hf' : framed (i + 1) (drop 1 win ++ [next])).
    { assert (Hd : zlen (drop 1 win) = mm - 1) by (unfold zlen in *; rewrite drop_length; lia).
      split; [rewrite zlen_app, Hd; change (zlen [next]) with 1; lia|].
      intros j Hj. destruct (Z.eq_dec j (mm - 1)) as [->|].
      - rewrite getZ_app_r by lia. rewrite Hd, Z.sub_diag. rewrite Hnext.
        change (Some (val df (i + mm - mm / 2)) = Some (val df (i + 1 + (mm - 1) - mm / 2))). do 2 f_equal. lia.
      - rewrite getZ_app_l by lia. specialize (Hw (j + 1) ltac:(lia)). unfold getZ in *.
        destruct (Z.leb_spec 0 j); [|lia]. destruct (Z.leb_spec 0 (j + 1)); [|lia]. rewrite lookup_drop.
        replace (1 + Z.to_nat j)%nat with (Z.to_nat (j + 1)) by lia. rewrite Hw. do 2 f_equal. lia. }
    unfold soft_test in E. rewrite !Hw in E by lia. cbn [mbind option_bind] in E.
    replace (i + mm / 2 - mm / 2) with i in E by lia.
    replace (i + (mm / 2 - 1) - mm / 2) with (i - 1) in E by lia.
    replace (i + (mm / 2 + 1) - mm / 2) with (i + 1) in E by lia.
    destruct (ltQ th (val df i)); cbn [mbind option_bind] in E; [|injection E as <- <- <- <-; done].
    destruct (ltQ (val df (i - 1)) (val df i)) eqn:E1; cbn [mbind option_bind] in E; [|injection E as <- <- <- <-; done].
    destruct (ltQ (val df (i + 1)) (val df i)) eqn:E2; cbn [andb mbind option_bind] in E; [|injection E as <- <- <- <-; done].
    destruct (amn =? 0); cbn [mbind option_bind] in E; [|injection E as <- <- <- <-; done].
    destruct (max_loop _ _ _ _ _ _) as [mi|] eqn:Em; [|done]. cbn [mbind option_bind] in E. injection E as <- <- <- <-.
    split; [done|]. apply ltQ_true in E1, E2.
    eapply (max_loop_top win (val df i) i Hf) in Em as [Hge Htop]; [|lia|f_equal; lia|lia|].
    2: { intros k Hk. replace (i + k - mm / 2) with i by lia. lra. }
    match goal with |- Forall _ (if ?b then _ else _) => destruct b end; [|done].
    rewrite List.Forall_forall in *. intros y Hy. apply set_insert_In in Hy as [->|Hy]; [|by apply Hc].
    exists i. split; [lia|]. split; [done|]. split; [done|]. intros k Hk.
    specialize (Htop (k - i + mm / 2) ltac:(lia)). replace (i + (k - i + mm / 2) - mm / 2) with k in Htop by lia. done.
  Qed.

  Lemma soft_loop_summit n : forall i win cand lastp amn win' cand' lastp' amn', 0 <= i ->
    framed i win -> Forall (summit df) cand ->
    soft_loop df mm ms n i (win, cand, lastp, amn) = Some (win', cand', lastp', amn') ->
    Forall (summit df) cand'.
  Proof using Hmm Heven.
    induction n as [|n IH]; intros i win cand lastp amn win' cand' lastp' amn' Hi Hf Hc E; cbn [soft_loop] in E.
    - injection E as <- <- <- <-. done.
    - destruct (soft_step df mm ms i (win, cand, lastp, amn)) as [[[[w1 c1] l1] a1]|] eqn:E1; [|done].
      cbn [mbind option_bind] in E. destruct (soft_step_summit _ _ _ _ _ _ _ _ _ Hi Hf Hc E1) as [G1 G2].
      eapply (IH (i + 1)); [|exact G1|exact G2|exact E]. lia.
  Qed.

  Lemma framed_start : mm / 2 <= zlen df ->
    framed 0 (replicate (Z.to_nat (mm / 2)) 0%Q ++ take (Z.to_nat (mm / 2)) df).
  Proof using Hmm Heven.
    intros Hd. assert (0 <= mm / 2) by (apply Z.div_pos; lia).
    assert (Hr : zlen (replicate (Z.to_nat (mm / 2)) 0%Q) = mm / 2) by (unfold zlen; rewrite replicate_length; lia).
    split.
    - rewrite zlen_app, Hr. unfold zlen in *. rewrite take_length. lia.
    - intros j Hj. destruct (Z_lt_ge_dec j (mm / 2)).
      + rewrite getZ_app_l by lia. unfold val. rewrite (getZ_out df) by lia. cbn. unfold getZ.
        destruct (Z.leb_spec 0 j); [|lia]. apply lookup_replicate_2. lia.
      + rewrite getZ_app_r by lia. rewrite Hr. destruct (getZ_is df (j - mm / 2)) as [x Hx]; [lia|].
        rewrite Z.add_0_l, (val_in _ _ _ Hx). rewrite <- Hx. unfold getZ. destruct (Z.leb_spec 0 (j - mm / 2)); [|lia].
        apply lookup_take. lia.
  Qed.
End loop.

Lemma merge_soft : forall n hs ss out ps, merge_loop n hs ss out = Some ps ->
  forall p, In p ps -> hard p = false -> In p out \/ In (chunk p) ss.
Proof.
  induction n as [|n IH]; intros hs ss out ps E p Hp Hh.
  { destruct hs, ss; cbn [merge_loop] in E; try done. injection E as <-. left. by apply in_rev. }
  assert (Hbase : hs = [] -> ss = [] -> In p out \/ In (chunk p) ss).
  { intros -> ->. cbn [merge_loop] in E. injection E as <-. left. by apply in_rev. }
  destruct hs as [|h hs], ss as [|s ss]; try by apply Hbase.
  all: cbn [merge_loop] in E.
  - rewrite (bool_decide_eq_true_2 ([] = [])) in E by done. cbn [negb andb head tail default from_option] in E. unfold id in E.
    match type of E with merge_loop _ _ _ (if ?b then _ else _) = _ => destruct b end.
    + destruct (IH _ _ _ _ E p Hp Hh) as [|H]; [by left|right; by right].
    + destruct (IH _ _ _ _ E p Hp Hh) as [[<-|H]|H]; [right; by left|by left|right; by right].
  - rewrite (bool_decide_eq_false_2 (h :: hs = [])), (bool_decide_eq_true_2 ([] = [])) in E by done.
    cbn [negb andb orb head tail default from_option] in E.
    destruct (IH _ _ _ _ E p Hp Hh) as [[<-|H]|H]; [done|by left|by right].
  - rewrite (bool_decide_eq_false_2 (h :: hs = [])), (bool_decide_eq_false_2 (s :: ss = [])) in E by done.
    cbn [negb andb orb head tail default from_option] in E. unfold id in E.
    destruct (h <=? s).
    + destruct (IH _ _ _ _ E p Hp Hh) as [[<-|H]|H]; [done|by left|].
      right. destruct (h =? s); [by right|done].
    + match type of E with merge_loop _ _ _ (if ?b then _ else _) = _ => destruct b end.
      * destruct (IH _ _ _ _ E p Hp Hh) as [|H]; [by left|right; by right].
      * destruct (IH _ _ _ _ E p Hp Hh) as [[<-|H]|H]; [right; by left|by left|right; by right].
Qed.

Lemma soft_summit c raw ps df : smoothDF raw = Some df ->
  let mm := median_max (sampleRate c) (increment c) in
  mm = 2 * (mm / 2) -> mm / 2 <= zlen raw -> findPeaks c raw = Some ps ->
  forall p, In p ps -> hard p = false -> summit df (chunk p).
Proof.
  intros Hs mm Heven Hlong E p Hp Hh. assert (Hmm : 7 <= mm) by (unfold mm, median_max; lia).
  unfold findPeaks in E. destruct (smoothDF_ok raw) as (df' & Hs' & Hlen). rewrite Hs in Hs'. injection Hs' as <-.
  rewrite Hs in E. cbn [mbind option_bind] in E.
  destruct (if useHardPeaks c then _ else _) as [hs|]; [|done]. cbn [mbind option_bind] in E. fold mm in E.
  destruct (soft_loop _ _ _ _ _ _) as [[[[w ss] lp] am]|] eqn:El; [|done]. cbn [mbind option_bind] in E.
  assert (Hss : Forall (summit df) ss).
  { eapply (soft_loop_summit df mm _ Hmm Heven _ 0); [lia| |constructor|exact El].
    apply framed_start; [done|done|lia]. }
  destruct (merge_soft _ _ _ _ _ E p Hp Hh) as [[]|Hin]. rewrite List.Forall_forall in Hss. by apply Hss.
Qed.
