(** Histories, loudness, reach. *)
From stdpp Require Import prelude list numbers sorting.
From Coq Require Import ZArith QArith Qround Lia.
From Verif.Filters Require Import Model Spec MMProofs.
From Verif.Curves Require Import Model Spec Proofs.
From stdpp Require Import list numbers list_numbers sorting.
Local Open Scope Z_scope.

(** ** After any history nothing is out of bounds *)
Record sane (rt fft : Z) (d : detector) : Prop := {
  sRate : rate d = rt; sFft : fftSize d = fft;
  sLen : Z.of_nat (length (prevMag d)) = fft / 2 + 1;
  sF : exists w, fInv (hfFilter d) 85 w;
  sG : exists w, fInv (hfDerivFilter d) 90 w;
  sRise : 0 <= risingCount d }.

Lemma zeros_length fft : 0 < fft -> Z.of_nat (length (zeros fft)) = fft / 2 + 1.
Proof.
  intros. unfold zeros. rewrite replicate_length, Z.quot_div_nonneg by lia.
  assert (0 <= fft / 2) by (apply Z.div_pos; lia). lia.
Qed.
Lemma zeros_level fft n : level (zeros fft) n = 0.
Proof.
  unfold level, zeros. destruct (replicate _ _ !! _) as [x|] eqn:E; [|done].
  apply lookup_replicate in E as [-> _]. done.
Qed.

Lemma sane_new rt fft : 0 < fft -> sane rt fft (newDetector rt fft).
Proof.
  intros H. constructor; cbn; try done.
  - by apply zeros_length.
  - exists []. split; [exact (mm_new_inv _ (fun _ => false) 0 19 _)|done].
  - exists []. split; [exact (mm_new_inv _ (fun _ => false) 0 19 _)|done].
Qed.


Lemma sane_process rt fft d mag : 0 <= rt -> 0 < fft -> sane rt fft d -> wide fft mag ->
  exists d' v, process d mag = Some (d', v) /\ sane rt fft d' /\ typ d' = typ d.
Proof.
  intros Hr Hf [SR SF SL [w HF] [w' HG] SC] W. destruct (heard_ok rt fft Hr Hf) as [Hs Hb]. unfold wide in W.
  unfold process. rewrite SR, SF, Hs.
  destruct (percussive_ok (heard rt fft) (prevMag d) mag) as (p & Ep & Lp & _); [lia..|].
  set (hf := highs (heard rt fft) mag).
  destruct (push_ok (hfFilter d) 85 _ hf ltac:(lia) HF) as (f & Ef & Ff & Gf).
  destruct (push_ok (hfDerivFilter d) 90 _ (hf - lastHf d) ltac:(lia) HG) as (g & Eg & Fg & Gg).
  destruct (typ d) eqn:Et.
  - rewrite Ep. cbn [mbind option_bind]. unfold processFiltering. cbn [typ].
    eexists _, _. split; [reflexivity|]. split; [|done]. constructor; cbn; eauto. lia.
  - rewrite Ep. cbn [mbind option_bind]. rewrite highFrequency_ok by lia. fold hf. cbn [mbind option_bind].
    unfold processFiltering. cbn [rate fftSize typ prevMag hfFilter hfDerivFilter lastHf lastResult risingCount].
    rewrite Ef. cbn [mbind option_bind]. rewrite Eg. cbn [mbind option_bind]. rewrite Gf. cbn [mbind option_bind].
    rewrite Gg. cbn [mbind option_bind].
    destruct (_ <? lastResult d); eexists _, _; (split; [reflexivity|]); (split; [|done]);
      constructor; cbn; eauto; lia.
  - cbn [mbind option_bind]. rewrite highFrequency_ok by lia. fold hf. cbn [mbind option_bind].
    unfold processFiltering. cbn [rate fftSize typ prevMag hfFilter hfDerivFilter lastHf lastResult risingCount].
    rewrite Ef. cbn [mbind option_bind]. rewrite Eg. cbn [mbind option_bind]. rewrite Gf. cbn [mbind option_bind].
    rewrite Gg. cbn [mbind option_bind].
    destruct (_ <? lastResult d); eexists _, _; (split; [reflexivity|]); (split; [|done]);
      constructor; cbn; eauto; lia.
Qed.

Lemma sane_reset rt fft d : 0 < fft -> sane rt fft d -> sane rt fft (reset d).
Proof.
  intros Hf [SR SF SL [w [HF PF]] [w' [HG PG]] SC]. constructor; cbn; try done.
  - rewrite SF. by apply zeros_length.
  - exists []. split; [|done]. exact (mm_reset_inv _ (fun _ => false) 0 19 _ _ HF).
  - exists []. split; [|done]. exact (mm_reset_inv _ (fun _ => false) 0 19 _ _ HG).
Qed.

Lemma sane_run rt os : 0 <= rt -> forall fft d, 0 < fft -> sane rt fft d -> fitting fft os ->
  0 < sizeAfter fft os /\
  exists d' vs, run d os = Some (d', vs) /\ sane rt (sizeAfter fft os) d'.
Proof.
  intros Hr. induction os as [|o os IH]; intros fft d Hf S H; cbn [run].
  - cbn. eauto.
  - destruct o as [mag|t| |fft']; cbn [fitting] in H.
    + destruct H as [W H]. destruct (sane_process rt fft d mag Hr Hf S W) as (d1 & v & E & S1 & _).
      destruct (IH fft d1 Hf S1 H) as (P & d2 & vs & E2 & S2). split; [exact P|].
      rewrite E. cbn [mbind option_bind]. rewrite E2. cbn [mbind option_bind]. eauto.
    + apply (IH fft (setType d t) Hf); [|exact H]. destruct S. constructor; done.
    + apply (IH fft (reset d) Hf); [|exact H]. by apply sane_reset.
    + destruct H as [Hf' H]. apply (IH fft' (setFftSize d fft') Hf'); [|exact H].
      destruct S. constructor; cbn; try done. by apply zeros_length.
Qed.

Lemma run_app os1 : forall d os2 d1 vs1 d2 vs2, run d os1 = Some (d1, vs1) -> run d1 os2 = Some (d2, vs2) ->
  run d (os1 ++ os2) = Some (d2, vs1 ++ vs2).
Proof.
  induction os1 as [|o os1 IH]; intros d os2 d1 vs1 d2 vs2 H1 H2; cbn [app run] in *.
  - apply (inj Some) in H1. injection H1 as <- <-. exact H2.
  - destruct o; try by eapply IH.
    destruct (process d mag) as [[d' v]|]; cbn [mbind option_bind] in *; [|discriminate].
    destruct (run d' os1) as [[d'' vs]|] eqn:E; cbn [mbind option_bind] in *; [|discriminate].
    apply (inj Some) in H1. injection H1 as <- <-.
    erewrite IH by eauto. reflexivity.
Qed.

(** ** A detector at the start of a run *)
Lemma inv_start r rt fft t frames d : 0 < fft -> rate d = rt -> fftSize d = fft -> typ d = t ->
  prevMag d = zeros fft -> fInv (hfFilter d) 85 [] -> fInv (hfDerivFilter d) 90 [] ->
  lastHf d = 0 -> lastResult d = 0 -> risingCount d = r -> inv r rt fft t frames 0 d.
Proof.
  intros Hf A B C D E F G H I. constructor; try done.
  - rewrite D. by apply zeros_length.
  - intros _ n _. rewrite D, zeros_level. done.
Qed.

Lemma rising_four r hs i : 0 <= r ->
  (4 <= i)%nat -> (3 < rising r hs i <-> Forall (fun j => ~ falls hs (i - j)) [1; 2; 3; 4]%nat).
Proof.
  intros Hr Hi. destruct i as [|[|[|[|i]]]]; try lia.
  replace (S (S (S (S i))) - 1)%nat with (S (S (S i))) by lia || idtac.
  assert (N : forall j, 0 <= rising r hs j).
  { induction j as [|j IH]; cbn; [done|]. destruct (decide _); lia. }
  specialize (N i). cbn [rising].
  rewrite !Forall_cons.
  replace (S (S (S (S i))) - 1)%nat with (S (S (S i))) by lia.
  replace (S (S (S (S i))) - 2)%nat with (S (S i)) by lia.
  replace (S (S (S (S i))) - 3)%nat with (S i) by lia.
  replace (S (S (S (S i))) - 4)%nat with i by lia.
  destruct (decide (falls hs (S (S (S i))))); [split; [lia|tauto]|].
  destruct (decide (falls hs (S (S i)))); [split; [lia|tauto]|].
  destruct (decide (falls hs (S i))); [split; [lia|tauto]|].
  destruct (decide (falls hs i)); [split; [lia|tauto]|].
  split; [|lia]. intros _. split_and!; auto.
Qed.

Lemma rising_small hs i : rising 0 hs i <= Z.of_nat i.
Proof. induction i as [|i IH]; cbn [rising]; [lia|]. destruct (decide _); lia. Qed.

Lemma softFrom_late r hs i : 0 <= r -> (4 <= i)%nat -> softFrom r hs i = softly hs i.
Proof.
  intros Hr Hi. unfold softFrom, softly, soft. pose proof (rising_four r hs i Hr Hi) as E.
  destruct (decide (falls hs i /\ 3 < rising r hs i /\ 0 < before hs i)) as [H|H];
    destruct (decide ((4 <= i)%nat /\ _)) as [H'|H']; try done; exfalso; tauto.
Qed.
Lemma softFrom_0 hs i : softFrom 0 hs i = softly hs i.
Proof.
  destruct (decide (4 <= i)%nat) as [H|H]; [by apply softFrom_late|].
  unfold softFrom, softly, soft. pose proof (rising_small hs i).
  rewrite !decide_False; [done|lia..].
Qed.
Lemma reportedFrom_0 t sz frames i : reportedFrom 0 t sz frames i = reported t sz frames i.
Proof. unfold reportedFrom, reported. rewrite softFrom_0. done. Qed.
Lemma reportedFrom_late r t sz frames i : 0 <= r -> (4 <= i)%nat ->
  reportedFrom r t sz frames i = reported t sz frames i.
Proof. intros. unfold reportedFrom, reported. rewrite softFrom_late by done. done. Qed.

(** ** Frames that agree where it matters *)
Lemma percussion_range sz p m : (0 <= percussion sz p m <= 1)%Q.
Proof.
  unfold percussion. destruct (decide _) as [e|e]; [split; unfold Qle; cbn; lia|].
  set (a := length (filter (risen p m) (seqZ 1 sz))) in *.
  set (b := length _) in *.
  assert (a <= b)%nat.
  { subst a b. assert (G : forall l, (length (filter (risen p m) l) <= length (filter (fun n => (10 ^ 4 < level m n)%Z) l))%nat); [|apply G].
    induction l as [|n l IH]; [done|]. rewrite !filter_cons.
    destruct (decide (risen p m n)) as [H|H], (decide (10 ^ 4 < level m n)) as [H'|H']; cbn [length]; try lia.
    exfalso. destruct H as [[H1 H2]|[H1 H2]]; [|lia].
    change (10 ^ 4) with 10000 in *. change (10 ^ 16) with 10000000000000000 in *. lia. }
  assert (Hb : (0 < inject_Z (Z.of_nat b))%Q) by (unfold Qlt; cbn; lia).
  split.
  - apply Qle_shift_div_l; [exact Hb|]. rewrite Qmult_0_l. unfold Qle; cbn. lia.
  - apply Qle_shift_div_r; [exact Hb|]. rewrite Qmult_1_l. unfold Qle; cbn. lia.
Qed.

Lemma highs_ext sz m m' : (forall n, 0 <= n <= sz -> level m n = level m' n) -> highs sz m = highs sz m'.
Proof.
  intros H. unfold highs. f_equal. apply list_fmap_ext. intros i n Hn.
  apply elem_of_list_lookup_2, elem_of_seqZ in Hn. rewrite H by lia. done.
Qed.

(** ** Loudness *)
(** y = (a/b) x *)
Definition prop (a b : Z) (x y : Z) : Prop := y * b = x * a.

Section scale.
Variables (a b : Z).
Hypotheses (Ha : 0 < a) (Hb : 0 < b).
Local Notation pr := (prop a b).

Lemma pr_lt x y x' y' : pr x y -> pr x' y' -> x < x' <-> y < y'.
Proof. unfold prop. intros. split; intros; nia. Qed.
Lemma pr_le x y x' y' : pr x y -> pr x' y' -> x <= x' <-> y <= y'.
Proof. unfold prop. intros. split; intros; nia. Qed.
Lemma pr_0 : pr 0 0. Proof. done. Qed.
Lemma pr_sub x y x' y' : pr x y -> pr x' y' -> pr (x - x') (y - y').
Proof. unfold prop. lia. Qed.
Lemma pr_pos x y : pr x y -> 0 < x <-> 0 < y.
Proof. intros. apply (pr_lt 0 0 x y); done. Qed.

Lemma count_pr (P Q : Z -> bool) l l' : Forall2 pr l l' ->
  (forall x y, pr x y -> P x = Q y) -> count P l = count Q l'.
Proof.
  intros F H. unfold count. induction F as [|x y l l' E _ IH]; [done|]. cbn. rewrite (H x y E).
  destruct (Q y); cbn; lia.
Qed.

Lemma kth_pr l l' k v w : Forall2 pr l l' -> pr v w -> kth_smallest l k v -> w ∈ l' -> kth_smallest l' k w.
Proof.
  intros F E (_ & A & B) Hw. split_and!; [done| |].
  - rewrite <- (count_pr (fun x => x <? v) (fun y => y <? w) l l' F); [done|].
    intros x y G. apply eq_true_iff_eq. rewrite !Z.ltb_lt. by apply pr_lt.
  - rewrite <- (count_pr (fun x => x <=? v) (fun y => y <=? w) l l' F); [done|].
    intros x y G. apply eq_true_iff_eq. rewrite !Z.leb_le. by apply pr_le.
Qed.

Lemma ranked_is pct l : l <> [] -> (pct <= 100)%nat -> kth_smallest l ((length l - 1) * pct / 100)%nat (ranked pct l).
Proof.
  intros Hne Hp. set (k := ((length l - 1) * pct / 100)%nat).
  assert (Hk : (k < length l)%nat).
  { destruct l as [|x l]; [done|]. unfold k. cbn [length].
    apply Nat.div_lt_upper_bound; [lia|]. nia. }
  assert (P : l ≡ₚ merge_sort Z.le l) by (symmetry; apply merge_sort_Permutation).
  rewrite P in Hk. destruct (lookup_lt_is_Some_2 _ _ Hk) as [w Hw].
  pose proof (ss_kth _ _ _ (ss_merge l) Hw) as K.
  unfold ranked. fold k. rewrite Hw. cbn [default from_option]. eapply kth_perm; [symmetry; exact P|exact K].
Qed.

Lemma ranked_pr pct l l' : (pct <= 100)%nat -> Forall2 pr l l' -> pr (ranked pct l) (ranked pct l').
Proof.
  intros Hp F. destruct (decide (l = [])) as [->|Hne].
  { apply Forall2_nil_inv_l in F as ->. unfold ranked. cbn. done. }
  pose proof (ranked_is pct l Hne Hp) as K.
  destruct (proj1 (elem_of_list_lookup l (ranked pct l)) (proj1 K)) as [i Hi].
  destruct (Forall2_lookup_l _ _ _ _ _ F Hi) as (w & Hw & E).
  pose proof (kth_pr _ _ _ _ _ F E K (elem_of_list_lookup_2 _ _ _ Hw)) as K'.
  rewrite (Forall2_length _ _ _ F) in K'. apply ranked_kth in K' as <-. exact E.
Qed.

Lemma recent_pr l l' i : Forall2 pr l l' -> Forall2 pr (recent l i) (recent l' i).
Proof. intros F. unfold recent. apply Forall2_drop, Forall2_take. exact F. Qed.
Lemma changes_pr l l' : Forall2 pr l l' -> Forall2 pr (changes l) (changes l').
Proof.
  intros F. unfold changes.
  assert (G : forall u u', Forall2 pr u u' -> forall v v', Forall2 pr v v' -> Forall2 pr (zip_with Z.sub u v) (zip_with Z.sub u' v')).
  { induction 1 as [|x y u u' E _ IH]; intros v v' H; [constructor|].
    destruct H as [|x' y' v v' E' H]; cbn; [constructor|]. constructor; [by apply pr_sub|by apply IH]. }
  apply G; [exact F|]. constructor; [apply pr_0|exact F].
Qed.
Lemma nth0_pr l l' i : Forall2 pr l l' -> pr (nth0 l i) (nth0 l' i).
Proof.
  intros F. unfold nth0. destruct (l !! i) as [x|] eqn:E.
  - destruct (Forall2_lookup_l _ _ _ _ _ F E) as (y & -> & G). exact G.
  - apply lookup_ge_None in E. rewrite (Forall2_length _ _ _ F) in E. apply lookup_ge_None in E as ->. apply pr_0.
Qed.
Lemma strength_pr l l' i : Forall2 pr l l' -> pr (strength l i) (strength l' i).
Proof.
  intros F. unfold strength.
  pose proof (ranked_pr 85 _ _ ltac:(lia) (recent_pr _ _ i F)) as A.
  pose proof (ranked_pr 90 _ _ ltac:(lia) (recent_pr _ _ i (changes_pr _ _ F))) as B.
  pose proof (nth0_pr _ _ i F) as C. pose proof (nth0_pr _ _ i (changes_pr _ _ F)) as D.
  pose proof (pr_lt _ _ _ _ A C) as E.
  destruct (decide _) as [G|G], (decide (_ < nth0 l' i)) as [G'|G']; try (exfalso; tauto).
  - by apply pr_sub.
  - apply pr_0.
Qed.
Lemma before_pr l l' i : Forall2 pr l l' -> pr (before l i) (before l' i).
Proof. intros F. destruct i; cbn; [apply pr_0|by apply strength_pr]. Qed.
Lemma falls_pr l l' i : Forall2 pr l l' -> falls l i <-> falls l' i.
Proof. intros F. unfold falls. apply pr_lt; [by apply strength_pr|by apply before_pr]. Qed.
Lemma soft_pr l l' i : Forall2 pr l l' -> softly l i = softly l' i.
Proof.
  intros F. unfold softly.
  assert (E : soft l i <-> soft l' i).
  { unfold soft. rewrite (falls_pr l l' i F), (pr_pos _ _ (before_pr l l' i F)).
    rewrite !Forall_cons. rewrite !(falls_pr l l' _ F). rewrite !Forall_nil. tauto. }
  destruct (decide (soft l i)), (decide (soft l' i)); tauto.
Qed.

Lemma highs_pr sz m m' : (forall n, 0 <= n <= sz -> pr (level m n) (level m' n)) -> pr (highs sz m) (highs sz m').
Proof.
  intros H. unfold highs. assert (G : Forall (fun n => 0 <= n <= sz) (seqZ 0 (sz + 1))).
  { apply Forall_forall. intros n Hn%elem_of_seqZ. lia. }
  induction G as [|n l Hn _ IH]; [apply pr_0|]. rewrite !fmap_cons. unfold sum in *. cbn [foldr].
  specialize (H n Hn). unfold prop in *. nia.
Qed.

Lemma percussion_pr sz p p' m m' :
  (forall n, 0 <= n <= sz -> pr (level p n) (level p' n) /\ (10 ^ 4 < level p n <-> 10 ^ 4 < level p' n)) ->
  (forall n, 0 <= n <= sz -> pr (level m n) (level m' n) /\ (10 ^ 4 < level m n <-> 10 ^ 4 < level m' n)) ->
  percussion sz p m = percussion sz p' m'.
Proof.
  intros H H'. unfold percussion.
  assert (G : Forall (fun n => 0 <= n <= sz) (seqZ 1 sz)).
  { apply Forall_forall. intros n Hn%elem_of_seqZ. lia. }
  assert (E : filter (risen p m) (seqZ 1 sz) = filter (risen p' m') (seqZ 1 sz)).
  { induction G as [|n l Hn _ IH]; [done|]. rewrite !filter_cons, IH. apply decide_ext. unfold risen.
    destruct (H n Hn) as [E1 E2], (H' n Hn) as [E3 E4].
    assert (level p n * 14125375446227544 <= level m n * 10 ^ 16 <-> level p' n * 14125375446227544 <= level m' n * 10 ^ 16).
    { apply pr_le; unfold prop in *; lia. }
    assert (level p n <= 10 ^ 4 <-> level p' n <= 10 ^ 4) by lia. tauto. }
  assert (E' : filter (fun n => 10 ^ 4 < level m n) (seqZ 1 sz) = filter (fun n => 10 ^ 4 < level m' n) (seqZ 1 sz)).
  { clear E. induction G as [|n l Hn _ IH]; [done|]. rewrite !filter_cons, IH. apply decide_ext. by apply H'. }
  rewrite E, E'. done.
Qed.
End scale.
