(** Proofs about the segmenter. *)
From stdpp Require Import prelude list numbers.
From Coq Require Import ZArith QArith Lia Lqa.
From Verif Require Import Finer.SegmenterModel Finer.SegmenterSpec.
Local Open Scope Z_scope.

Lemma belowLoop_spec fft rate first rest : forall n, let l := first :: rest in
  (1 <= n)%nat -> none l n (fun c => c <> 1) ->
  below_ok fft rate l (belowLoop fft rate first (Z.of_nat n) (drop n l)).
Proof.
  intros n l. remember (length l - n)%nat as m eqn:Em. revert n Em. induction m as [|m IH]; intros n Em Hn Hnone.
  - rewrite drop_ge by lia. left. split; [|done]. intros j c Hj. apply Hnone. lia.
  - destruct (lookup_lt_is_Some_2 l n) as [c Hc]; [lia|]. rewrite (drop_S _ _ _ Hc). cbn [belowLoop].
    destruct (Z.eqb_spec c 1) as [->|Hc1]; cbn [negb].
    + replace (Z.of_nat n + 1) with (Z.of_nat (S n)) by lia. apply IH; [lia|lia|]. intros j c' Hj Hc'. destruct (decide (j = n)) as [->|]; [congruence|]. apply (Hnone j c'); [lia|done].
    + right. exists n. split; [split; [lia|]; split; [eauto|]; intros j c' Hj; apply Hnone; lia|].
      destruct (Z.eqb_spec (Z.of_nat n) 1) as [H1|H1]; cbn [andb].
      * destruct (Z.eqb_spec first 1) as [->|Hf]; cbn [negb].
        -- rewrite bool_decide_eq_false_2; [done|]. intros [_ H]. by apply H.
        -- rewrite bool_decide_eq_true_2; [done|]. split; [lia|]. cbn. congruence.
      * rewrite bool_decide_eq_false_2; [done|]. intros [H _]. lia.
Qed.
Lemma rev_take_S (l : list Z) n c : l !! n = Some c -> rev (take (S n) l) = c :: rev (take n l).
Proof. intros H. rewrite (take_S_r _ _ _ H), rev_app_distr. done. Qed.
(** [take n (tail l)] holds the bins 1 to n. *)
Lemma percussive_loop fft rate l f1 f2 : forall n, (n < length l)%nat ->
  aboveLoop fft rate (Z.of_nat n) (rev (take n (tail l))) f1 f2 true =
    (fst (aboveLoop fft rate (Z.of_nat n) (rev (take n (tail l))) f1 f2 true), f2) /\
  ((none l (S n) (fun c => c <> 1) /\ fst (aboveLoop fft rate (Z.of_nat n) (rev (take n (tail l))) f1 f2 true) = f1) \/
   exists j, greatest l (S n) (fun c => c <> 1) j /\ fst (aboveLoop fft rate (Z.of_nat n) (rev (take n (tail l))) f1 f2 true) = frequencyForBin (Z.of_nat j) fft rate).
Proof.
  induction n as [|n IH]; intros Hn.
  - split; [done|]. left. split; [|done]. intros j c Hj. lia.
  - destruct (lookup_lt_is_Some_2 l (S n)) as [c Hc]; [lia|]. assert (Hc' : tail l !! n = Some c) by (by destruct l).
    rewrite (rev_take_S _ _ _ Hc'). cbn [aboveLoop negb]. destruct (Z.eqb_spec c 1) as [->|Hc1]; cbn [negb].
    + replace (Z.of_nat (S n) - 1) with (Z.of_nat n) by lia. destruct IH as [H1 H2]; [lia|]. split; [done|].
      destruct H2 as [[H2 H3]|(j & H2 & H3)]; [left|right].
      * split; [|done]. intros j c Hj Hjc. destruct (decide (j = S n)) as [->|]; [congruence|]. apply (H2 j c); [lia|done].
      * exists j. split; [|done]. destruct H2 as (H4 & H5 & H6). split; [lia|]. split; [done|]. intros k c Hk Hkc.
        destruct (decide (k = S n)) as [->|]; [congruence|]. apply (H6 k c); [lia|done].
    + split; [done|]. right. exists (S n). split; [|done]. split; [lia|]. split; [eauto|]. intros k c' Hk. lia.
Qed.
Lemma inj_pos n : 0 < n -> (0 < inject_Z n)%Q.
Proof. intros H. change 0%Q with (inject_Z 0). by rewrite <- Zlt_Qlt. Qed.
Lemma inj_nonneg n : 0 <= n -> (0 <= inject_Z n)%Q.
Proof. intros H. change 0%Q with (inject_Z 0). by rewrite <- Zle_Qle. Qed.
Lemma freq_pos fft rate i : 0 < fft -> (0 < rate)%Q -> (0 <= i) -> (0 <= frequencyForBin i fft rate)%Q.
Proof.
  intros Hf Hr Hi. unfold frequencyForBin. apply Qle_shift_div_l; [by apply inj_pos|]. rewrite Qmult_0_l.
  apply Qmult_le_0_compat; [by apply inj_nonneg|lra].
Qed.
Lemma freq_mono fft rate i j : 0 < fft -> (0 < rate)%Q -> i <= j -> (frequencyForBin i fft rate <= frequencyForBin j fft rate)%Q.
Proof.
  intros Hf Hr Hi. unfold frequencyForBin. apply Qmult_le_compat_r; [|apply Qinv_le_0_compat; apply inj_nonneg; lia].
  apply Qmult_le_compat_r; [by rewrite <- Zle_Qle|lra].
Qed.
Lemma freq_nyquist fft rate i : 0 < fft -> (0 < rate)%Q -> 2 * i < fft -> (frequencyForBin i fft rate < rate / 2)%Q.
Proof.
  intros Hf Hr Hi. unfold frequencyForBin. apply Qlt_shift_div_r; [by apply inj_pos|].
  assert (H : (2 * inject_Z i < inject_Z fft)%Q) by (change (inject_Z 2 * inject_Z i < inject_Z fft)%Q; rewrite <- inject_Z_mult; by rewrite <- Zlt_Qlt).
  assert (H2 : (rate / 2 * inject_Z fft == rate * inject_Z fft * (1 # 2))%Q) by field. rewrite H2. nra.
Qed.
Lemma aboveLoop_spec fft rate l : 0 < fft -> (0 < rate)%Q -> 2 * (Z.of_nat (length l) - 1) < fft ->
  let r := aboveLoop fft rate (Z.of_nat (length l) - 1) (rev (tail l)) (rate / 2)%Q (rate / 2)%Q false in
  above_ok fft rate l (if Qeq_bool (fst r) (rate / 2) && negb (Qle_bool (rate / 2) (snd r)) then 0%Q else fst r) (snd r).
Proof.
  intros Hf Hr Hl r.
  assert (H : forall n, (n < length l)%nat \/ (n = 0)%nat -> none l (length l) (fun c => c <> 2) \/ (exists i, greatest l (length l) (fun c => c <> 2) i /\ (i <= n)%nat) ->
    let r := aboveLoop fft rate (Z.of_nat n) (rev (take n (tail l))) (rate / 2)%Q (rate / 2)%Q false in
    above_ok fft rate l (if Qeq_bool (fst r) (rate / 2) && negb (Qle_bool (rate / 2) (snd r)) then 0%Q else fst r) (snd r)).
  { cbv zeta. induction n as [|n IH]; intros Hn Hg.
    - rewrite take_0. cbn [rev aboveLoop fst snd]. rewrite (proj2 (Qle_bool_iff (rate / 2) (rate / 2))) by lra. cbn [negb]. rewrite andb_false_r. left. split; [|done].
      destruct Hg as [Hg|(i & (H1 & _) & H2)]; [done|lia].
    - destruct Hn as [Hn|]; [|lia]. destruct (lookup_lt_is_Some_2 l (S n)) as [c Hc]; [lia|]. assert (Hc' : tail l !! n = Some c) by (by destruct l).
      rewrite (rev_take_S _ _ _ Hc'). cbn [aboveLoop negb]. replace (Z.of_nat (S n) - 1) with (Z.of_nat n) by lia.
      destruct (Z.eqb_spec c 2) as [->|Hc2].
      { apply IH; [lia|]. destruct Hg as [Hg|(i & Hg & Hi)]; [by left|]. right. exists i. split; [done|]. assert (i <> S n); [|lia].
        intros ->. destruct Hg as (_ & (c & Hc1 & Hc2) & _). congruence. }
      assert (Hgr : greatest l (length l) (fun c => c <> 2) (S n)).
      { destruct Hg as [Hg|(i & Hg & Hi)]; [exfalso; by apply (Hg (S n) c); [lia|..]|].
        assert (i = S n) as <-; [|done]. destruct Hg as (H1 & H2 & H3). destruct (decide (i = S n)); [done|]. exfalso. by apply (H3 (S n) c); [lia|..]. }
      assert (Hny : (frequencyForBin (Z.of_nat (S n)) fft rate < rate / 2)%Q) by (apply freq_nyquist; [done|done|lia]).
      destruct (Z.eqb_spec c 1) as [->|Hc1].
      + destruct (percussive_loop fft rate l (rate / 2)%Q (frequencyForBin (Z.of_nat (S n)) fft rate) n ltac:(lia)) as [H1 H2].
        rewrite H1. cbn [fst snd]. set (x := fst _) in *. right. exists (S n), 1. split; [done|]. split; [done|]. split; [done|]. right. split; [done|].
        assert (Hlt : Qle_bool (rate / 2) (frequencyForBin (Z.of_nat (S n)) fft rate) = false).
        { apply not_true_is_false. intros E. apply Qle_bool_iff in E. lra. }
        rewrite Hlt. cbn [negb]. rewrite andb_true_r. destruct H2 as [[H2 ->]|(j & H2 & ->)].
        * left. split; [done|]. rewrite (proj2 (Qeq_bool_iff (rate / 2) (rate / 2))); [reflexivity|apply Qeq_refl].
        * right. exists j. split; [done|]. assert (Hj : (frequencyForBin (Z.of_nat j) fft rate < rate / 2)%Q) by (apply freq_nyquist; [done|done|destruct H2 as [? _]; lia]).
          rewrite (not_true_is_false (Qeq_bool _ _)); [reflexivity|]. intros E. apply Qeq_bool_iff in E. lra.
      + cbn [fst snd]. right. exists (S n), c. split; [done|]. split; [done|]. split; [done|]. left. split; [done|].
        rewrite (not_true_is_false (Qeq_bool _ _)); [reflexivity|]. intros E. apply Qeq_bool_iff in E. lra. }
  destruct (decide (l = [])) as [->|Hne].
  { subst r. cbn [length tail rev aboveLoop fst snd]. rewrite (proj2 (Qle_bool_iff (rate / 2) (rate / 2))) by lra. cbn [negb]. rewrite andb_false_r. left. split; [|done]. intros j c _ Hj. done. }
  assert (Hl0 : (0 < length l)%nat) by (destruct l; cbn; [done|lia]).
  unfold r. clear r. replace (Z.of_nat (length l) - 1) with (Z.of_nat (length l - 1)) by lia.
  assert (Ht : tail l = take (length l - 1) (tail l)) by (rewrite take_ge; [done|destruct l; cbn; lia]). rewrite Ht. apply H; [lia|].
  assert (Hdec : forall n, (n <= length l)%nat -> (forall j c, (n <= j < length l)%nat -> l !! j = Some c -> ~ c <> 2) -> none l (length l) (fun c => c <> 2) \/ exists i, greatest l (length l) (fun c => c <> 2) i).
  { induction n as [|n IHn]; intros Hn Hall.
    - left. intros j c Hj. apply Hall. lia.
    - destruct (lookup_lt_is_Some_2 l n) as [c Hc]; [lia|]. destruct (decide (n = 0%nat)) as [->|]; [left; intros j c' Hj; apply Hall; lia|].
      destruct (decide (c = 2)) as [->|Hc2].
      + apply IHn; [lia|]. intros j c Hj Hjc. destruct (decide (j = n)) as [->|]; [assert (c = 2) by congruence; lia|]. apply (Hall j c); [lia|done].
      + right. exists n. split; [lia|]. split; [eauto|]. intros j c' Hj. apply Hall. lia. }
  destruct (Hdec (length l)) as [Hd|(i & Hi)]; [done| |by left|right; exists i; split; [done|destruct Hi as [? _]; lia]]. intros j c Hj. lia.
Qed.
Lemma boundaries_ok fft rate l : 0 < fft -> (0 < rate)%Q -> 2 * (Z.of_nat (length l) - 1) < fft -> let s := boundaries fft rate l in
  below_ok fft rate l (percussiveBelow s) /\ above_ok fft rate l (percussiveAbove s) (residualAbove s).
Proof.
  intros Hf Hr Hl. pose proof (aboveLoop_spec fft rate l Hf Hr Hl) as H. cbv zeta in H. unfold boundaries. cbv zeta. destruct (aboveLoop _ _ _ _ _ _ _) as [f1 f2].
  cbn [fst snd percussiveBelow percussiveAbove residualAbove] in *. split; [|exact H]. destruct l as [|first rest]; [left; split; [|done]; intros j c _ Hj; done|].
  apply (belowLoop_spec fft rate first rest 1); [lia|]. intros j c Hj. lia.
Qed.
(** Where the boundaries lie. *)
Lemma ordered fft rate l s0 s1 s2 : 0 < fft -> (0 < rate)%Q -> 2 * (Z.of_nat (length l) - 1) < fft ->
  below_ok fft rate l s0 -> above_ok fft rate l s1 s2 ->
  (0 <= s0 /\ s0 <= rate / 2 /\ 0 <= s1 /\ s1 <= s2 /\ s2 <= rate / 2 /\ (s1 == 0 \/ s0 <= s1))%Q.
Proof.
  intros Hf Hr Hl H0 H1. unfold below_ok, above_ok in H0, H1. change hertz with frequencyForBin in H0, H1.
  assert (Hny : (0 <= rate / 2)%Q) by (apply Qle_shift_div_l; lra).
  assert (Hin : forall i, (i < length l)%nat -> (0 <= frequencyForBin (Z.of_nat i) fft rate /\ frequencyForBin (Z.of_nat i) fft rate <= rate / 2)%Q).
  { intros i Hi. split; [apply freq_pos; [done|done|lia]|]. apply Qlt_le_weak, freq_nyquist; [done|done|lia]. }
  assert (Hs0 : (0 <= s0 /\ s0 <= rate / 2)%Q).
  { destruct H0 as [[_ ->]|(i & (_ & (c & Hc & _) & _) & ->)]; [lra|]. apply lookup_lt_Some in Hc. specialize (Hin i Hc). destruct (bool_decide _); lra. }
  assert (Hmax : forall i c, (1 <= i)%nat -> l !! i = Some c -> c <> 1 -> (s0 <= frequencyForBin (Z.of_nat i) fft rate)%Q).
  { intros i c Hi Hc Hc1. pose proof (Hin i (lookup_lt_Some _ _ _ Hc)) as Hfi. destruct H0 as [[H0 ->]|(k & (Hk & _ & H0) & ->)]; [lra|]. destruct (bool_decide _); [lra|].
    apply freq_mono; [done|done|]. destruct (decide (k <= i)%nat) as [?|Hki]; [lia|]. exfalso. apply (H0 i c); [lia|done|done]. }
  assert (Hs1 : (0 <= s1 /\ s1 <= s2 /\ s2 <= rate / 2 /\ (s1 == 0 \/ s0 <= s1))%Q).
  { destruct H1 as [(_ & -> & ->)|(i & c & (Hi & _) & Hc & -> & H1)]; [lra|]. pose proof (Hin i ltac:(lia)) as Hfi. destruct H1 as [[Hc1 ->]|[_ [[_ ->]|(j & Hj & ->)]]].
    - pose proof (Hmax i c ltac:(lia) Hc Hc1). lra.
    - lra.
    - destruct Hj as (Hji & (c' & Hc' & Hcj) & _). pose proof (Hmax j c' ltac:(lia) Hc' Hcj). pose proof (Hin j ltac:(lia)).
      pose proof (freq_mono fft rate (Z.of_nat j) (Z.of_nat i) Hf Hr ltac:(lia)). lra. }
  lra.
Qed.
