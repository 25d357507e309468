(** Proofs about the onset detectors. *)
From stdpp Require Import prelude list numbers sorting.
From Coq Require Import ZArith QArith Qround Lia.
From Verif.Filters Require Import Model Spec MMProofs.
From Verif.Curves Require Import Model Spec.
From stdpp Require Import list numbers list_numbers sorting.
Local Open Scope Z_scope.

(** ** Size *)
Lemma heard_ok rate fft : 0 <= rate -> 0 < fft -> lastPerceivedBin rate fft = heard rate fft /\ 0 <= heard rate fft <= fft / 2.
Proof.
  intros Hr Hf. unfold lastPerceivedBin, heard.
  assert (0 <= fft / 2) by (apply Z.div_pos; lia).
  destruct (Z.eqb_spec rate 0) as [->|Hne]; [rewrite decide_True by done; lia|].
  rewrite decide_False by done. rewrite !Z.quot_div_nonneg by lia.
  assert (0 <= 16000 * fft / rate) by (apply Z.div_pos; lia).
  destruct (Z.ltb_spec (fft / 2) (16000 * fft / rate)); lia.
Qed.

(** ** The loops *)
Lemma at_level l i : 0 <= i < Z.of_nat (length l) -> at_ l i = Some (level l i).
Proof.
  intros H. unfold at_, level. destruct (Z.ltb_spec i 0); [lia|].
  destruct (lookup_lt_is_Some_2 l (Z.to_nat i)) as [x ->]; [lia|done].
Qed.

Lemma rose_ok prev mag n : rose (level prev n) (level mag n) = bool_decide (risen prev mag n).
Proof.
  unfold rose, risen, zeroThresh, riseNum, riseDen. change (10 ^ 16) with 10000000000000000.
  change (10 ^ 4) with 10000.
  destruct (Z.ltb_spec 10000 (level prev n)) as [H|H].
  - destruct (Z.leb_spec (level prev n * 14125375446227544) (level mag n * 10000000000000000)); symmetry.
    + apply bool_decide_eq_true. left. split; assumption.
    + apply bool_decide_eq_false. intros [[_ ?]|[? _]]; lia.
  - destruct (Z.ltb_spec 10000 (level mag n)); symmetry.
    + apply bool_decide_eq_true. right. split; assumption.
    + apply bool_decide_eq_false. intros [[? _]|[_ ?]]; lia.
Qed.

Lemma seqZ_S n k : seqZ n (Z.of_nat (S k)) = n :: seqZ (n + 1) (Z.of_nat k).
Proof.
  rewrite seqZ_cons by lia. f_equal. f_equal; lia.
Qed.

Lemma countBins_ok k prev mag : forall n c, 0 <= n ->
  n + Z.of_nat k <= Z.of_nat (length prev) -> n + Z.of_nat k <= Z.of_nat (length mag) ->
  countBins k n prev mag c =
  Some (fst c + Z.of_nat (length (filter (risen prev mag) (seqZ n (Z.of_nat k)))),
        snd c + Z.of_nat (length (filter (fun j => 10 ^ 4 < level mag j) (seqZ n (Z.of_nat k))))).
Proof.
  induction k as [|k IH]; intros n c Hn Hp Hm; cbn [countBins].
  - destruct c. cbn. by rewrite !Z.add_0_r.
  - rewrite !at_level by lia. cbn [mbind option_bind]. rewrite IH by lia.
    rewrite rose_ok. rewrite seqZ_S. rewrite !filter_cons. unfold there, zeroThresh. cbn [fst snd].
    f_equal. f_equal.
    + case_bool_decide; [rewrite decide_True by done|rewrite decide_False by done]; cbn [length]; lia.
    + destruct (Z.ltb_spec (10 ^ 4) (level mag n)); [rewrite decide_True by done|rewrite decide_False by lia]; cbn [length]; lia.
Qed.

Lemma copyMags_ok prev mag sz : 0 <= sz -> sz + 1 <= Z.of_nat (length mag) -> sz + 1 <= Z.of_nat (length prev) ->
  exists p, copyMags prev mag sz = Some p /\ length p = length prev /\
    forall n, 0 <= n <= sz -> level p n = level mag n.
Proof.
  intros Hs Hm Hp. unfold copyMags. rewrite decide_True by lia. eexists. split; [reflexivity|]. split.
  - rewrite app_length, take_length, drop_length. lia.
  - intros n Hn. unfold level. rewrite lookup_app_l by (rewrite take_length; lia).
    rewrite lookup_take by lia. reflexivity.
Qed.

Lemma percussion_ext sz p q m m' : (forall n, 0 <= n <= sz -> level p n = level q n) ->
  (forall n, 0 <= n <= sz -> level m n = level m' n) -> percussion sz p m = percussion sz q m'.
Proof.
  intros H H'. unfold percussion.
  assert (E : filter (risen p m) (seqZ 1 sz) = filter (risen q m') (seqZ 1 sz)).
  { assert (G : Forall (fun n => 0 <= n <= sz) (seqZ 1 sz)).
    { apply Forall_forall. intros n Hn%elem_of_seqZ. lia. }
    induction G as [|n l Hn _ IH]; [done|]. rewrite !filter_cons, IH.
    apply decide_ext. unfold risen. rewrite (H n Hn), (H' n Hn). done. }
  assert (E' : filter (fun n => 10 ^ 4 < level m n) (seqZ 1 sz) = filter (fun n => 10 ^ 4 < level m' n) (seqZ 1 sz)).
  { clear E. assert (G : Forall (fun n => 0 <= n <= sz) (seqZ 1 sz)).
    { apply Forall_forall. intros n Hn%elem_of_seqZ. lia. }
    induction G as [|n l Hn _ IH]; [done|]. rewrite !filter_cons, IH.
    pose proof (H' n Hn) as e. destruct (decide (10 ^ 4 < level m n)), (decide (10 ^ 4 < level m' n)); try done; lia. }
  rewrite E, E'. done.
Qed.

Lemma percussive_ok sz prev mag : 0 <= sz -> sz + 1 <= Z.of_nat (length mag) -> sz + 1 <= Z.of_nat (length prev) ->
  exists p, percussive sz prev mag = Some (p, percussion sz prev mag) /\ length p = length prev /\
    forall n, 0 <= n <= sz -> level p n = level mag n.
Proof.
  intros Hs Hm Hp. unfold percussive. rewrite countBins_ok by lia. cbn [mbind option_bind].
  destruct (copyMags_ok prev mag sz) as (p & E & A & B); [lia..|]. rewrite E. cbn [mbind option_bind fst snd].
  exists p. split; [|done]. unfold percussion. rewrite Z2Nat.id by lia. rewrite !Z.add_0_l.
  repeat f_equal. destruct (Z.eqb_spec (Z.of_nat (length (filter (fun j => 10 ^ 4 < level mag j) (seqZ 1 sz)))) 0) as [e|e].
  - rewrite decide_True by lia. done.
  - rewrite decide_False by lia. done.
Qed.

Lemma weigh_ok k mag : forall n acc, 0 <= n -> n + Z.of_nat k <= Z.of_nat (length mag) ->
  weigh k n mag acc = Some (acc + sum ((fun j => level mag j * j) <$> seqZ n (Z.of_nat k))).
Proof.
  induction k as [|k IH]; intros n acc Hn Hm; cbn [weigh].
  - cbn. by rewrite Z.add_0_r.
  - rewrite at_level by lia. cbn [mbind option_bind]. rewrite IH by lia. rewrite seqZ_S.
    rewrite fmap_cons. unfold sum. cbn [foldr]. f_equal. lia.
Qed.
Lemma highFrequency_ok sz mag : 0 <= sz -> sz + 1 <= Z.of_nat (length mag) ->
  highFrequency sz mag = Some (highs sz mag).
Proof. intros. unfold highFrequency, highs. rewrite weigh_ok by lia. rewrite Z2Nat.id by lia. done. Qed.

(** ** The filters *)
Lemma ss_merge l : Sorted.StronglySorted Z.le (merge_sort Z.le l).
Proof. apply StronglySorted_merge_sort; apply _. Qed.

Lemma ranked_kth pct l v : kth_smallest l ((length l - 1) * pct / 100)%nat v -> v = ranked pct l.
Proof.
  intros H. set (k := ((length l - 1) * pct / 100)%nat) in *.
  assert (P : l ≡ₚ merge_sort Z.le l) by (symmetry; apply merge_sort_Permutation).
  assert (Hk : (k < length (merge_sort Z.le l))%nat).
  { rewrite <- P. destruct H as (_ & _ & H). eapply Nat.lt_le_trans; [exact H|apply count_le]. }
  destruct (lookup_lt_is_Some_2 _ _ Hk) as [w Hw].
  pose proof (kth_perm _ _ _ _ P H) as H'.
  pose proof (ss_kth _ _ _ (ss_merge l) Hw) as Hw'.
  rewrite (kth_unique _ _ _ _ H' Hw'). unfold ranked. fold k. rewrite Hw. done.
Qed.

Definition fInv (f : filter19) (pct : nat) (win : list Z) : Prop :=
  mm_inv (fun x => x) 19 f win /\ percentile f = Some (Z.of_nat pct # 1).

Lemma mm_rank_ok c pct : (1 <= c)%nat -> (pct <= 100)%nat ->
  mm_rank c (Some (Z.of_nat pct # 1)) = ((c - 1) * pct / 100)%nat.
Proof.
  intros Hc Hp. unfold mm_rank.
  assert (E : (inject_Z (Z.of_nat c - 1) * (Z.of_nat pct # 1) / 100 == (((Z.of_nat c - 1) * Z.of_nat pct) # 100))%Q).
  { unfold Qeq, Qdiv, Qmult, Qinv, inject_Z; cbn [Qnum Qden]. lia. }
  rewrite (Qfloor_comp _ _ E). unfold Qfloor.
  replace ((Z.of_nat c - 1) * Z.of_nat pct) with (Z.of_nat ((c - 1) * pct)) by nia.
  change (Z.pos 100) with (Z.of_nat 100). rewrite <- Nat2Z.inj_div.
  assert (((c - 1) * pct / 100 <= c - 1)%nat).
  { apply Nat.div_le_upper_bound; nia. }
  set (x := ((c - 1) * pct / 100)%nat) in *. clearbody x. lia.
Qed.

Lemma push_ok f pct win x : (pct <= 100)%nat -> fInv f pct win ->
  exists f', push f x = Some f' /\ fInv f' pct (slide 19 win x) /\ mm_get f' = Some (ranked pct (slide 19 win x)).
Proof.
  intros Hp [H Hpc]. unfold push.
  destruct (mm_push_inv (fun x => x) (fun _ => false) 0 19 f win x ltac:(lia) H) as (f' & E & H' & Hpc').
  change (denan (fun _ : Z => false) 0 x) with x in H'.
  exists f'. split; [exact E|]. rewrite Hpc in Hpc'. split; [split; [exact H'|exact Hpc']|].
  assert (Hne : slide 19 win x <> []).
  { unfold slide. intros Hnil%(f_equal length). rewrite drop_length, app_length in Hnil. cbn in Hnil. lia. }
  destruct (mm_get_spec (fun x => x) (fun _ => false) 0 19 f' _ H' Hne) as (v & G & K).
  { rewrite Hpc'. cbn. unfold Qle; cbn. lia. }
  rewrite G. f_equal. rewrite map_id in K. apply ranked_kth. rewrite Hpc' in K.
  rewrite mm_rank_ok in K; [exact K| |lia]. destruct (slide 19 win x); [done|cbn; lia].
Qed.

(** ** The detector over a run of frames *)
Fixpoint rising (r : Z) (hs : list Z) (i : nat) : Z :=
  match i with O => r | S j => if decide (falls hs j) then 0 else rising r hs j + 1 end.

Definition softFrom (r : Z) (hs : list Z) (i : nat) : Q :=
  if decide (falls hs i /\ 3 < rising r hs i /\ 0 < before hs i) then (1 # 2)%Q else 0%Q.
Definition reportedFrom (r : Z) (t : kind) (sz : Z) (frames : list (list Z)) (i : nat) : Q :=
  let p := percussion sz (frameBefore frames i) (frameAt frames i) in
  let s := softFrom r (highs sz <$> frames) i in
  match t with PercussiveDetector => p | SoftDetector => s | CompoundDetector => louder p s end.

Record inv (r rt fft : Z) (t : kind) (frames : list (list Z)) (i : nat) (d : detector) : Prop := {
  iRate : rate d = rt; iFft : fftSize d = fft; iTyp : typ d = t;
  iLen : Z.of_nat (length (prevMag d)) = fft / 2 + 1;
  iPrev : t <> SoftDetector -> forall n, 0 <= n <= heard rt fft -> level (prevMag d) n = level (frameBefore frames i) n;
  iSoft : t <> PercussiveDetector ->
    let hs := highs (heard rt fft) <$> frames in
    fInv (hfFilter d) 85 (drop (i - 19) (take i hs)) /\
    fInv (hfDerivFilter d) 90 (drop (i - 19) (take i (changes hs))) /\
    lastHf d = match i with O => 0 | S j => nth0 hs j end /\
    lastResult d = before hs i /\ risingCount d = rising r hs i }.

Lemma changes_lookup hs i h : hs !! i = Some h ->
  changes hs !! i = Some (h - match i with O => 0 | S j => nth0 hs j end).
Proof.
  intros H. unfold changes.
  assert (E : (0 :: hs) !! i = Some match i with O => 0 | S j => nth0 hs j end).
  { destruct i as [|j]; [reflexivity|]. change ((0 :: hs) !! S j) with (hs !! j).
    destruct (lookup_lt_is_Some_2 hs j) as [x E]; [apply lookup_lt_Some in H; lia|].
    unfold nth0. rewrite E. reflexivity. }
  rewrite lookup_zip_with, H, E. reflexivity.
Qed.

Lemma louder_ok p s :
  (if negb (Qle_bool p (35 # 100)) && negb (Qle_bool p s) then p else s) = louder p s.
Proof.
  unfold louder. destruct (Qlt_le_dec (35 # 100) p) as [A|A].
  - destruct (Qle_bool p (35 # 100)) eqn:E.
    { apply Qle_bool_iff in E. exfalso. by apply (Qlt_not_le _ _ A). }
    cbn [negb andb]. destruct (Qlt_le_dec s p) as [B|B].
    + destruct (Qle_bool p s) eqn:E'; [|done].
      apply Qle_bool_iff in E'. exfalso. by apply (Qlt_not_le _ _ B).
    + apply Qle_bool_iff in B. rewrite B. done.
  - apply Qle_bool_iff in A. rewrite A. done.
Qed.

Lemma filtering_ok r rt fft t frames i d perc h :
  t <> PercussiveDetector -> inv r rt fft t frames i d ->
  (highs (heard rt fft) <$> frames) !! i = Some h ->
  exists d', processFiltering d perc h =
      Some (d', match t with CompoundDetector => louder perc (softFrom r (highs (heard rt fft) <$> frames) i)
                | _ => softFrom r (highs (heard rt fft) <$> frames) i end) /\
    rate d' = rate d /\ fftSize d' = fftSize d /\ typ d' = typ d /\ prevMag d' = prevMag d /\
    (let hs := highs (heard rt fft) <$> frames in
    fInv (hfFilter d') 85 (drop (S i - 19) (take (S i) hs)) /\
    fInv (hfDerivFilter d') 90 (drop (S i - 19) (take (S i) (changes hs))) /\
    lastHf d' = nth0 hs i /\
    lastResult d' = before hs (S i) /\ risingCount d' = rising r hs (S i)).
Proof.
  intros Ht [_ _ ITyp _ _ ISoft] Hh. set (hs := highs (heard rt fft) <$> frames) in *.
  destruct (ISoft Ht) as (F & G & L & R & C). cbn zeta in *. clear ISoft.
  pose proof (changes_lookup hs i h Hh) as Hc. rewrite <- L in Hc.
  destruct (push_ok (hfFilter d) 85 _ h ltac:(lia) F) as (f & Ef & Ff & Gf).
  destruct (push_ok (hfDerivFilter d) 90 _ (h - lastHf d) ltac:(lia) G) as (g & Eg & Fg & Gg).
  rewrite (slide_spec (T := Z) (fun x => x) (fun _ => false) 0 19 hs i h ltac:(lia) Hh) in Ff, Gf.
  rewrite (slide_spec (T := Z) (fun x => x) (fun _ => false) 0 19 (changes hs) i _ ltac:(lia) Hc) in Fg, Gg.
  change (drop (S i - 19) (take (S i) hs)) with (recent hs i) in *.
  change (drop (S i - 19) (take (S i) (changes hs))) with (recent (changes hs) i) in *.
  assert (Hn : nth0 hs i = h) by (unfold nth0; rewrite Hh; done).
  assert (Hn' : nth0 (changes hs) i = h - lastHf d) by (unfold nth0; rewrite Hc; done).
  assert (HS : (if 0 <? h - ranked 85 (recent hs i) then h - lastHf d - ranked 90 (recent (changes hs) i) else 0) = strength hs i).
  { unfold strength. rewrite Hn, Hn'. destruct (Z.ltb_spec 0 (h - ranked 85 (recent hs i))).
    - rewrite decide_True by lia. done.
    - rewrite decide_False by lia. done. }
  unfold processFiltering. rewrite ITyp.
  set (res := (if 0 <? h - ranked 85 (recent hs i) then h - lastHf d - ranked 90 (recent (changes hs) i) else 0)) in *.
  assert (V : exists rv c, (if res <? lastResult d
      then (if (3 <? risingCount d) && (0 <? lastResult d) then (1 # 2)%Q else 0%Q, 0)
      else (0%Q, risingCount d + 1)) = (rv, c) /\ rv = softFrom r hs i /\ c = rising r hs (S i)).
  { rewrite HS, R, C. unfold softFrom. cbn [rising]. unfold falls.
    destruct (Z.ltb_spec (strength hs i) (before hs i)) as [A|A].
    - rewrite (decide_True (P := strength hs i < before hs i)) by done.
      destruct (Z.ltb_spec 3 (rising r hs i)); cbn [andb]; [destruct (Z.ltb_spec 0 (before hs i))|]; cbn [andb].
      + rewrite decide_True by done. eauto.
      + rewrite decide_False by lia. eauto.
      + rewrite decide_False by lia. eauto.
    - rewrite !decide_False by lia. eauto. }
  destruct V as (rv & c & V & -> & ->).
  destruct t; [done| |].
  all: rewrite Ef; change (Some f ≫= ?k) with (k f); cbv beta; rewrite Eg; change (Some g ≫= ?k) with (k g); cbv beta;
    rewrite Gf; change (Some ?x ≫= ?k) with (k x); cbv beta; rewrite Gg; change (Some ?x ≫= ?k) with (k x); cbv beta zeta;
    fold res; rewrite V; cbv beta iota; try rewrite louder_ok;
    eexists; split; [reflexivity|]; cbn [rate fftSize typ prevMag hfFilter hfDerivFilter lastHf lastResult risingCount];
    rewrite Hn; cbn [before]; repeat (split; [first [done|exact Ff|exact Fg|exact HS]|]); done.
Qed.

Lemma step_ok r rt fft t frames i d mag : 0 <= rt -> 0 < fft ->
  inv r rt fft t frames i d -> frames !! i = Some mag -> wide fft mag ->
  exists d', process d mag = Some (d', reportedFrom r t (heard rt fft) frames i) /\ inv r rt fft t frames (S i) d'.
Proof.
  intros Hr Hf I Hm W. pose proof I as [IRate IFft ITyp ILen IPrev ISoft].
  destruct (heard_ok rt fft Hr Hf) as [Hs Hb]. unfold wide in W.
  assert (Hh : (highs (heard rt fft) <$> frames) !! i = Some (highs (heard rt fft) mag)).
  { rewrite list_lookup_fmap, Hm. done. }
  assert (Hfa : frameAt frames i = mag) by (unfold frameAt; rewrite Hm; done).
  unfold process. rewrite IRate, IFft, Hs, ITyp.
  unfold reportedFrom. rewrite Hfa.
  destruct (percussive_ok (heard rt fft) (prevMag d) mag) as (p & Ep & Lp & Vp); [lia..|].
  destruct t.
  - rewrite Ep. change (Some ?x ≫= ?k) with (k x). cbv beta iota. change (Some ?x ≫= ?k) with (k x). cbv beta.
    unfold processFiltering. cbn [typ].
    rewrite (percussion_ext _ (prevMag d) (frameBefore frames i) mag mag) by (first [done|by apply IPrev]).
    eexists. split; [reflexivity|]. constructor; cbn; try done.
    + rewrite Lp. done.
    + intros _ n Hn. rewrite Hfa. by apply Vp.
  - rewrite Ep. change (Some ?x ≫= ?k) with (k x). cbv beta iota. rewrite highFrequency_ok by lia.
    change (Some ?x ≫= ?k) with (k x). cbv beta.
    set (d1 := Detector _ _ p _ _ _ _ _ _).
    (* the filtering does not look at the previous magnitudes *)
    destruct (filtering_ok r rt fft CompoundDetector frames i d (percussion (heard rt fft) (prevMag d) mag) (highs (heard rt fft) mag) ltac:(done) I Hh)
      as (d' & E & A1 & A2 & A3 & A4 & A5).
    assert (E1 : processFiltering d1 (percussion (heard rt fft) (prevMag d) mag) (highs (heard rt fft) mag) =
      (fun x => (Detector (rate (fst x)) (fftSize (fst x)) p (typ (fst x)) (hfFilter (fst x)) (hfDerivFilter (fst x)) (lastHf (fst x)) (lastResult (fst x)) (risingCount (fst x)), snd x)) <$>
      processFiltering d (percussion (heard rt fft) (prevMag d) mag) (highs (heard rt fft) mag)).
    { unfold processFiltering, d1. cbn [rate fftSize typ prevMag hfFilter hfDerivFilter lastHf lastResult risingCount].
      rewrite ITyp.
      destruct (push (hfFilter d) _) as [f|]; [|reflexivity]. cbn [mbind option_bind].
      destruct (push (hfDerivFilter d) _) as [g|]; [|reflexivity]. cbn [mbind option_bind].
      destruct (mm_get f) as [x|]; [|reflexivity]. cbn [mbind option_bind].
      destruct (mm_get g) as [y|]; [|reflexivity]. cbn [mbind option_bind].
      destruct (if _ <? lastResult d then _ else _) as [? ?].
      cbn [fmap option_fmap option_map fst snd rate fftSize typ hfFilter hfDerivFilter lastHf lastResult risingCount].
      rewrite ?ITyp, ?IRate, ?IFft. reflexivity. }
    rewrite E1, E. cbn [fmap option_fmap option_map fst snd].
    rewrite (percussion_ext _ (prevMag d) (frameBefore frames i) mag mag) by (first [done|by apply IPrev]).
    eexists. split; [reflexivity|]. constructor; cbn [rate fftSize typ prevMag hfFilter hfDerivFilter lastHf lastResult risingCount]; try congruence.
    intros _ n Hn. cbn [frameBefore]. rewrite Hfa. by apply Vp.
  - change (Some ?x ≫= ?k) with (k x). cbv beta iota. rewrite highFrequency_ok by lia.
    change (Some ?x ≫= ?k) with (k x). cbv beta.
    destruct (filtering_ok r rt fft SoftDetector frames i d 0%Q (highs (heard rt fft) mag) ltac:(done) I Hh)
      as (d' & E & A1 & A2 & A3 & A4 & A5).
    replace (Detector _ _ _ _ _ _ _ _ _) with d by (destruct d; cbn in *; congruence).
    rewrite E. eexists. split; [reflexivity|]. constructor; try congruence; intros _; exact A5.
Qed.

Lemma run_frames r rt fft t frames : 0 <= rt -> 0 < fft -> Forall (wide fft) frames ->
  forall k i d, (i + k = length frames)%nat -> inv r rt fft t frames i d ->
  exists d', run d (Frame <$> drop i frames) = Some (d', reportedFrom r t (heard rt fft) frames <$> seq i k).
Proof.
  intros Hr Hf W. induction k as [|k IH]; intros i d Hk I.
  - rewrite drop_ge by lia. cbn. eauto.
  - destruct (lookup_lt_is_Some_2 frames i) as [mag Hm]; [lia|].
    rewrite (drop_S frames mag i Hm). rewrite fmap_cons. cbn [run].
    destruct (step_ok r rt fft t frames i d mag Hr Hf I Hm) as (d1 & E1 & I1).
    { by eapply Forall_lookup_1. }
    rewrite E1. change (Some ?x ≫= ?k) with (k x). cbv beta iota.
    destruct (IH (S i) d1 ltac:(lia) I1) as (d2 & E2). rewrite E2.
    change (Some ?x ≫= ?k) with (k x). cbv beta iota. cbn [seq]. rewrite fmap_cons. eauto.
Qed.
