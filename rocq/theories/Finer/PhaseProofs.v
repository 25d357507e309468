(** Proofs about the phases of the R3 engine. *)
From stdpp Require Import prelude list numbers.
From Coq Require Import ZArith QArith Qround Lia Lqa.
From Verif Require Import Base.Arith Finer.PeakModel Finer.PeakSpec Finer.Peak Finer.SegmenterModel Finer.GuideModel Finer.PhaseModel Finer.PhaseSpec.
From Verif Require Phases.Model Phases.Spec Phases.Proofs.
From stdpp Require Import list numbers.
Local Open Scope Z_scope.
Notation same := Phases.Spec.same.

(** ** Arrays and loops *)
Lemma at_lookup {A} (l : list A) i : 0 <= i -> at_ l i = l !! Z.to_nat i.
Proof. intros H. unfold at_. destruct (Z.ltb_spec i 0); [lia|done]. Qed.
Lemma at_some {A} (l : list A) i : 0 <= i < Z.of_nat (length l) -> exists x, at_ l i = Some x.
Proof. intros H. destruct (at_in l i H) as (x & E & _). by exists x. Qed.
Lemma at_bound {A} (l : list A) i x : at_ l i = Some x -> 0 <= i < Z.of_nat (length l).
Proof. unfold at_. destruct (Z.ltb_spec i 0); [done|]. intros H1. apply lookup_lt_Some in H1. lia. Qed.
Lemma put_some {A} (l : list A) i x : 0 <= i < Z.of_nat (length l) -> put l i x = Some (<[Z.to_nat i := x]> l).
Proof. intros H. unfold put. rewrite (proj2 (Z.leb_le 0 i)), (proj2 (Z.ltb_lt i _)) by lia. done. Qed.
Lemma at_insert {A} (l : list A) i j x : 0 <= i < Z.of_nat (length l) -> at_ (<[Z.to_nat i := x]> l) j = if j =? i then Some x else at_ l j.
Proof.
  intros H. unfold at_. destruct (Z.ltb_spec j 0) as [Hj|Hj].
  - destruct (Z.eqb_spec j i); [lia|done].
  - destruct (Z.eqb_spec j i) as [->|Hn]; [apply list_lookup_insert; lia|]. apply list_lookup_insert_ne. lia.
Qed.
Definition inside (lo hi i : Z) : bool := (lo <=? i) && (i <=? hi).
Lemma inside_spec lo hi i : inside lo hi i = true <-> lo <= i <= hi.
Proof. unfold inside. rewrite andb_true_iff, Z.leb_le, Z.leb_le. done. Qed.

Lemma fill_seq {A} (f : Z -> option A) n : forall (l : list A) lo, 0 <= lo -> lo + Z.of_nat n <= Z.of_nat (length l) ->
  (forall i, lo <= i < lo + Z.of_nat n -> is_Some (f i)) ->
  exists l', fill f l (seqZ lo (Z.of_nat n)) = Some l' /\ length l' = length l /\
    forall i, at_ l' i = if inside lo (lo + Z.of_nat n - 1) i then f i else at_ l i.
Proof.
  induction n as [|n IH]; intros l lo H1 H2 H3.
  - exists l. split; [done|]. split; [done|]. intros i. assert (inside lo (lo + Z.of_nat 0 - 1) i = false) as ->; [|done].
    apply not_true_is_false. rewrite inside_spec. lia.
  - rewrite seqZ_cons by lia. replace (Z.pred (Z.of_nat (S n))) with (Z.of_nat n) by lia. cbn [fill].
    destruct (H3 lo) as [x Hx]; [lia|]. rewrite Hx. change (Some ?a ≫= ?g) with (g a). cbv beta.
    rewrite put_some by lia. change (Some ?a ≫= ?g) with (g a). cbv beta.
    destruct (IH (<[Z.to_nat lo := x]> l) (Z.succ lo)) as (l' & E & Hl & Hg).
    { lia. } { rewrite insert_length. lia. } { intros i Hi. apply H3. lia. }
    exists l'. split; [done|]. split; [by rewrite Hl, insert_length|]. intros i. rewrite Hg, at_insert by lia.
    destruct (inside (Z.succ lo) _ i) eqn:E1.
    + apply inside_spec in E1. rewrite (proj2 (inside_spec lo _ i)) by lia. done.
    + destruct (Z.eqb_spec i lo) as [->|Hn].
      * rewrite (proj2 (inside_spec lo _ lo)) by lia. done.
      * assert (inside lo (lo + Z.of_nat (S n) - 1) i = false) as ->; [|done]. apply not_true_is_false. rewrite inside_spec. intros H4.
        assert (inside (Z.succ lo) (Z.succ lo + Z.of_nat n - 1) i = true) by (apply inside_spec; lia). congruence.
Qed.
Lemma fill_spec {A} (f : Z -> option A) (l : list A) lo hi : 0 <= lo -> lo <= hi -> hi < Z.of_nat (length l) ->
  (forall i, lo <= i <= hi -> is_Some (f i)) ->
  exists l', fill f l (bins lo hi) = Some l' /\ length l' = length l /\ forall i, at_ l' i = if inside lo hi i then f i else at_ l i.
Proof.
  intros H1 H2 H3 H4. unfold bins. destruct (fill_seq f (Z.to_nat (hi - lo + 1)) l lo) as (l' & E & Hl & Hg); try lia.
  { intros i Hi. apply H4. lia. }
  rewrite Z2Nat.id in E, Hg by lia. exists l'. split; [done|]. split; [done|]. intros i. rewrite Hg. by replace (lo + (hi - lo + 1) - 1) with hi by lia.
Qed.
Lemma both_spec {A B C} (f : A -> B -> option C) xs : forall ys, length xs = length ys ->
  (forall c x y, xs !! c = Some x -> ys !! c = Some y -> is_Some (f x y)) ->
  exists zs, both f xs ys = Some zs /\ length zs = length xs /\
    forall c x y, xs !! c = Some x -> ys !! c = Some y -> exists z, zs !! c = Some z /\ f x y = Some z.
Proof.
  induction xs as [|x xs IH]; intros [|y ys] Hl H; try done.
  - exists []. split; [done|]. split; [done|]. intros c x y Hx. by rewrite lookup_nil in Hx.
  - destruct (H 0%nat x y eq_refl eq_refl) as [z Hz]. destruct (IH ys ltac:(cbn in Hl; lia)) as (zs & E & Hzl & Hzs).
    { intros c x' y' H1 H2. exact (H (S c) x' y' H1 H2). }
    exists (z :: zs). cbn [both]. rewrite Hz. change (Some ?a ≫= ?g) with (g a). cbv beta. rewrite E. split; [done|]. split; [cbn; lia|].
    intros [|c] x' y' H1 H2; cbn in *; [|by apply Hzs]. injection H1 as <-. injection H2 as <-. by exists z.
Qed.
Lemma numbered_lookup {A} (xs : list A) : forall k c, numbered k xs !! c = (fun x => ((k + c)%nat, x)) <$> xs !! c.
Proof. induction xs as [|x xs IH]; intros k [|c]; cbn; try done; [by rewrite Nat.add_0_r|]. rewrite IH. by rewrite Nat.add_succ_r. Qed.
Lemma numbered_length {A} (xs : list A) : forall k, length (numbered k xs) = length xs.
Proof. induction xs as [|x xs IH]; intros k; cbn; [done|]. by rewrite IH. Qed.

(** ** Peaks *)
Lemma gtq_ordering : ordering gtq.
Proof.
  assert (G : forall a b, gtq a b = true <-> (b < a)%Q).
  { intros a b. unfold gtq, ltq. rewrite negb_true_iff. split.
    - intros H. destruct (Qlt_le_dec b a) as [|H1]; [done|]. apply Qle_bool_iff in H1. congruence.
    - intros H. destruct (Qle_bool a b) eqn:E; [|done]. apply Qle_bool_iff in E. lra. }
  assert (G' : forall a b, gtq a b = false <-> (a <= b)%Q).
  { intros a b. destruct (gtq a b) eqn:E; split; try done; intros H.
    - apply G in E. lra.
    - destruct (Qlt_le_dec b a) as [H1|H1]; [|done]. apply G in H1. congruence. }
  constructor.
  - intros a. apply G'. lra.
  - intros a b c H1 H2. apply G in H1, H2. apply G. lra.
  - intros a b c H1 H2. apply G' in H1, H2. apply G'. lra.
Qed.
Lemma cround_le0 q : (0 <= q)%Q -> 0 <= cround q.
Proof. intros H. apply cround_nonneg. lra. Qed.
Lemma bandStart_nonneg s b : 0 < pfft s -> (0 < prate s)%Q -> (0 <= lf0 b)%Q -> 0 <= bandStart s b.
Proof.
  intros H1 H2 H3. apply cround_le0. apply Qle_shift_div_l; [done|]. assert (0 <= inject_Z (pfft s))%Q by (change 0%Q with (inject_Z 0); rewrite <- Zle_Qle; lia).
  rewrite Qmult_0_l. by apply Qmult_le_0_compat.
Qed.

(** A run of the peak picker over [start] to [end]. *)
Lemma picked (mn : Z) (v : list Q) st en p (l : list Z) : 0 <= st -> st <= en -> 0 <= p -> en < Z.of_nat (length v) -> en < mn -> en < Z.of_nat (length l) ->
  exists l' x, findNearestAndNextPeaks gtq mn v st (en - st + 1) p (Some l) None = Some (Some l', x) /\ length l' = length l /\
    (forall i, ~ (st <= i <= en) -> at_ l' i = at_ l i) /\
    (forall i, st <= i <= en -> exists r, at_ l' i = Some r /\ closest (peak_at gtq v st (en + 1) p) i r).
Proof.
  intros H1 H2 H3 H4 H5 H6. destruct (find_spec gtq mn v st (en - st + 1) p (Some l) None gtq_ordering) as (n' & x & E & Hw & _); cbn [fits]; try lia.
  replace (st + (en - st + 1)) with (en + 1) in * by lia. destruct n' as [l'|]; [|done]. destruct Hw as (Hl & Ho & Hi).
  exists l', x. split; [done|]. split; [done|]. split.
  - intros i Hni. unfold at_. destruct (Z.ltb_spec i 0); [done|]. apply Ho; lia.
  - intros i Hin. destruct (Hi i) as (r & Hr & Hc); [lia|]. exists r. rewrite at_lookup by lia. done.
Qed.
Lemma peak_in (v : list Q) lo hi p q : peak_at gtq v lo hi p q -> lo <= q < hi.
Proof. by intros [H _]. Qed.

Lemma lockPeaks_spec s lo hi v bands : setupOk s lo hi -> Z.of_nat (length v) = binCount s -> Forall (fun b => 0 <= lp b /\ (0 <= lf0 b)%Q) bands ->
  forall cur, Z.of_nat (length cur) = binCount s ->
  exists cur', lockPeaks s lo hi v bands cur = Some cur' /\ length cur' = length cur /\
    forall i, lo <= i <= hi -> match lastBand s hi bands i with
      | Some b => exists p, at_ cur' i = Some p /\ closest (peak_at gtq v (bandStart s b) (bandEnd s hi b + 1) (lp b)) i p /\ 0 <= p <= hi
      | None => at_ cur' i = at_ cur i end.
Proof.
  intros [S1 S2 S3 S4 S5] Hv. induction bands as [|b bands IH]; intros Hb cur Hc.
  { exists cur. split; [done|]. split; [done|]. intros i Hi. done. }
  apply Forall_cons_1 in Hb as [[Hp Hf] Hb]. specialize (IH Hb). cbn [lockPeaks]. fold (bandStart s b).
  set (st := bandStart s b). set (en0 := binForFrequency (lf1 b) (pfft s) (prate s)).
  assert (Hen : bandEnd s hi b = Z.min hi en0) by done.
  assert (Hst : 0 <= st) by (by apply bandStart_nonneg).
  assert (Hskip : (forall i, lo <= i <= hi -> (st <=? i) && (i <=? bandEnd s hi b) = false) ->
    exists cur', lockPeaks s lo hi v bands cur = Some cur' /\ length cur' = length cur /\
    forall i, lo <= i <= hi -> match lastBand s hi (b :: bands) i with
      | Some b => exists p, at_ cur' i = Some p /\ closest (peak_at gtq v (bandStart s b) (bandEnd s hi b + 1) (lp b)) i p /\ 0 <= p <= hi
      | None => at_ cur' i = at_ cur i end).
  { intros Hno. destruct (IH cur Hc) as (cur' & E & Hl & Hs). exists cur'. split; [done|]. split; [done|]. intros i Hi. specialize (Hs i Hi).
    cbn [lastBand]. destruct (lastBand s hi bands i); [done|]. fold st. by rewrite (Hno i Hi). }
  assert (Hnot : forall i, ~ (st <= i <= bandEnd s hi b) -> (st <=? i) && (i <=? bandEnd s hi b) = false).
  { intros i Hi. destruct (Z.leb_spec st i), (Z.leb_spec i (bandEnd s hi b)); try done. lia. }
  destruct (Z.ltb_spec hi st) as [H1|H1]; cbn [orb].
  { apply Hskip. intros i Hi. apply Hnot. lia. }
  destruct (Z.ltb_spec en0 lo) as [H2|H2].
  { apply Hskip. intros i Hi. apply Hnot. lia. }
  assert (He : (if hi <? en0 then hi else en0) = bandEnd s hi b) by (rewrite Hen; destruct (Z.ltb_spec hi en0); lia). rewrite He.
  set (en := bandEnd s hi b) in *.
  destruct (Z.ltb_spec (en - st + 1) 1) as [H3|H3].
  { apply Hskip. intros i Hi. apply Hnot. lia. }
  destruct (picked (binCount s) v st en (lp b) cur) as (l' & x & E & Hl & Ho & Hi); try lia. rewrite E.
  change (Some ?a ≫= ?g) with (g a). cbv beta iota. cbn [default].
  destruct (IH l' ltac:(lia)) as (cur' & E' & Hl' & Hs'). exists cur'. split; [done|]. split; [lia|]. intros i Hir. specialize (Hs' i Hir).
  cbn [lastBand]. destruct (lastBand s hi bands i) as [b'|]; [done|]. fold st en.
  destruct (Z.leb_spec st i), (Z.leb_spec i en); cbn [andb].
  - destruct (Hi i ltac:(lia)) as (r & Hr & Hcl). exists r. rewrite Hs'. split; [done|]. split; [done|]. destruct Hcl as [Hpk _]. apply peak_in in Hpk. lia.
  - rewrite Hs'. apply Ho. lia.
  - rewrite Hs'. apply Ho. lia.
  - rewrite Hs'. apply Ho. lia.
Qed.

Lemma findPeaks_spec s lo hi m a : setupOk s lo hi -> shaped s m -> inputOk s a ->
  exists m', findPeaks s lo hi m a = Some m' /\ shaped s m' /\ prevIn m' = prevIn m /\ prevOut m' = prevOut m /\ unlocked m' = unlocked m /\
    (forall i, lo <= i <= hi -> exists p, at_ (curPeaks m') i = Some p /\ peakOf s hi a i p /\ 0 <= p <= hi) /\
    (forall p, lo <= p <= hi -> exists q, at_ (prevPeaks m') p = Some q /\ oldPeakOf lo hi a p q /\ lo <= q <= hi) /\
    (forall p, ~ (lo <= p <= hi) -> at_ (prevPeaks m') p = at_ (prevPeaks m) p).
Proof.
  intros HS HM HA. pose proof HS as [S1 S2 S3 S4 S5]. destruct HM as [M1 M2 M3 M4 M5 M6]. destruct HA as [A1 A2 A3 A4 [A5 A6]]. unfold findPeaks.
  destruct (fill_spec Some (curPeaks m) lo hi) as (c0 & E0 & L0 & G0); try lia; [by eexists|]. rewrite E0. change (Some ?a ≫= ?g) with (g a). cbv beta.
  destruct (lockPeaks_spec s lo hi (mag a) (lockBands (guid a)) HS A2 A6 c0 ltac:(lia)) as (c1 & E1 & L1 & G1). rewrite E1. change (Some ?a ≫= ?g) with (g a). cbv beta.
  destruct (picked (binCount s) (prevMag a) lo hi 1 (prevPeaks m)) as (pv & x & E2 & L2 & O2 & G2); try lia. rewrite E2. change (Some ?a ≫= ?g) with (g a). cbv beta iota. cbn [default].
  eexists. split; [reflexivity|]. split.
  { constructor; cbn; try lia. apply Forall_lookup. intros j q Hq.
    assert (Hat : at_ pv (Z.of_nat j) = Some q) by (rewrite at_lookup by lia; by rewrite Nat2Z.id).
    destruct (decide (lo <= Z.of_nat j <= hi)) as [Hj|Hj].
    - destruct (G2 _ Hj) as (r & Hr & [Hpk _]). rewrite Hat in Hr. injection Hr as <-. apply peak_in in Hpk. lia.
    - rewrite O2 in Hat by done. rewrite at_lookup, Nat2Z.id in Hat by lia. rewrite Forall_lookup in M6. by eapply M6. }
  split; [done|]. split; [done|]. split; [done|]. cbn [curPeaks prevPeaks]. split; [|split].
  - intros i Hi. specialize (G1 i Hi). unfold peakOf, bandPeaks. destruct (lastBand s hi (lockBands (guid a)) i) as [b|].
    + done.
    + exists i. rewrite G1, G0, (proj2 (inside_spec lo hi i)) by done. split; [done|]. split; [done|]. lia.
  - intros p Hp. destruct (G2 p Hp) as (q & Hq & Hc). exists q. split; [done|]. split; [done|]. destruct Hc as [Hpk _]. apply peak_in in Hpk. lia.
  - intros p Hp. by apply O2.
Qed.

Lemma closest_eq (P : Z -> Prop) i r r' : closest P i r -> closest P i r' -> r = r'.
Proof. intros [H1 H2] [H3 H4]. destruct (H2 r' H3) as [A1 A2]. destruct (H4 r H1) as [B1 B2]. lia. Qed.
Lemma closest_self (P : Z -> Prop) i r : P i -> closest P i r -> r = i.
Proof. intros H [H1 H2]. destruct (H2 i H) as [H3 _]. lia. Qed.
Lemma peakOf_eq s hi a i p p' : peakOf s hi a i p -> peakOf s hi a i p' -> p = p'.
Proof. unfold peakOf. destruct (lastBand _ _ _ _); [apply closest_eq|by intros -> ->]. Qed.

(** ** One call *)
Lemma unlock_spec s lo hi k m a : setupOk s lo hi -> shaped s m -> inputOk s a ->
  exists m', unlock s lo hi (inhop k) (outhop k) m a = Some m' /\ shaped s m' /\ curPeaks m' = curPeaks m /\ prevPeaks m' = prevPeaks m /\
    prevIn m' = prevIn m /\ prevOut m' = prevOut m /\
    (forall i, lo <= i <= hi -> exists p' p o, at_ (prevIn m) i = Some p' /\ at_ (phase a) i = Some p /\ at_ (prevOut m) i = Some o /\ at_ (unlocked m') i = Some (o + onward s k i p' p)%Q) /\
    (forall i, ~ (lo <= i <= hi) -> at_ (unlocked m') i = at_ (unlocked m) i).
Proof.
  intros HS HM HA. pose proof HS as [S1 S2 S3 S4 S5]. pose proof HM as [M1 M2 M3 M4 M5 M6]. pose proof HA as [A1 A2 A3 A4 A5]. unfold unlock.
  assert (Hsome : forall i, lo <= i <= hi -> exists p' p o, at_ (prevIn m) i = Some p' /\ at_ (phase a) i = Some p /\ at_ (prevOut m) i = Some o).
  { intros i Hi. destruct (at_some (prevIn m) i) as [p' H1]; [lia|]. destruct (at_some (phase a) i) as [p H2]; [lia|]. destruct (at_some (prevOut m) i) as [o H3]; [lia|]. by exists p', p, o. }
  match goal with |- context [fill ?f _ _] => destruct (fill_spec f (unlocked m) lo hi) as (u & E & L & G) end; try lia.
  { intros i Hi. destruct (Hsome i Hi) as (p' & p & o & -> & -> & ->). by eexists. }
  rewrite E. change (Some ?a ≫= ?g) with (g a). cbv beta. eexists. split; [reflexivity|]. split; [constructor; cbn; lia || done|].
  do 4 (split; [done|]). cbn [unlocked]. split.
  - intros i Hi. destruct (Hsome i Hi) as (p' & p & o & H1 & H2 & H3). exists p', p, o. split; [done|]. split; [done|]. split; [done|].
    rewrite G, (proj2 (inside_spec lo hi i)) by done. rewrite H1, H2, H3. done.
  - intros i Hi. rewrite G. destruct (inside lo hi i) eqn:Ei; [apply inside_spec in Ei; lia|done].
Qed.

(** A channel after the first two loops: peaks found, phases not yet locked. *)
Record ready (s : setup) (lo hi : Z) (k : call) (m : memory) (a : input) (m2 : memory) : Prop := Ready {
  rd_shaped : shaped s m2; rd_in : prevIn m2 = prevIn m; rd_out : prevOut m2 = prevOut m;
  rd_peak : forall i, lo <= i <= hi -> exists p, at_ (curPeaks m2) i = Some p /\ peakOf s hi a i p /\ 0 <= p <= hi;
  rd_old : forall p, lo <= p <= hi -> exists q, at_ (prevPeaks m2) p = Some q /\ oldPeakOf lo hi a p q /\ lo <= q <= hi;
  rd_old_out : forall p, ~ (lo <= p <= hi) -> at_ (prevPeaks m2) p = at_ (prevPeaks m) p;
  rd_un : forall i, lo <= i <= hi -> exists p' p o, at_ (prevIn m) i = Some p' /\ at_ (phase a) i = Some p /\ at_ (prevOut m) i = Some o /\ at_ (unlocked m2) i = Some (o + onward s k i p' p)%Q;
  rd_un_out : forall i, ~ (lo <= i <= hi) -> at_ (unlocked m2) i = at_ (unlocked m) i
}.

Lemma gtq_true a b : gtq a b = true -> (b < a)%Q.
Proof. unfold gtq, ltq. rewrite negb_true_iff. intros H. destruct (Qlt_le_dec b a) as [|H1]; [done|]. apply Qle_bool_iff in H1. congruence. Qed.
Lemma gtq_false a b : gtq a b = false -> (a <= b)%Q.
Proof. unfold gtq, ltq. rewrite negb_false_iff. apply Qle_bool_iff. Qed.
Lemma greatest_spec (all : list Q) ms : forall c best g, (best < c)%nat -> all !! best = Some g -> (forall d y, (d < c)%nat -> all !! d = Some y -> (y <= g)%Q /\ ((d < best)%nat -> (y < g)%Q)) ->
  (forall j, ms !! j = all !! (c + j)%nat) -> (length all = c + length ms)%nat ->
  exists x, all !! greatest ms c best g = Some x /\ forall d y, all !! d = Some y -> (y <= x)%Q /\ ((d < greatest ms c best g)%nat -> (y < x)%Q).
Proof.
  induction ms as [|x ms IH]; intros c best g Hlt Hb Hall Hms Hlen; cbn [greatest].
  - exists g. split; [done|]. intros d y Hd. apply Hall; [|done]. apply lookup_lt_Some in Hd. cbn in Hlen. lia.
  - assert (Hc : all !! c = Some x) by (specialize (Hms 0%nat); cbn in Hms; by rewrite Nat.add_0_r in Hms).
    assert (Hms' : forall j, ms !! j = all !! (S c + j)%nat) by (intros j; specialize (Hms (S j)); cbn in Hms; by rewrite Nat.add_succ_r in Hms).
    destruct (gtq x g) eqn:E.
    + apply gtq_true in E. apply IH; try done; [lia| |cbn in Hlen; lia]. intros d y Hd Hy. destruct (decide (d = c)) as [->|Hn].
      * rewrite Hc in Hy. injection Hy as <-. split; [lra|lia].
      * destruct (Hall d y ltac:(lia) Hy). split; [lra|intros _; lra].
    + apply gtq_false in E. apply IH; try done; [lia| |cbn in Hlen; lia]. intros d y Hd Hy. destruct (decide (d = c)) as [->|Hn].
      * rewrite Hc in Hy. injection Hy as <-. split; [lra|lia].
      * apply Hall; [lia|done].
Qed.
Lemma greatestChannel_spec s xs i : Forall (inputOk s) xs -> xs <> [] -> 0 <= i < binCount s -> exists o, greatestChannel xs i = Some o /\ loudest xs i o.
Proof.
  intros Hx Hne Hi. unfold greatestChannel.
  assert (exists ms, mapM (fun a => at_ (mag a) i) xs = Some ms) as [ms Hms].
  { apply mapM_is_Some. eapply List.Forall_impl; [|exact Hx]. intros a [A1 A2 A3 A4 A5]. destruct (at_some (mag a) i) as [x Hx1]; [lia|]. exists x. exact Hx1. }
  rewrite Hms. change (Some ?a ≫= ?g) with (g a). cbv beta. apply mapM_Some in Hms. pose proof (Forall2_length _ _ _ Hms) as Hl.
  destruct ms as [|g ms]; [destruct xs; [done|cbn in Hl; lia]|]. exists (greatest ms 1 0 g). split; [done|].
  destruct (greatest_spec (g :: ms) ms 1 0 g) as (x & Hx1 & Hx2); try done; [lia| |].
  { intros [|d] y Hd Hy; [|lia]. cbn in Hy. injection Hy as <-. split; [lra|lia]. }
  destruct (Forall2_lookup_r _ _ _ _ _ Hms Hx1) as (a & Ha & Hax). exists a, x. split; [done|]. split; [done|]. intros c b y Hc Hy.
  destruct (Forall2_lookup_l _ _ _ _ _ Hms Hc) as (y' & Hy' & Hby). rewrite Hy in Hby. injection Hby as <-. by apply Hx2.
Qed.
Lemma loudest_eq xs i o o' : loudest xs i o -> loudest xs i o' -> o = o'.
Proof.
  intros (a & x & H1 & H2 & H3) (a' & x' & H1' & H2' & H3'). destruct (H3 _ _ _ H1' H2') as [A1 A2]. destruct (H3' _ _ _ H1 H2) as [B1 B2].
  destruct (lt_eq_lt_dec o o') as [[H|H]|H]; [|done|].
  - specialize (B2 H). lra.
  - specialize (A2 H). lra.
Qed.
Lemma betaAt_some f bands : bands <> [] -> exists b, betaAt f bands = Some b.
Proof.
  induction bands as [|b bands IH]; [done|]. intros _. destruct bands as [|b' bands]; [by eexists|]. cbn [betaAt].
  destruct (ltq (lf1 b) f); [apply IH; done|by eexists].
Qed.

(** The channel followed is the own one, or the loudest. *)
Lemma peakChannel_spec s lo hi k (ms ms2 : list memory) c i f a q : setupOk s lo hi -> Forall (inputOk s) (inputs k) -> length ms2 = length (inputs k) ->
  (forall c m a m2, ms !! c = Some m -> inputs k !! c = Some a -> ms2 !! c = Some m2 -> ready s lo hi k m a m2) -> length ms = length (inputs k) ->
  inputs k !! c = Some a -> lo <= i <= hi ->
  exists pc, peakChannel ms2 (inputs k) c i f (guid a) q = Some pc /\ (pc < length (inputs k))%nat /\
    (pc = c \/ loudest (inputs k) i pc /\ inRange f (channelLock (guid a)) = true).
Proof.
  intros HS HX Hl2 Hrd Hl Ha Hi. pose proof HS as [S1 S2 S3 S4 S5]. unfold peakChannel. assert (Hc : (c < length (inputs k))%nat) by (by eapply lookup_lt_Some).
  destruct (inRange f (channelLock (guid a))) eqn:E1; [|exists c; split; [done|]; split; [done|]; by left].
  destruct (greatestChannel_spec s (inputs k) i HX) as (o & -> & Ho); [intros E; rewrite E in Hc; cbn in Hc; lia|lia|]. change (Some ?a ≫= ?g) with (g a). cbv beta.
  assert (exists oa, inputs k !! o = Some oa) as [oa Hoa] by (destruct Ho as (b & x & Hb & _); by exists b).
  assert (Holt : (o < length (inputs k))%nat) by (by eapply lookup_lt_Some).
  destruct (lookup_lt_is_Some_2 ms2 o) as [om Hom]; [lia|]. destruct (lookup_lt_is_Some_2 ms o) as [om0 Hom0]; [lia|].
  rewrite Hoa. change (Some ?a ≫= ?g) with (g a). cbv beta. rewrite Hom. change (Some ?a ≫= ?g) with (g a). cbv beta.
  destruct (Hrd _ _ _ _ Hom0 Hoa Hom) as [R1 R2 R3 R4 R5 R6 R7 R8].
  destruct (negb (o =? c)%nat && inRange f (channelLock (guid oa))) eqn:E2; [|exists c; split; [done|]; split; [done|]; by left].
  destruct (R4 i Hi) as (p & Hp & _ & Hpr). rewrite Hp. change (Some ?a ≫= ?g) with (g a). cbv beta.
  destruct R1 as [M1 M2 M3 M4 M5 M6]. destruct (at_some (prevPeaks om) p) as [q' ->]; [lia|]. change (Some ?a ≫= ?g) with (g a). cbv beta.
  eexists. split; [reflexivity|]. destruct (q' =? q); split; try done; [right; done|by left].
Qed.

Lemma locked_spec s lo hi k (ms ms2 : list memory) c i f a m m2 : setupOk s lo hi -> Forall (inputOk s) (inputs k) -> length ms2 = length (inputs k) ->
  (forall c m a m2, ms !! c = Some m -> inputs k !! c = Some a -> ms2 !! c = Some m2 -> ready s lo hi k m a m2) -> length ms = length (inputs k) ->
  ms !! c = Some m -> inputs k !! c = Some a -> ms2 !! c = Some m2 -> lo <= i <= hi -> is_Some (locked ms2 (inputs k) c i f m2 a).
Proof.
  intros HS HX Hl2 Hrd Hl Hm Ha Hm2 Hi. pose proof HS as [S1 S2 S3 S4 S5]. pose proof (Hrd _ _ _ _ Hm Ha Hm2) as HR. unfold locked.
  destruct (rd_peak _ _ _ _ _ _ _ HR i Hi) as (p & -> & _ & Hp). change (Some ?a ≫= ?g) with (g a). cbv beta.
  pose proof (rd_shaped _ _ _ _ _ _ _ HR) as [M1 M2 M3 M4 M5 M6].
  destruct (at_some (prevPeaks m2) p) as [q Hq]; [lia|]. rewrite Hq. change (Some ?a ≫= ?g) with (g a). cbv beta.
  assert (Hqr : 0 <= q < binCount s). { rewrite at_lookup in Hq by lia. rewrite Forall_lookup in M6. by eapply M6. }
  destruct (peakChannel_spec s lo hi k ms ms2 c i f a q) as (pc & -> & Hpc & _); try done. change (Some ?a ≫= ?g) with (g a). cbv beta.
  destruct (lookup_lt_is_Some_2 ms2 pc) as [pm2 Hpm2]; [lia|]. destruct (lookup_lt_is_Some_2 ms pc) as [pm Hpm]; [lia|]. destruct (lookup_lt_is_Some_2 (inputs k) pc) as [pa Hpa]; [lia|].
  rewrite Hpm2. change (Some ?a ≫= ?g) with (g a). cbv beta. rewrite Hpa. change (Some ?a ≫= ?g) with (g a). cbv beta.
  destruct (rd_shaped _ _ _ _ _ _ _ (Hrd _ _ _ _ Hpm Hpa Hpm2)) as [N1 N2 N3 N4 N5 N6].
  rewrite Forall_lookup in HX. destruct (HX _ _ Ha) as [A1 A2 A3 A4 [A5 A6]]. destruct (HX _ _ Hpa) as [B1 B2 B3 B4 B5].
  destruct (at_some (unlocked pm2) p) as [u ->]; [lia|]. destruct (at_some (prevOut pm2) p) as [o ->]; [lia|]. destruct (at_some (prevOut pm2) q) as [o' ->]; [lia|].
  destruct (at_some (phase a) i) as [x ->]; [lia|]. destruct (at_some (phase pa) p) as [y ->]; [lia|]. destruct (betaAt_some f (lockBands (guid a)) A5) as [b ->]. by eexists.
Qed.

Definition sideOf (k : call) : option range := if midSide k && (length (inputs k) =? 2)%nat then a ← inputs k !! 1%nat; Some (phaseReset (guid a)) else None.
Lemma newPhase_some s lo hi k (ms ms2 : list memory) c i a m m2 : setupOk s lo hi -> Forall (inputOk s) (inputs k) -> length ms2 = length (inputs k) ->
  (forall c m a m2, ms !! c = Some m -> inputs k !! c = Some a -> ms2 !! c = Some m2 -> ready s lo hi k m a m2) -> length ms = length (inputs k) ->
  ms !! c = Some m -> inputs k !! c = Some a -> ms2 !! c = Some m2 -> lo <= i <= hi -> is_Some (newPhase s (inhop k) (outhop k) (sideOf k) ms2 (inputs k) c m2 a i).
Proof.
  intros HS HX Hl2 Hrd Hl Hm Ha Hm2 Hi. pose proof HS as [S1 S2 S3 S4 S5]. unfold newPhase.
  rewrite Forall_lookup in HX. destruct (HX _ _ Ha) as [A1 A2 A3 A4 A5]. destruct (at_some (phase a) i) as [x Hx]; [lia|]. rewrite Hx.
  destruct (rd_shaped _ _ _ _ _ _ _ (Hrd _ _ _ _ Hm Ha Hm2)) as [M1 M2 M3 M4 M5 M6]. destruct (at_some (unlocked m2) i) as [u ->]; [lia|].
  destruct (locked_spec s lo hi k ms ms2 c i (frequencyForBin i (pfft s) (prate s)) a m m2) as [y ->]; try done; [by apply Forall_lookup|].
  repeat match goal with |- context [if ?b then _ else _] => destruct b end; by eexists.
Qed.

Lemma advance_spec s lo hi n ms k : setupOk s lo hi -> callOk s lo hi n k -> length ms = n -> Forall (shaped s) ms ->
  exists ms2 ms' outs, advanceAll s ms k = Some (ms', outs) /\ length ms2 = n /\ length ms' = n /\ length outs = n /\
    (forall c m a m2, ms !! c = Some m -> inputs k !! c = Some a -> ms2 !! c = Some m2 -> ready s lo hi k m a m2) /\
    (forall c m a m2, ms !! c = Some m -> inputs k !! c = Some a -> ms2 !! c = Some m2 -> exists m' out, ms' !! c = Some m' /\ outs !! c = Some out /\ shaped s m' /\ Z.of_nat (length out) = binCount s /\
      (forall i, at_ out i = if inside lo hi i then newPhase s (inhop k) (outhop k) (sideOf k) ms2 (inputs k) c m2 a i else at_ (outPhase a) i) /\
      (forall i, at_ (prevIn m') i = if inside lo hi i then at_ (phase a) i else at_ (prevIn m) i) /\
      (forall i, at_ (prevOut m') i = if inside lo hi i then at_ out i else at_ (prevOut m) i) /\
      curPeaks m' = curPeaks m2 /\ prevPeaks m' = prevPeaks m2 /\ unlocked m' = unlocked m2).
Proof.
  intros HS [C1 C2 C3 (a0 & C4 & C5)] Hn Hsh. pose proof HS as [S1 S2 S3 S4 S5]. unfold advanceAll. rewrite C4. change (Some ?a ≫= ?g) with (g a). cbv beta.
  rewrite C5. change (Some ?a ≫= ?g) with (g a). cbv beta iota. pose proof C2 as HX. rewrite Forall_lookup in HX. pose proof Hsh as Hsh'. rewrite Forall_lookup in Hsh'.
  destruct (both_spec (findPeaks s lo hi) ms (inputs k)) as (ms1 & -> & L1 & G1); [lia| |].
  { intros c m a Hm Ha. destruct (findPeaks_spec s lo hi m a) as (m' & -> & _); eauto. }
  change (Some ?a ≫= ?g) with (g a). cbv beta.
  assert (G1' : forall c m1 a, ms1 !! c = Some m1 -> inputs k !! c = Some a -> exists m, ms !! c = Some m /\ findPeaks s lo hi m a = Some m1).
  { intros c m1 a Hm1 Ha. destruct (lookup_lt_is_Some_2 ms c) as [m Hm]; [apply lookup_lt_Some in Hm1; lia|]. exists m. split; [done|].
    destruct (G1 c m a Hm Ha) as (m1' & H1 & H2). rewrite Hm1 in H1. injection H1 as <-. done. }
  destruct (both_spec (unlock s lo hi (inhop k) (outhop k)) ms1 (inputs k)) as (ms2 & -> & L2 & G2); [lia| |].
  { intros c m1 a Hm1 Ha. destruct (G1' c m1 a Hm1 Ha) as (m & Hm & Hf). destruct (findPeaks_spec s lo hi m a) as (m' & Hf' & Hs' & _); eauto. rewrite Hf in Hf'. injection Hf' as <-.
    destruct (unlock_spec s lo hi k m1 a) as (m2 & -> & _); eauto. }
  change (Some ?a ≫= ?g) with (g a). cbv beta zeta.
  assert (Hrd : forall c m a m2, ms !! c = Some m -> inputs k !! c = Some a -> ms2 !! c = Some m2 -> ready s lo hi k m a m2).
  { intros c m a m2 Hm Ha Hm2. destruct (G1 c m a Hm Ha) as (m1 & Hm1 & Hf). destruct (G2 c m1 a Hm1 Ha) as (m2' & Hm2' & Hu). rewrite Hm2 in Hm2'. injection Hm2' as <-.
    destruct (findPeaks_spec s lo hi m a) as (m1' & Hf' & F1 & F2 & F3 & F4 & F5 & F6 & F7); eauto. rewrite Hf in Hf'. injection Hf' as <-.
    destruct (unlock_spec s lo hi k m1 a) as (m2' & Hu' & U1 & U2 & U3 & U4 & U5 & U6 & U7); eauto. rewrite Hu in Hu'. injection Hu' as <-.
    rewrite F2, F3 in *. constructor; try done; try congruence.
    - rewrite U2. done.
    - rewrite U3. done.
    - rewrite U3. done.
    - rewrite <- F4. done. }
  replace (if midSide k && (length ms2 =? 2)%nat then a ← inputs k !! 1%nat; Some (phaseReset (guid a)) else None) with (sideOf k) by (unfold sideOf; by replace (length ms2) with (length (inputs k)) by lia).
  destruct (both_spec (fun '(c, m) a => newPhases s lo hi (inhop k) (outhop k) (sideOf k) ms2 (inputs k) c m a) (numbered 0 ms2) (inputs k)) as (outs & E3 & L3 & G3).
  { rewrite numbered_length. lia. }
  { intros c [c' m2] a Hc Ha. rewrite numbered_lookup in Hc. apply fmap_Some in Hc as (m2' & Hm2 & Hc). injection Hc as -> ->. cbn [plus Nat.add].
    destruct (lookup_lt_is_Some_2 ms c) as [m Hm]; [apply lookup_lt_Some in Hm2; lia|]. unfold newPhases. destruct (HX _ _ Ha) as [A1 A2 A3 A4 A5].
    match goal with |- context [fill ?f _ _] => destruct (fill_spec f (outPhase a) lo hi) as (l' & -> & _) end; try lia; [|by eexists].
    intros i Hi. eapply newPhase_some; eauto; lia. }
  rewrite E3. change (Some ?a ≫= ?g) with (g a). cbv beta. rewrite numbered_length in L3.
  assert (G3' : forall c m a m2, ms !! c = Some m -> inputs k !! c = Some a -> ms2 !! c = Some m2 -> exists out, outs !! c = Some out /\ Z.of_nat (length out) = binCount s /\
    forall i, at_ out i = if inside lo hi i then newPhase s (inhop k) (outhop k) (sideOf k) ms2 (inputs k) c m2 a i else at_ (outPhase a) i).
  { intros c m a m2 Hm Ha Hm2. destruct (G3 c (c, m2) a) as (out & Hout & Hf); [by rewrite numbered_lookup, Hm2|done|]. exists out. split; [done|].
    unfold newPhases in Hf. destruct (HX _ _ Ha) as [A1 A2 A3 A4 A5].
    match type of Hf with fill ?f _ _ = _ => destruct (fill_spec f (outPhase a) lo hi) as (l' & Hl' & Hll & Hg) end; try lia.
    { intros i Hi. eapply newPhase_some; eauto; lia. }
    rewrite Hf in Hl'. injection Hl' as <-. split; [lia|done]. }
  assert (Hrem : forall c m a m2 out, ms !! c = Some m -> inputs k !! c = Some a -> ms2 !! c = Some m2 -> Z.of_nat (length out) = binCount s ->
    exists m', remember lo hi m2 a out = Some m' /\ shaped s m' /\
      (forall i, at_ (prevIn m') i = if inside lo hi i then at_ (phase a) i else at_ (prevIn m) i) /\
      (forall i, at_ (prevOut m') i = if inside lo hi i then at_ out i else at_ (prevOut m) i) /\
      curPeaks m' = curPeaks m2 /\ prevPeaks m' = prevPeaks m2 /\ unlocked m' = unlocked m2).
  { intros c m a m2 out Hm Ha Hm2 Hout. pose proof (Hrd _ _ _ _ Hm Ha Hm2) as [R1 R2 R3 R4 R5 R6 R7 R8]. pose proof R1 as [M1 M2 M3 M4 M5 M6]. destruct (HX _ _ Ha) as [A1 A2 A3 A4 A5].
    unfold remember. destruct (fill_spec (at_ (phase a)) (prevIn m2) lo hi) as (pin & -> & Lp & Gp); try lia; [intros i Hi; destruct (at_some (phase a) i) as [x ->]; [lia|by eexists]|].
    change (Some ?a ≫= ?g) with (g a). cbv beta.
    destruct (fill_spec (at_ out) (prevOut m2) lo hi) as (po & -> & Lo & Go); try lia; [intros i Hi; destruct (at_some out i) as [x ->]; [lia|by eexists]|].
    change (Some ?a ≫= ?g) with (g a). cbv beta. eexists. split; [reflexivity|]. rewrite <- R2, <- R3. split; [constructor; cbn; done || lia|]. done. }
  destruct (both_spec (fun '(m, a) out => remember lo hi m a out) (zip ms2 (inputs k)) outs) as (ms' & E4 & L4 & G4).
  { rewrite zip_with_length. lia. }
  { intros c [m2 a] out Hz Ho. apply lookup_zip_with_Some in Hz as (m2' & a' & [= -> ->] & Hm2 & Ha).
    destruct (lookup_lt_is_Some_2 ms c) as [m Hm]; [apply lookup_lt_Some in Hm2; lia|]. destruct (G3' _ _ _ _ Hm Ha Hm2) as (out' & Ho' & Hlen & _). rewrite Ho in Ho'. injection Ho' as <-.
    destruct (Hrem _ _ _ _ _ Hm Ha Hm2 Hlen) as (m' & -> & _). by eexists. }
  rewrite E4. change (Some ?a ≫= ?g) with (g a). cbv beta. exists ms2, ms', outs. split; [done|]. rewrite zip_with_length in L4. do 3 (split; [lia|]). split; [done|].
  intros c m a m2 Hm Ha Hm2. destruct (G3' _ _ _ _ Hm Ha Hm2) as (out & Ho & Hlen & Hg).
  destruct (G4 c (m2, a) out) as (m' & Hm' & Hr); [apply lookup_zip_with_Some; eauto|done|]. destruct (Hrem _ _ _ _ _ Hm Ha Hm2 Hlen) as (m'' & Hr' & Hs & Hi & Hou & Hc). rewrite Hr in Hr'. injection Hr' as <-.
  exists m', out. done.
Qed.
