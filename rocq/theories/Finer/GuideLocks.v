(** C90: how tightly the phases of the finer engine are locked, and where. *)
From stdpp Require Import prelude list numbers.
From Coq Require Import ZArith QArith Qround Qminmax Lia Lqa.
From Verif Require Import Base.Arith Finer.PeakModel Finer.SegmenterModel Finer.GuideModel Finer.GuideSpec Finer.GuideProofs Finer.GuideMemory.
From Verif Require Finer.PhaseModel.
From stdpp Require Import list.
Local Open Scope Z_scope.

(** ** Spec *)
(** Lock bands that follow one another upwards from [from] to [to]. *)
Fixpoint tiled (from to : Q) (l : list lockBand) : Prop :=
  match l with [] => (from == to)%Q | b :: l => (lf0 b == from /\ lf0 b <= lf1 b)%Q /\ tiled (lf1 b) to l end.
(** The factor of a band lies between 1 and [far], the further from 1 the higher the band. *)
Fixpoint reaching (from far : Q) (l : list lockBand) : Prop :=
  match l with
  | [] => True
  | b :: l => (from <= lbeta b <= far \/ far <= lbeta b <= from)%Q /\ reaching (lbeta b) far l
  end.
(** The neighbourhoods of peaks get no smaller upwards. *)
Fixpoint widening (from : Z) (l : list lockBand) : Prop := match l with [] => True | b :: l => from <= lp b <= 5 /\ widening (lp b) l end.
Definition lockedFor (rate ratio : Q) (s : guidance) : Prop :=
  locks s <> [] /\ tiled 0 (rate / 2) (locks s) /\ reaching 1 ((2 + ratio) / 3) (locks s) /\ widening 1 (locks s).
Definition unset (s : guidance) : Prop := Forall (fun b => lp b = 0 /\ lbeta b = 1%Q /\ lf0 b = 0%Q) (locks s).
(** The frames that set the lock bands: with several windows, not silent ones nor those at ratio 1. *)
Definition setting (single : bool) (a : frame) : bool := single || ordinary a.

(** ** Proofs *)
Lemma half_r r : (8000 <= r)%Q -> (4000 <= r / 2)%Q.
Proof. intros. apply Qle_shift_div_l; lra. Qed.
Lemma beta_between f f' q : (0 <= f <= f')%Q -> (f' <= 10000)%Q ->
  (betaFor f q <= betaFor f' q <= (2 + q) / 3 /\ 1 <= betaFor f q \/ (2 + q) / 3 <= betaFor f' q <= betaFor f q /\ betaFor f q <= 1)%Q.
Proof.
  intros H1 H2. unfold betaFor. assert (ltq 10000 f = false) as -> by (apply ltq_false; lra). assert (ltq 10000 f' = false) as -> by (apply ltq_false; lra).
  set (b := ((2 + q) / 3)%Q). assert (E : forall x, (x * (b - 1) / 10000 == (x / 10000) * (b - 1))%Q) by (intros; field). rewrite !E.
  assert (B1 : (0 <= f / 10000)%Q) by (apply Qle_shift_div_l; lra). assert (B2 : (f' / 10000 <= 1)%Q) by (apply Qle_shift_div_r; lra).
  assert (B3 : (f / 10000 <= f' / 10000)%Q) by (apply Qmult_le_compat_r; [lra|vm_compute; discriminate]).
  set (x := (f / 10000)%Q) in *. set (y := (f' / 10000)%Q) in *. clearbody x y b. clear E H1 H2.
  destruct (Qlt_le_dec b 1); [right|left]; repeat split; nra.
Qed.
Lemma reach4 q : let b f := betaFor f q in forall p0 p1 p2 p3 a0 a1 a2 a3 c0 c1 c2 c3,
  reaching 1 ((2 + q) / 3) [LockBand p0 (b 300%Q) a0 c0; LockBand p1 (b 1600%Q) a1 c1; LockBand p2 (b 5000%Q) a2 c2; LockBand p3 (b 10000%Q) a3 c3].
Proof.
  cbv zeta. intros. cbn [reaching lbeta]. pose proof (beta_between 300 1600 q ltac:(lra) ltac:(lra)). pose proof (beta_between 1600 5000 q ltac:(lra) ltac:(lra)).
  pose proof (beta_between 5000 10000 q ltac:(lra) ltac:(lra)). set (x0 := betaFor 300 q) in *. set (x1 := betaFor 1600 q) in *. set (x2 := betaFor 5000 q) in *. set (x3 := betaFor 10000 q) in *.
  set (far := ((2 + q) / 3)%Q) in *. clearbody x0 x1 x2 x3 far. destruct (Qlt_le_dec 1 x0); [repeat split; left; lra|]. destruct (Qlt_le_dec x0 1); [repeat split; right; lra|]. repeat split; lra.
Qed.
Lemma reach3 q : let b f := betaFor f q in forall p0 p1 p2 a0 a1 a2 c0 c1 c2,
  reaching 1 ((2 + q) / 3) [LockBand p0 (b 1200%Q) a0 c0; LockBand p1 (b 5000%Q) a1 c1; LockBand p2 (b 10000%Q) a2 c2].
Proof.
  cbv zeta. intros. cbn [reaching lbeta]. pose proof (beta_between 1200 5000 q ltac:(lra) ltac:(lra)).
  pose proof (beta_between 5000 10000 q ltac:(lra) ltac:(lra)). set (x0 := betaFor 1200 q) in *. set (x2 := betaFor 5000 q) in *. set (x3 := betaFor 10000 q) in *.
  set (far := ((2 + q) / 3)%Q) in *. clearbody x0 x2 x3 far. destruct (Qlt_le_dec 1 x0); [repeat split; left; lra|]. destruct (Qlt_le_dec x0 1); [repeat split; right; lra|]. repeat split; lra.
Qed.

Lemma choose_locks r g n q h m s t : setup r false g n -> Z.of_nat (length m) = n / 2 + 1 -> carry s -> (9600 <= r)%Q -> lockCount s = 4 ->
  chooseBands g q h m s = Some t -> lockedFor r q t.
Proof.
  intros St Hl [Hc1 Hc2] H96 H5. pose proof St as [Hr1 Hr2 Hn Hn4 Er Es En Hsz]. unfold chooseBands.
  destruct (valley_some _ _ _ _ (f1 (band0 s)) m St Hl Hc1) as (lo & -> & Hlo & _). cbn [mbind option_bind].
  destruct (valley_some _ _ _ _ (f1 (band1 s)) m St Hl Hc2) as (hi & -> & Hhi & Hhi'). cbn [mbind option_bind].
  destruct Hsz as (_ & _ & _ & E1 & E2 & E3 & E4 & E5 & E6). rewrite E1, E2, E3, E4, E5, E6, Er. pose proof (half_r _ Hr1) as Hh.
  set (lower := if ltq 1100 lo || ltq lo 500 then 700%Q else lo). set (higher := if ltq 7000 hi || ltq hi 4000 then 4800%Q else hi).
  assert (Hlower : (500 <= lower /\ lower <= 1100)%Q).
  { unfold lower. destruct (ltq 1100 lo) eqn:F1; [cbn; lra|]. destruct (ltq lo 500) eqn:F2; [cbn; lra|]. cbn [orb]. apply ltq_false in F1, F2. done. }
  assert (Hhigher : (4000 <= higher /\ higher <= r / 2)%Q).
  { assert (H48 : (4800 <= r / 2)%Q) by (apply Qle_shift_div_l; lra).
    unfold higher. destruct (ltq 7000 hi) eqn:F1; [cbn; lra|]. destruct (ltq hi 4000) eqn:F2; [cbn; lra|]. cbn [orb]. apply ltq_false in F1, F2.
    split; [done|]. destruct Hhi' as [[Ea [Eb|Eb]]|Ea]; [lra|lra|done]. }
  clearbody lower higher. intros [= <-]. unfold lockedFor, locks. cbn [lockCount withLocks withBands]. rewrite H5. change (Z.to_nat 4) with 4%nat. cbn [take lock0 lock1 lock2 lock3 withLocks withBands].
  assert (Em : maxq lower 1600 = 1600%Q) by (unfold maxq; assert (ltq lower 1600 = true) as -> by (apply ltq_true; lra); done). rewrite Em.
  split; [done|]. split; [|split; [apply reach4|]].
  - cbn [tiled lf0 lf1]. repeat split; lra || reflexivity.
  - cbn [widening lp]. destruct (256 <? h); lia.
Qed.
Lemma locks_step r single g n a s t : setup r single g n -> carry s -> frame_ok g a -> updateGuidance g a s = Some t ->
  (setting single a = true -> single = true \/ (9600 <= r)%Q -> lockedFor r (ratio a) t) /\
  (setting single a = false -> lockCount t = 4 /\ lock0 t = lock0 s /\ lock1 t = lock1 s /\ lock2 t = lock2 s /\ lock3 t = LockBand (lp (lock3 s)) (lbeta (lock3 s)) (lf0 (lock3 s)) (r / 2)).
Proof.
  intros St Hc (Hm1 & Hm2 & Hm3) U. pose proof St as [Hr1 Hr2 Hn Hn4 Er Es En Hsz]. pose proof (half_r _ Hr1) as Hh.
  assert (Hone : forall u, single = true -> (lock0 u, lock1 u, lock2 u, lockCount u) =
     (clampLock (r / 2) (LockBand 1 (betaFor 1200 (ratio a)) 0 1600), clampLock (r / 2) (LockBand 2 (betaFor 5000 (ratio a)) 1600 7000),
      clampLock (r / 2) (LockBand (if 256 <? outhop a then 4 else 5) (betaFor 10000 (ratio a)) 7000 (r / 2)), 3) -> lockedFor r (ratio a) u).
  { intros u _ E. injection E as E0 E1 E2 E3. unfold lockedFor, locks. rewrite E0, E1, E2, E3. change (Z.to_nat 3) with 3%nat. cbn [take].
    unfold clampLock. cbn [lp lbeta lf0 lf1]. split; [done|]. split; [|split; [apply reach3|]].
    - cbn [tiled lf0 lf1].
      repeat match goal with |- context [ltq ?x ?y] => let H := fresh in destruct (ltq x y) eqn:H; [apply ltq_true in H|apply ltq_false in H] end; repeat split; lra || reflexivity.
    - cbn [widening lp]. destruct (256 <? outhop a); lia. }
  unfold setting, ordinary, silent. unfold updateGuidance in U. cbv zeta in U. revert U.
  set (s1 := withRanges s _ _ _ _ _).
  assert (P : if single then (lock0 (prepare g (ratio a) (outhop a) s1), lock1 (prepare g (ratio a) (outhop a) s1), lock2 (prepare g (ratio a) (outhop a) s1), lockCount (prepare g (ratio a) (outhop a) s1)) =
     (clampLock (r / 2) (LockBand 1 (betaFor 1200 (ratio a)) 0 1600), clampLock (r / 2) (LockBand 2 (betaFor 5000 (ratio a)) 1600 7000),
      clampLock (r / 2) (LockBand (if 256 <? outhop a then 4 else 5) (betaFor 10000 (ratio a)) 7000 (r / 2)), 3)
     else lockCount (prepare g (ratio a) (outhop a) s1) = 4 /\ lock0 (prepare g (ratio a) (outhop a) s1) = lock0 s /\ lock1 (prepare g (ratio a) (outhop a) s1) = lock1 s /\ lock2 (prepare g (ratio a) (outhop a) s1) = lock2 s /\
       lock3 (prepare g (ratio a) (outhop a) s1) = LockBand (lp (lock3 s)) (lbeta (lock3 s)) (lf0 (lock3 s)) (r / 2)).
  { unfold prepare. rewrite Es, Er. destruct single; done. }
  assert (Hcar : carry (prepare g (ratio a) (outhop a) s1)).
  { destruct Hc. unfold prepare. rewrite Es, Er. destruct single; split; cbn; try done; lra. }
  set (s2 := prepare g (ratio a) (outhop a) s1) in *. clearbody s2. clear s1.
  assert (Keep : forall u, (lock0 u, lock1 u, lock2 u, lock3 u, lockCount u) = (lock0 s2, lock1 s2, lock2 s2, lock3 s2, lockCount s2) ->
    (single = true -> lockedFor r (ratio a) u) /\ (single = false -> lockCount u = 4 /\ lock0 u = lock0 s /\ lock1 u = lock1 s /\ lock2 u = lock2 s /\ lock3 u = LockBand (lp (lock3 s)) (lbeta (lock3 s)) (lf0 (lock3 s)) (r / 2))).
  { intros u E. injection E as E0 E1 E2 E3 E4. destruct single.
    - split; [intros _|done]. apply Hone; [done|]. rewrite E0, E1, E2, E4. exact P.
    - split; [done|intros _]. rewrite E0, E1, E2, E3, E4. exact P. }
  assert (KK : forall u x, (lock0 u, lock1 u, lock2 u, lock3 u, lockCount u) = (lock0 s2, lock1 s2, lock2 s2, lock3 s2, lockCount s2) -> x = single ->
     (x = true -> single = true \/ (9600 <= r)%Q -> lockedFor r (ratio a) u) /\ (x = false -> lockCount u = 4 /\ lock0 u = lock0 s /\ lock1 u = lock1 s /\ lock2 u = lock2 s /\ lock3 u = LockBand (lp (lock3 s)) (lbeta (lock3 s)) (lf0 (lock3 s)) (r / 2))).
  { intros u x E ->. destruct (Keep u E) as [K1 K2]. split; [intros X _; exact (K1 X)|exact K2]. }
  destruct (resetOnSilence a && _); cbn [negb andb orb].
  { intros [= <-]. apply KK; [|by destruct single]. unfold updateForSilence. rewrite Es. by destruct single. }
  destruct (0 <? unityCount a); cbn [negb andb orb].
  { intros [= <-]. apply KK; [|by destruct single]. unfold updateForUnity, updateForSilence. rewrite Es. destruct (realtime a), single, (present (phaseReset s)); reflexivity. }
  match goal with |- (?kk ≫= _) = _ -> _ => destruct kk as [[k fk]|]; [|done] end. cbn [mbind option_bind].
  set (s3 := withRanges s2 _ _ _ _ _).
  assert (E3 : (lock0 s3, lock1 s3, lock2 s3, lock3 s3, lockCount s3) = (lock0 s2, lock1 s2, lock2 s2, lock3 s2, lockCount s2)) by done.
  assert (C3 : carry s3) by exact Hcar. clearbody s3. rewrite Es. destruct single.
  - cbn [mbind option_bind orb]. destruct (Keep s3 E3) as [K _]. specialize (K eq_refl).
    destruct (ltq 2 (ratio a)); intros [= <-]; (split; [intros _ _|done]); [|exact K].
    exact K.
  - destruct (chooseBands g (ratio a) (outhop a) (magnitudes a) s3) as [s4|] eqn:E4; [|done]. cbn [mbind option_bind orb].
    assert (L : (9600 <= r)%Q -> lockedFor r (ratio a) s4).
    { intros H96. eapply choose_locks; [exact St|rewrite <- En; exact Hm1|exact C3|exact H96| |exact E4]. injection E3 as ? ? ? ? Ex. rewrite Ex. apply P. }
    destruct (ltq 2 (ratio a)); intros [= <-]; (split; [|done]); intros _ [?|H96]; try done; exact (L H96).
Qed.

(** What holds of the lock bands after the frames [l]. *)
Definition lockState (r : Q) (single : bool) (l : list frame) (s : guidance) : Prop :=
  match last (filter (fun a => setting single a = true) l) with
  | Some b => lockedFor r (ratio b) s
  | None => unset s
  end.
Lemma locked_same r q s t : lockCount s = 4 -> lockCount t = 4 /\ lock0 t = lock0 s /\ lock1 t = lock1 s /\ lock2 t = lock2 s /\ lock3 t = LockBand (lp (lock3 s)) (lbeta (lock3 s)) (lf0 (lock3 s)) (r / 2) ->
  (lockedFor r q s -> lockedFor r q t) /\ (unset s -> unset t).
Proof.
  intros Hs (Ht & E0 & E1 & E2 & E3). unfold lockedFor, unset, locks. rewrite Hs, Ht, E0, E1, E2, E3. change (Z.to_nat 4) with 4%nat. cbn [take]. split.
  - intros (_ & T & R & W). split; [done|]. split; [|split; [exact R|exact W]]. cbn [tiled lf0 lf1] in *. destruct T as (T0 & T1 & T2 & [T3 T4] & T5). repeat (split; [assumption|]). split; [|reflexivity].
    split; [assumption|lra].
  - rewrite !Forall_cons. intros (? & ? & ? & ? & ?). repeat (split; [assumption|]). cbn [lp lbeta lf0]. done.
Qed.
Lemma locks_run r single g n : setup r single g n -> single = true \/ (9600 <= r)%Q -> forall l s before gs, carry s -> (before = [] -> unset guidance0) ->
  (before <> [] -> single = false -> lockCount s = 4) -> (before = [] -> s = guidance0) -> (before <> [] -> lockState r single before s) -> Forall (frame_ok g) l ->
  guideRun g s l = Some gs -> forall i t, gs !! i = Some t -> lockState r single (before ++ take (S i) l) t.
Proof.
  intros St H96. induction l as [|a l IH]; intros s before gs Hc H0 H1 H2 H3 F E i t Hi; cbn [guideRun] in E.
  { injection E as <-. discriminate. }
  apply Forall_cons in F as [Fa F]. destruct (update_good r single g n a s St Hc Fa) as (s' & Es & G). rewrite Es in E. cbn [mbind option_bind] in E.
  destruct (guideRun g s' l) as [q|] eqn:Eq; [|done]. cbn [mbind option_bind] in E. injection E as <-.
  destruct (locks_step r single g n a s s' St Hc Fa Es) as [S1 S2].
  assert (L : lockState r single (before ++ [a]) s').
  { unfold lockState. rewrite filter_app. destruct (setting single a) eqn:X.
    - rewrite (filter_cons_True (fun a => setting single a = true)) by exact X. rewrite filter_nil, last_snoc. apply S1; done.
    - rewrite (filter_cons_False (fun a => setting single a = true)) by congruence. rewrite filter_nil, app_nil_r. specialize (S2 eq_refl).
      destruct before as [|b before].
      + cbn. rewrite (H2 eq_refl) in S2. destruct S2 as (T & E0 & E1 & E2 & E3). unfold unset, locks. rewrite T, E0, E1, E2, E3. change (Z.to_nat 4) with 4%nat. cbn. rewrite !Forall_cons. cbn. done.
      + assert (Hs : single = false) by (unfold setting in X; destruct single; done).
        assert (L4 : lockCount s = 4) by (by apply H1). specialize (H3 ltac:(done)). unfold lockState in H3.
        destruct (last _) as [c|]; [exact (proj1 (locked_same _ _ _ _ L4 S2) H3)|exact (proj2 (locked_same _ (ratio a) _ _ L4 S2) H3)]. }
  destruct i as [|i]; cbn in Hi.
  - injection Hi as <-. exact L.
  - cbn [take]. replace (before ++ a :: take (S i) l) with ((before ++ [a]) ++ take (S i) l) by (by rewrite <- app_assoc).
    refine (IH s' (before ++ [a]) q _ _ _ _ _ F Eq i t Hi).
    + apply G.
    + intros X. by destruct before.
    + intros _ Hs. destruct (setting single a) eqn:X; [|apply S2; done].
      destruct G as (_ & [[_ C]|[C _]] & _); [|exact C]. subst single. specialize (S1 eq_refl H96). destruct St as [_ _ _ _ _ Esw _ _].
      clear - Es Esw. unfold updateGuidance, updateForUnity, updateForSilence, prepare in Es. rewrite Esw in Es. revert Es.
      destruct (resetOnSilence a && _); [by intros [= <-]|]. destruct (0 <? unityCount a); [destruct (realtime a), (present (phaseReset s)); by intros [= <-]|].
      match goal with |- (?kk ≫= _) = _ -> _ => destruct kk as [[k fk]|]; [|done] end. cbn [mbind option_bind]. unfold chooseBands.
      match goal with |- ((?kk ≫= _) ≫= _) = _ -> _ => destruct kk as [lo|]; [|done] end. cbn [mbind option_bind].
      match goal with |- ((?kk ≫= _) ≫= _) = _ -> _ => destruct kk as [hi|]; [|done] end. cbn [mbind option_bind].
      destruct (ltq 2 (ratio a)); by intros [= <-].
    + intros X. by destruct before.
    + intros _. exact L.
Qed.
(** Over every sequence of frames the lock bands follow one another from 0 to nyquist, with
    neighbourhoods that get no smaller upwards, and factors between 1 and (2 + ratio) / 3, moving
    away from 1 upwards, the ratio being that of the last frame that was neither silent nor at ratio
    1.  Before there was such a frame the bands are unset: no locking, factor 1. *)
Theorem C90_locks : forall rate (single : bool) g frames gs i t, (if single then 8000 <= rate else 9600 <= rate)%Q -> (rate <= 192000)%Q -> newGuide rate single = Some g ->
  Forall (frame_ok g) frames -> guideRun g guidance0 frames = Some gs -> gs !! i = Some t ->
  match last (filter (fun a => setting single a = true) (take (S i) frames)) with
  | Some a => lockedFor rate (ratio a) t
  | None => unset t
  end.
Proof.
  intros r single g frames gs i t H1 H2 Eg F E Hi. assert (H8 : (8000 <= r)%Q) by (destruct single; lra).
  destruct (guide_sizes r single H8 H2) as (g' & n & E' & Hn & Hn4 & _ & Er & Es & En & Hsz). assert (g' = g) as -> by congruence.
  change (lockState r single ([] ++ take (S i) frames) t). eapply (locks_run r single g n); [by constructor|destruct single; [by left|by right]| | | | | |exact F|exact E|exact Hi].
  - split; vm_compute; discriminate.
  - intros _. apply Forall_nil_2.
  - done.
  - done.
  - done.
Qed.
Print Assumptions C90_locks.
(** At ratio 1 the factor is 1. *)
Theorem C90_plain : forall rate (t : guidance), lockedFor rate 1 t -> Forall (fun b => (lbeta b == 1)%Q) (locks t).
Proof.
  intros r t (_ & _ & R & _). revert R. generalize (locks t) as l. intros l. assert (G : forall x, (x == 1)%Q -> reaching x ((2 + 1) / 3) l -> Forall (fun b => (lbeta b == 1)%Q) l); [|apply G; reflexivity].
  induction l as [|b l IH]; intros x Hx R; [constructor|]. destruct R as [R1 R2]. assert (E : ((2 + 1) / 3 == 1)%Q) by reflexivity. assert (B : (lbeta b == 1)%Q) by lra. constructor; [exact B|]. eapply IH; [exact B|exact R2].
Qed.
Print Assumptions C90_plain.

(** ** The ranges *)
Lemma minq_le a b : (minq a b <= a /\ minq a b <= b)%Q.
Proof. unfold minq. destruct (ltq b a) eqn:E; [apply ltq_true in E|apply ltq_false in E]; lra. Qed.
Lemma minq_is a b x : (x <= a)%Q -> (x <= b)%Q -> (x <= minq a b)%Q.
Proof. intros. unfold minq. destruct (ltq b a); done. Qed.
Lemma maxq_ge a b : (a <= maxq a b /\ b <= maxq a b)%Q.
Proof. unfold maxq. destruct (ltq a b) eqn:E; [apply ltq_true in E|apply ltq_false in E]; lra. Qed.
(** When a phase reset begins: the residual range above the percussive one has come to be more than
    4 kHz wide in this frame. *)
Definition opening (a : frame) : Prop :=
  (percussiveAbove (segm a) + 4000 < residualAbove (segm a))%Q /\ (residualAbove (prevSegm a) < percussiveAbove (prevSegm a) + 4000)%Q.
Definition holds (x y : Q) (r : range) : Prop := present r = true /\ (rf0 r <= x)%Q /\ (y <= rf1 r)%Q.
Definition nothing (r : range) : Prop := present r = false.
Lemma choose_ranges g q h m s t : chooseBands g q h m s = Some t ->
  kick t = kick s /\ preKick t = preKick s /\ highUnlocked t = highUnlocked s /\ phaseReset t = phaseReset s /\ channelLock t = channelLock s.
Proof.
  unfold chooseBands. destruct (descendToValley g (f1 (band0 s)) m); [|done]. cbn [mbind option_bind].
  destruct (descendToValley g (f1 (band1 s)) m); [|done]. cbn [mbind option_bind]. intros [= <-]. done.
Qed.
Lemma prepare_ranges g q h s : let t := prepare g q h s in
  kick t = kick s /\ preKick t = preKick s /\ highUnlocked t = highUnlocked s /\ phaseReset t = phaseReset s /\ channelLock t = channelLock s.
Proof. cbv zeta. unfold prepare. destruct (singleWindow g); done. Qed.
(** Channels are locked, from 0 on, in every frame that is neither silent nor at ratio 1, up to 600 Hz
    or with the option up to nyquist, above ratio 2 less far, but always to 100 Hz.  Above ratio 2
    everything is unlocked from some frequency up to nyquist, which lies neither below the end of the
    locked range nor below the percussive range, whichever is lower.  A reset of phases begins with
    the opening of a wide residual range and then takes in this range of the frame and of the next.
    In silence, or at ratio 1 offline, all phases are reset and there is no lock, no kick. *)
Theorem C90_ranges : forall g a s t, (1200 <= rate g)%Q -> updateGuidance g a s = Some t ->
  (ordinary a = true ->
    (present (channelLock t) = true /\ rf0 (channelLock t) = 0%Q /\ 100 <= rf1 (channelLock t) <= rate g / 2)%Q /\
    (ratio a <= 2 -> rf1 (channelLock t) == if tighterChannelLock a then rate g / 2 else 600)%Q /\
    (2 < ratio a -> holds (Qmax 12000 (rf1 (channelLock t))) (rate g / 2) (highUnlocked t) /\
       (Qmin (rf1 (channelLock t)) (percussiveAbove (segm a)) <= rf0 (highUnlocked t)))%Q /\
    (percussiveAbove (segm a) < residualAbove (segm a) -> residualAbove (segm a) <= rate g / 2 -> holds (percussiveAbove (segm a)) (residualAbove (segm a)) (highUnlocked t))%Q /\
    (ratio a <= 2 -> residualAbove (segm a) <= percussiveAbove (segm a) -> nothing (highUnlocked t))%Q /\
    (present (phaseReset t) = true <-> opening a) /\
    (opening a -> (0 <= percussiveAbove (segm a))%Q -> (0 <= percussiveAbove (nextSegm a))%Q ->
      holds (percussiveAbove (segm a)) (residualAbove (segm a)) (phaseReset t) /\ holds (percussiveAbove (nextSegm a)) (residualAbove (nextSegm a)) (phaseReset t))) /\
  (ordinary a = false -> nothing (channelLock t) /\ nothing (highUnlocked t) /\ nothing (kick t) /\ nothing (preKick t) /\ present (phaseReset t) = true /\
    (silent a = true \/ realtime a = false -> rf0 (phaseReset t) = 0%Q /\ rf1 (phaseReset t) = (rate g / 2)%Q)).
Proof.
  intros g a s t Hr U. assert (Hn : (600 <= rate g / 2)%Q) by (apply Qle_shift_div_l; lra). unfold updateGuidance in U. cbv zeta in U. revert U.
  set (s1 := withRanges s _ _ _ _ _). destruct (prepare_ranges g (ratio a) (outhop a) s1) as (P1 & P2 & P3 & P4 & P5).
  set (s2 := prepare g (ratio a) (outhop a) s1) in *. clearbody s2. unfold s1 in P1, P2, P3, P4, P5. cbn [kick preKick highUnlocked phaseReset channelLock withRanges] in *. clear s1.
  unfold ordinary, silent. set (nyq := (rate g / 2)%Q) in *.
  destruct (resetOnSilence a && _); cbn [negb andb].
  { intros [= <-]. split; [done|]. intros _. unfold updateForSilence, nothing. fold nyq. destruct (singleWindow g); cbn; rewrite ?P1, ?P2, ?P3, ?P5; done. }
  destruct (0 <? unityCount a); cbn [negb andb].
  { intros [= <-]. split; [done|]. intros _. unfold updateForUnity, updateForSilence, nothing. fold nyq.
    destruct (realtime a), (singleWindow g), (present (phaseReset s)); cbn; rewrite ?P1, ?P2, ?P3, ?P5; (split_and!; [done..|]); intros [?|?]; done. }
  match goal with |- (?kk ≫= _) = _ -> _ => destruct kk as [[k fk]|]; [|done] end. cbn [mbind option_bind].
  set (pa := percussiveAbove (segm a)). set (ra := residualAbove (segm a)).
  match goal with |- context [withRanges s2 ?k0 ?p0 ?h0 ?r0 ?c0] => set (high := h0); set (rst := r0); set (lock := c0); set (s3 := withRanges s2 k0 p0 high rst lock) end.
  assert (Q3 : highUnlocked s3 = high) by done. assert (Q4 : phaseReset s3 = rst) by done. assert (Q5 : channelLock s3 = lock) by done. clearbody s3.
  intros U. split; [intros _|done].
  destruct (if singleWindow g then Some s3 else chooseBands g (ratio a) (outhop a) (magnitudes a) s3) as [s4|] eqn:E4; [|done]. cbn [mbind option_bind] in U.
  assert (R4 : highUnlocked s4 = high /\ phaseReset s4 = rst /\ channelLock s4 = lock).
  { destruct (singleWindow g); [injection E4 as <-; done|]. apply choose_ranges in E4 as (_ & _ & -> & -> & ->). done. }
  destruct R4 as (H4 & X4 & L4).
  assert (HR : present rst = true <-> opening a).
  { unfold rst, opening. fold pa ra. destruct (ltq (pa + 4000) ra) eqn:A1; [apply ltq_true in A1|apply ltq_false in A1].
    - destruct (ltq (residualAbove (prevSegm a)) _) eqn:A2; [apply ltq_true in A2|apply ltq_false in A2]; cbn [andb].
      + split; [intros _; split; done|done].
      + rewrite P4. cbn. split; [done|]. intros [? ?]. lra.
    - cbn [andb]. rewrite P4. cbn. split; [done|]. intros [? ?]. lra. }
  assert (HO : opening a -> (0 <= pa)%Q -> (0 <= percussiveAbove (nextSegm a))%Q -> holds pa ra rst /\ holds (percussiveAbove (nextSegm a)) (residualAbove (nextSegm a)) rst).
  { intros [O1 O2] Z1 Z2. fold pa ra in O1. unfold rst. apply ltq_true in O1. rewrite O1. apply ltq_true in O2. rewrite O2. cbn [andb]. unfold holds. cbn [present rf0 rf1].
    destruct (minq_le pa (percussiveAbove (nextSegm a))). destruct (maxq_ge ra (residualAbove (nextSegm a))). pose proof (minq_is pa (percussiveAbove (nextSegm a)) 0 Z1 Z2).
    set (x := minq pa (percussiveAbove (nextSegm a))) in *. assert ((if ltq x 200 then 0 else x) <= x)%Q by (destruct (ltq x 200); lra). repeat split; lra. }
  assert (HL : rf0 lock = 0%Q /\ present lock = true /\ rf1 lock = if tighterChannelLock a then nyq else 600%Q) by done. destruct HL as (L0 & L1 & L2).
  assert (L3 : (600 <= rf1 lock <= nyq)%Q) by (rewrite L2; destruct (tighterChannelLock a); lra).
  assert (HH : if ltq pa ra then high = Range true pa ra else present high = false).
  { unfold high. destruct (ltq pa ra); [done|]. rewrite P3. done. }
  clearbody lock high rst. destruct (ltq 2 (ratio a)) eqn:E2; [apply ltq_true in E2|apply ltq_false in E2].
  - revert U. rewrite H4, X4, L4. set (x := (rf1 lock - (ratio a - 2) * 150)%Q). set (lim := if ltq x 100 then 100%Q else x).
    assert (Hlim : (100 <= lim <= rf1 lock)%Q).
    { unfold lim. destruct (ltq x 100) eqn:E; [apply ltq_true in E; lra|apply ltq_false in E]. split; [done|]. unfold x. nra. }
    set (y := (12000 - (ratio a - 2) * 400)%Q). set (abv := if ltq y lim then lim else y).
    assert (Habv : (lim <= abv /\ abv <= Qmax 12000 lim)%Q).
    { pose proof (Q.le_max_l 12000 lim). pose proof (Q.le_max_r 12000 lim). assert (y <= 12000)%Q by (unfold y; nra). unfold abv. destruct (ltq y lim) eqn:E; [apply ltq_true in E|apply ltq_false in E]; lra. }
    intros [= <-]. cbn [channelLock highUnlocked phaseReset withRanges]. unfold holds, nothing. cbn [present rf0 rf1].
    assert (Hlow : ((if present high then minq (rf0 high) abv else abv) <= abv /\ Qmin lim pa <= (if present high then minq (rf0 high) abv else abv) /\ (pa < ra -> (if present high then minq (rf0 high) abv else abv) <= pa))%Q).
    { pose proof (Q.le_min_l lim pa). pose proof (Q.le_min_r lim pa). destruct (ltq pa ra) eqn:E; [apply ltq_true in E; rewrite HH; cbn [present rf0]|apply ltq_false in E; rewrite HH].
      - destruct (minq_le pa abv). pose proof (minq_is pa abv (Qmin lim pa)). repeat split; [lra| |lra]. apply minq_is; lra.
      - repeat split; lra. }
    set (lo := if present high then minq (rf0 high) abv else abv) in *. clearbody lo.
    split_and!; [done|done|lra|lra|intros; lra| | | |exact HR|exact HO].
    + intros _. split; [split_and!; [done|lra|lra]|]. lra.
    + intros Hp Hq. split_and!; [done| |exact Hq]. apply Hlow. exact Hp.
    + intros; lra.
  - injection U as <-. rewrite H4, X4, L4. split_and!; [done|done|lra|lra| |intros; lra| | |exact HR|exact HO].
    + intros _. rewrite L2. reflexivity.
    + intros Hp _. apply ltq_true in Hp. rewrite Hp in HH. rewrite HH. unfold holds. cbn. split_and!; [done|lra|lra].
    + intros _ Hp. unfold nothing. destruct (ltq pa ra) eqn:E; [apply ltq_true in E; lra|]. exact HH.
Qed.
Print Assumptions C90_ranges.

(** ** Cases and a finding *)
Definition dull : segmentation := Segmentation 0 22000 22000.
Definition hiss : segmentation := Segmentation 0 3000 9000.
Definition flat : list Q := replicate 1025 1%Q.
Definition slow (q : Q) (s p n : segmentation) : frame := Frame q 300 flat flat flat s p n 1 0 true false true.
Definition atOne : frame := Frame 1 256 flat flat flat dull dull dull 1 1 true false true.
Definition g441 : guide := match newGuide 44100 false with Some g => g | None => Guide 0 false 0 0 0 [] 0 0 0 0 0 0 end.
Definition tell (s : guidance) := (map (fun b => (lp b, Qred (lbeta b), Qred (lf0 b), Qred (lf1 b))) (locks s)).
Definition four : list frame := [atOne; slow 4 dull dull dull; slow 3 hiss dull dull; atOne].
Example C90_locks_example : newGuide 44100 false = Some g441 /\ Forall (frame_ok g441) four /\ map (setting false) four = [false; true; true; false] /\
  map tell <$> guideRun g441 guidance0 four = Some
    [[(0, 1%Q, 0%Q, 0%Q); (0, 1%Q, 0%Q, 0%Q); (0, 1%Q, 0%Q, 0%Q); (0, 1%Q, 0%Q, 22050%Q)];
     [(1, (103 # 100)%Q, 0%Q, 700%Q); (2, (29 # 25)%Q, 700%Q, 1600%Q); (3, (3 # 2)%Q, 1600%Q, (1025325 # 256)%Q); (3, 2%Q, (1025325 # 256)%Q, 22050%Q)];
     [(1, (51 # 50)%Q, 0%Q, (363825 # 512)%Q); (2, (83 # 75)%Q, (363825 # 512)%Q, 1600%Q); (3, (4 # 3)%Q, 1600%Q, 4800%Q); (3, (5 # 3)%Q, 4800%Q, 22050%Q)];
     [(1, (51 # 50)%Q, 0%Q, (363825 # 512)%Q); (2, (83 # 75)%Q, (363825 # 512)%Q, 1600%Q); (3, (4 # 3)%Q, 1600%Q, 4800%Q); (3, (5 # 3)%Q, 4800%Q, 22050%Q)]].
Proof.
  split; [vm_compute; reflexivity|]. split; [repeat (apply Forall_cons_2; [vm_compute; split_and!; reflexivity|]); apply Forall_nil_2|].
  split; vm_compute; reflexivity.
Qed.
Example C90_ranges_example : opening (slow 3 hiss dull dull) /\ map ordinary four = [false; true; true; false] /\
  map (fun t => (channelLock t, highUnlocked t, phaseReset t)) <$> guideRun g441 guidance0 four = Some
    [(Range false 0 0, Range false 0 0, Range true 16000 (44100 # 2));
     (Range true 0 300, Range true 11200 (44100 # 2), Range false 16000 (44100 # 2));
     (Range true 0 450, Range true 3000 (44100 # 2), Range true 3000 22000);
     (Range false 0 450, Range false 3000 (44100 # 2), Range true (27000 # 10) (44100 # 2))].
Proof. split; [split; vm_compute; reflexivity|]. split; vm_compute; reflexivity. Qed.
(** The lock bands need not be those of the frame's own ratio: when the ratio goes back to 1, they stay
    as they were, in all later frames at ratio 1, while the reset has not yet taken in all
    frequencies. *)
Theorem C90_current_refuted : exists g frames gs t, newGuide 44100 false = Some g /\ Forall (frame_ok g) frames /\ guideRun g guidance0 frames = Some gs /\ last gs = Some t /\
  (ratio <$> last frames) = Some 1%Q /\ ~ lockedFor 44100 1 t /\ (exists b, b ∈ locks t /\ (0 < lf0 b)%Q /\ (lf1 b <= rf0 (phaseReset t))%Q /\ (lbeta b > 1)%Q).
Proof.
  exists g441, four. eexists _, _. split; [vm_compute; reflexivity|]. split; [repeat (apply Forall_cons_2; [vm_compute; split_and!; reflexivity|]); apply Forall_nil_2|].
  split; [vm_compute; reflexivity|]. split; [reflexivity|]. split; [vm_compute; reflexivity|]. split.
  - intros L. apply C90_plain in L. revert L. vm_compute. intros L. inversion L. discriminate.
  - eexists. split; [apply elem_of_list_lookup; exists 1%nat; vm_compute; reflexivity|]. split_and!; vm_compute; (reflexivity || discriminate).
Qed.
Print Assumptions C90_current_refuted.
