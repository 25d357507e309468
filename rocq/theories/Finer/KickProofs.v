(** The energy held back ahead of a kick. *)
From stdpp Require Import prelude list numbers.
From Coq Require Import ZArith QArith Qround Lia Lqa.
From Verif Require Import Base.Arith MathMisc.Model MathMisc.Proofs Finer.PeakModel Finer.SegmenterModel Finer.GuideModel Finer.GuideSpec Finer.GuideProofs Finer.KickModel Finer.KickSpec.
From stdpp Require Import list.
Local Open Scope Z_scope.

Ltac bindsome := repeat (change (Some ?a ≫= ?f) with (f a); cbv beta iota zeta).
Lemma at_lt {A} (l : list A) i x : at_ l i = Some x -> 0 <= i < Z.of_nat (length l).
Proof. unfold at_. destruct (Z.ltb_spec i 0); [done|]. intros H1%lookup_lt_Some. lia. Qed.
Lemma put_at {A} (l : list A) i x : 0 <= i < Z.of_nat (length l) ->
  exists l', put l i x = Some l' /\ length l' = length l /\ at_ l' i = Some x /\ forall j, j <> i -> at_ l' j = at_ l j.
Proof.
  intros H. unfold put. destruct (Z.leb_spec 0 i); [|lia]. destruct (Z.ltb_spec i (Z.of_nat (length l))); [|lia]. cbn [andb]. eexists. split; [done|].
  split; [by rewrite insert_length|]. unfold at_. split.
  - destruct (Z.ltb_spec i 0); [lia|]. apply list_lookup_insert. lia.
  - intros j Hj. destruct (Z.ltb_spec j 0); [done|]. apply list_lookup_insert_ne. lia.
Qed.

Definition held (y x d u v : Q) : Prop := ((y < x /\ u == y /\ v == x - y) \/ (x <= y /\ u = x /\ v = d))%Q.
Lemma holdBack_ok is : NoDup is -> forall mag prev pend, length prev = length mag -> length pend = length mag -> Forall (fun i => 0 <= i < Z.of_nat (length mag)) is ->
  exists m p, holdBack is mag prev pend = Some (m, p) /\ length m = length mag /\ length p = length mag /\
    forall i x d, at_ mag i = Some x -> at_ pend i = Some d -> exists u v, at_ m i = Some u /\ at_ p i = Some v /\
      if decide (i ∈ is) then exists y, at_ prev i = Some y /\ held y x d u v else u = x /\ v = d.
Proof.
  induction 1 as [|i is Hni Hnd IH]; intros mag prev pend L1 L2 Hin.
  - exists mag, pend. split; [done|]. split; [done|]. split; [done|]. intros i x d H1 H2. exists x, d. split; [done|]. split; [done|].
    destruct (decide (i ∈ [])) as [Hc|_]; [by apply elem_of_nil in Hc|done].
  - apply Forall_cons in Hin as [Hi Hin]. cbn [holdBack]. destruct (at_some mag i Hi) as [x Ex]. destruct (at_some prev i) as [y Ey]; [by rewrite L1|].
    rewrite Ex, Ey. bindsome.
    destruct (ltq 0 (x - y)) eqn:Hd.
    + destruct (put_at pend i (x - y)%Q) as (p & -> & Lp & Pi & Pj); [by rewrite L2|]. bindsome.
      destruct (put_at mag i (x - (x - y))%Q) as (m & -> & Lm & Mi & Mj); [done|]. bindsome.
      destruct (IH m prev p) as (m' & p' & E & L3 & L4 & HH); [by rewrite Lm|by rewrite Lp, Lm|by rewrite Lm|].
      exists m', p'. split; [done|]. split; [congruence|]. split; [congruence|]. intros j a b Ha Hb.
      destruct (decide (j = i)) as [->|Hji].
      * destruct (HH i _ _ Mi Pi) as (u & v & Eu & Ev & Huv). destruct (decide (i ∈ is)) as [Hc|_]; [done|]. destruct Huv as [-> ->].
        eexists _, _. split; [done|]. split; [done|]. destruct (decide (i ∈ i :: is)) as [_|Hc]; [|destruct Hc; by left].
        exists y. split; [done|]. left. apply ltq_true in Hd. assert (a = x) as -> by congruence. split_and!; lra.
      * destruct (HH j a b) as (u & v & Eu & Ev & Huv); [by rewrite Mj|by rewrite Pj|]. exists u, v. split; [done|]. split; [done|].
        destruct (decide (j ∈ i :: is)) as [Hc|Hc].
        -- apply elem_of_cons in Hc as [?|Hc]; [done|]. destruct (decide (j ∈ is)); [done|done].
        -- destruct (decide (j ∈ is)) as [Hc2|_]; [|done]. destruct Hc. by right.
    + bindsome. apply ltq_false in Hd.
      destruct (IH mag prev pend) as (m' & p' & E & L3 & L4 & HH); [done|done|done|]. exists m', p'. split; [done|]. split; [done|]. split; [done|]. intros j a b Ha Hb.
      destruct (HH j a b Ha Hb) as (u & v & Eu & Ev & Huv). exists u, v. split; [done|]. split; [done|].
      destruct (decide (j = i)) as [->|Hji].
      * destruct (decide (i ∈ is)) as [Hc|_]; [done|]. destruct (decide (i ∈ i :: is)) as [_|Hc]; [|destruct Hc; by left].
        exists y. split; [done|]. right. destruct Huv as [-> ->]. assert (a = x) as -> by congruence. split_and!; [lra|done|done].
      * destruct (decide (j ∈ i :: is)) as [Hc|Hc].
        -- apply elem_of_cons in Hc as [?|Hc]; [done|]. destruct (decide (j ∈ is)); [done|done].
        -- destruct (decide (j ∈ is)) as [Hc2|_]; [|done]. destruct Hc. by right.
Qed.
Lemma release_ok is : NoDup is -> forall mag pend, length pend = length mag -> Forall (fun i => 0 <= i < Z.of_nat (length mag)) is ->
  exists m p, release is mag pend = Some (m, p) /\ length m = length mag /\ length p = length mag /\
    forall i x d, at_ mag i = Some x -> at_ pend i = Some d -> exists u v, at_ m i = Some u /\ at_ p i = Some v /\
      if decide (i ∈ is) then u = (x + d)%Q /\ v = 0%Q else u = x /\ v = d.
Proof.
  induction 1 as [|i is Hni Hnd IH]; intros mag pend L2 Hin.
  - exists mag, pend. split; [done|]. split; [done|]. split; [done|]. intros i x d H1 H2. exists x, d. split; [done|]. split; [done|].
    destruct (decide (i ∈ [])) as [Hc|_]; [by apply elem_of_nil in Hc|done].
  - apply Forall_cons in Hin as [Hi Hin]. cbn [release]. destruct (at_some mag i Hi) as [x Ex]. destruct (at_some pend i) as [d Ed]; [by rewrite L2|].
    rewrite Ex, Ed. bindsome.
    destruct (put_at mag i (x + d)%Q) as (m & -> & Lm & Mi & Mj); [done|]. bindsome.
    destruct (put_at pend i 0%Q) as (p & -> & Lp & Pi & Pj); [by rewrite L2|]. bindsome.
    destruct (IH m p) as (m' & p' & E & L3 & L4 & HH); [by rewrite Lp, Lm|by rewrite Lm|].
    exists m', p'. split; [done|]. split; [congruence|]. split; [congruence|]. intros j a b Ha Hb.
    destruct (decide (j = i)) as [->|Hji].
    + destruct (HH i _ _ Mi Pi) as (u & v & Eu & Ev & Huv). destruct (decide (i ∈ is)) as [Hc|_]; [done|]. destruct Huv as [-> ->].
      eexists _, _. split; [done|]. split; [done|]. destruct (decide (i ∈ i :: is)) as [_|Hc]; [|destruct Hc; by left]. split; [congruence|done].
    + destruct (HH j a b) as (u & v & Eu & Ev & Huv); [by rewrite Mj|by rewrite Pj|]. exists u, v. split; [done|]. split; [done|].
      destruct (decide (j ∈ i :: is)) as [Hc|Hc].
      * apply elem_of_cons in Hc as [?|Hc]; [done|]. destruct (decide (j ∈ is)); [done|done].
      * destruct (decide (j ∈ is)) as [Hc2|_]; [|done]. destruct Hc. by right.
Qed.

Lemma bin_top f n r : (0 <= f)%Q -> (f <= r / 2)%Q -> 0 < n -> n mod 2 = 0 -> (0 < r)%Q -> binForFrequency f n r <= n / 2.
Proof.
  intros H1 H2 H3 H4 H5. unfold binForFrequency. set (q := (f * inject_Z n / r)%Q). destruct (cround_near q) as [Hc _].
  assert (Hn : (0 < inject_Z n)%Q) by (change 0%Q with (inject_Z 0); by rewrite <- Zlt_Qlt).
  assert (Hq : (q <= inject_Z (n / 2))%Q).
  { assert (En : (inject_Z n == inject_Z (n / 2) * 2)%Q) by (change 2%Q with (inject_Z 2); rewrite <- inject_Z_mult, inject_Z_injective; pose proof (Z_div_mod_eq_full n 2); lia).
    unfold q. apply Qle_shift_div_r; [done|]. assert (f * inject_Z n <= r / 2 * inject_Z n)%Q by (apply Qmult_le_compat_r; lra).
    assert (r / 2 * inject_Z n == inject_Z (n / 2) * r)%Q by (rewrite En; field). lra. }
  apply Q_lt_Z. rewrite ?inject_Z_plus. lra.
Qed.

(** What the guide does with kick and pre-kick in one frame. *)
Lemma choose_keeps g q h m s s' : chooseBands g q h m s = Some s' ->
  fftSize (band0 s') = fftSize (band0 s) /\ kick s' = kick s /\ preKick s' = preKick s.
Proof.
  unfold chooseBands. intros H. destruct (descendToValley g (f1 (band0 s)) m); [|discriminate H]. cbn [mbind option_bind] in H.
  destruct (descendToValley g (f1 (band1 s)) m); [|discriminate H]. cbn [mbind option_bind] in H. injection H as <-. done.
Qed.
Definition calm (a : frame) : Prop := (resetOnSilence a && ltq (meanMagnitude a) (1 # 1000000)) = true \/ 0 < unityCount a.
Lemma update_kicks g a s s' : singleWindow g = false -> updateGuidance g a s = Some s' ->
  fftSize (band0 s') = longest g /\
  (calm a /\ kick s' = absent (kick s) /\ preKick s' = absent (preKick s) \/
   ~ calm a /\ exists k f, detectKicks g (magnitudes a) (prevMagnitudes a) (nextMagnitudes a) (segm a) (prevSegm a) (nextSegm a) = Some (k, f) /\
     kick s' = (if k then Range true 0 (percussiveBelow (segm a)) else absent (kick s)) /\
     preKick s' = (if k then absent (preKick s) else if f then Range true 0 (percussiveBelow (nextSegm a)) else absent (preKick s))).
Proof.
  intros Hs H. unfold updateGuidance in H. cbv zeta in H. unfold calm.
  set (s1 := withRanges s _ _ _ _ _) in H. set (s2 := prepare g (ratio a) (outhop a) s1) in H.
  assert (H2 : fftSize (band0 s2) = longest g /\ kick s2 = absent (kick s) /\ preKick s2 = absent (preKick s)) by (unfold s2, prepare; rewrite Hs; done).
  destruct H2 as (F2 & K2 & P2). clearbody s2. clear s1.
  destruct (resetOnSilence a && ltq (meanMagnitude a) (1 # 1000000)).
  { injection H as <-. unfold updateForSilence. rewrite Hs. cbn. split; [done|]. left. split; [by left|done]. }
  destruct (Z.ltb_spec 0 (unityCount a)) as [Hu|Hu].
  { injection H as <-. unfold updateForUnity, updateForSilence. rewrite Hs.
    destruct (realtime a), (present (phaseReset s)); cbn; (split; [done|]); left; (split; [by right|done]). }
  rewrite Hs in H. destruct (detectKicks _ _ _ _ _ _ _) as [[k f]|]; [|discriminate H]. cbn [mbind option_bind] in H.
  set (s3 := withRanges s2 _ _ _ _ _) in H.
  destruct (chooseBands g (ratio a) (outhop a) (magnitudes a) s3) as [s4|] eqn:E4; [|discriminate H]. cbn [mbind option_bind] in H.
  apply choose_keeps in E4 as (F4 & K4 & P4).
  assert (HK : fftSize (band0 s') = fftSize (band0 s4) /\ kick s' = kick s4 /\ preKick s' = preKick s4) by (destruct (ltq 2 (ratio a)); injection H as <-; done).
  destruct HK as (-> & -> & ->). rewrite F4, K4, P4. unfold s3. cbn [band0 kick preKick withRanges]. rewrite F2, K2, P2. split; [done|]. right.
  split; [intros [?|?]; [done|lia]|]. exists k, f. split; [done|]. split; [done|]. done.
Qed.

Lemma scaleBy_full n m : 0 < n -> full n m -> full n (scaleBy n m).
Proof.
  intros Hn [H1 H2]. unfold scaleBy. split; [by rewrite map_length|]. apply Forall_map. eapply Forall_impl; [exact H2|]. intros x Hx. change (0 <= x / inject_Z n)%Q.
  apply Qle_shift_div_l; [change 0%Q with (inject_Z 0); by rewrite <- Zlt_Qlt|]. by rewrite Qmult_0_l.
Qed.
Lemma full_zero n : 0 <= n -> full n (repeat 0%Q (Z.to_nat (n / 2 + 1))).
Proof.
  intros Hn. assert (0 <= n / 2) by (apply Z.div_pos; lia). split; [rewrite repeat_length; lia|]. apply Forall_forall. intros x Hx%elem_of_list_In%repeat_spec. subst. lra.
Qed.
Lemma full_at n m i x : full n m -> at_ m i = Some x -> (0 <= x)%Q.
Proof. intros [_ H] Hx. unfold at_ in Hx. destruct (i <? 0); [done|]. rewrite Forall_lookup in H. by eapply H. Qed.
Lemma full_by n m : Z.of_nat (length m) = n / 2 + 1 -> (forall i x, at_ m i = Some x -> 0 <= x)%Q -> full n m.
Proof.
  intros H1 H2. split; [done|]. apply Forall_lookup. intros k x Hk. apply (H2 (Z.of_nat k)). unfold at_. destruct (Z.ltb_spec (Z.of_nat k) 0); [lia|]. by rewrite Nat2Z.id.
Qed.

(** The invariant. *)
Record kgood (g : guide) (s : kstate) : Prop := KGood {
  k_carry : carry (guid s);
  k_lo : rf0 (preKick (guid s)) = 0%Q; k_hi : (0 <= rf1 (preKick (guid s)) /\ rf1 (preKick (guid s)) <= rate g / 2)%Q;
  k_ahead : full (cfft g) (readaheadMag s); k_prev : full (cfft g) (classifyPrev s);
  k_long : full (longest g) (longPrev s); k_pend : full (longest g) (pendingKick s)
}.
Lemma kstate0_good r g n : setup r false g n -> kgood g (kstate0 g).
Proof.
  intros [Hr1 Hr2 Hn Hn4 Er Es En Hsz]. destruct Hsz as (Hl & _). constructor; cbn [guid kstate0 readaheadMag classifyPrev longPrev pendingKick guidance0 preKick noRange rf0 rf1]; try (apply full_zero; lia).
  - split; cbn; lra.
  - done.
  - rewrite Er. split; [lra|]. apply Qle_shift_div_l; lra.
Qed.

(** What adjustPreKick does once the guide has spoken. *)
Lemma adjust_ok r g n gd inc prev pend : setup r false g n -> fftSize (band0 gd) = longest g ->
  rf0 (preKick gd) = 0%Q -> (0 <= rf1 (preKick gd))%Q -> (rf1 (preKick gd) <= rate g / 2)%Q ->
  full (longest g) inc -> full (longest g) prev -> full (longest g) pend ->
  exists m p, adjustPreKick g gd inc prev pend = Some (m, p) /\
    every_bin (fun i x d y e => 0 <= y /\ 0 <= e /\
    (if present (preKick gd) then kept x d y e /\ e = d \/ lost x y e /\ 0 < e /\ (i <= binForFrequency (rf1 (preKick gd)) (longest g) (rate g))%Z
     else if present (kick gd) then if (i <=? binForFrequency (rf1 (preKick gd)) (longest g) (rate g))%Z then y = x + d /\ e = 0 else y = x /\ e = d
     else y = x /\ e = d))%Q inc pend m p.
Proof.
  intros St HF P0 P1 P2 Hin Kl Kd. pose proof St as [Hr1 Hr2 Hn Hn4 Er Es En Hsz]. destruct Hsz as (Hlg & _).
  assert (Hrg : (0 < rate g)%Q) by (rewrite Er; lra).
  set (top := binForFrequency (rf1 (preKick gd)) (longest g) (rate g)).
  assert (Htop : 0 <= top <= longest g / 2).
  { unfold top. split; [apply bin_bounds; [done|lia|lra]|]. apply bin_top; [done|done|lia| |lra]. rewrite Hlg. apply Z_mod_mult. }
  assert (Hbins : binsOf (rate g) (fftSize (band0 gd)) (preKick gd) = seqZ 0 (top + 1)).
  { unfold binsOf. rewrite HF, P0. fold top. replace (binForFrequency 0 (longest g) (rate g)) with 0; [f_equal; lia|]. unfold binForFrequency.
    assert (E0 : (0 * inject_Z (longest g) / rate g == 0)%Q) by (field; lra). symmetry. apply cround_is; rewrite E0; change (inject_Z 0) with 0%Q; lra. }
  assert (Hrange : Forall (fun i => 0 <= i < Z.of_nat (length inc)) (seqZ 0 (top + 1))).
  { apply Forall_forall. intros i Hi%elem_of_seqZ. destruct Hin as [-> _]. lia. }
  assert (L1 : length prev = length inc) by (destruct Kl as [Kl _], Hin as [Hi _]; lia).
  assert (L2 : length pend = length inc) by (destruct Kd as [Kd _], Hin as [Hi _]; lia).
  unfold adjustPreKick, every_bin. rewrite Es, Hbins. destruct (present (preKick gd)); [|destruct (present (kick gd))].
    - destruct (holdBack_ok _ (NoDup_seqZ 0 (top + 1)) inc prev pend L1 L2 Hrange) as (m & p & E & Lm & Lp & HH).
      exists m, p. split; [exact E|]. split; [done|]. split; [done|]. split; [done|]. intros i x d Hx Hd.
      destruct (HH i x d Hx Hd) as (u & v & Eu & Ev & Huv). exists u, v. split; [done|]. split; [done|].
      pose proof (full_at _ _ _ _ Hin Hx) as X0. pose proof (full_at _ _ _ _ Kd Hd) as D0.
      destruct (decide (i ∈ seqZ 0 (top + 1))) as [Hi|Hi].
      + destruct Huv as (y & Ey & [(U1 & U2 & U3)|(U1 & -> & ->)]).
        * pose proof (full_at _ _ _ _ Kl Ey) as Y0. split; [lra|]. split; [lra|]. right. unfold lost. apply elem_of_seqZ in Hi. split; [lra|]. split; [lra|lia].
        * split; [done|]. split; [done|]. left. by unfold kept.
      + destruct Huv as [-> ->]. split; [done|]. split; [done|]. left. by unfold kept.
    - destruct (release_ok _ (NoDup_seqZ 0 (top + 1)) inc pend L2 Hrange) as (m & p & E & Lm & Lp & HH).
      exists m, p. split; [exact E|]. split; [done|]. split; [done|]. split; [done|]. intros i x d Hx Hd.
      destruct (HH i x d Hx Hd) as (u & v & Eu & Ev & Huv). exists u, v. split; [done|]. split; [done|].
      pose proof (full_at _ _ _ _ Hin Hx) as X0. pose proof (full_at _ _ _ _ Kd Hd) as D0.
      destruct (decide (i ∈ seqZ 0 (top + 1))) as [Hi|Hi]; destruct Huv as [-> ->].
      + split; [lra|]. split; [lra|]. apply elem_of_seqZ in Hi. destruct (Z.leb_spec i top); [done|lia].
      + split; [lra|]. split; [lra|]. destruct (Z.leb_spec i top); [|done]. destruct Hi. apply elem_of_seqZ. apply at_lt in Hx. lia.
    - exists inc, pend. split; [done|]. split; [done|]. split; [done|]. split; [done|]. intros i x d Hx Hd. exists x, d.
      split; [done|]. split; [done|]. split; [exact (full_at _ _ _ _ Hin Hx)|]. split; [exact (full_at _ _ _ _ Kd Hd)|]. done.
Qed.

Definition frameFor (g : guide) (s : kstate) (a : kframe) : frame :=
  Frame (kratio a) (kprevOuthop a) (current g s a) (classifyPrev s) (rawNext a) (segNext s) (segNow s) (newSegm a) (meanOf (cfft g) (current g s a)) (kunity a) false false true.
Lemma kstep_ok r g n s a : setup r false g n -> kgood g s -> kframe_ok g a -> exists s' m, kstep g s a = Some (s', m) /\ kgood g s' /\
  updateGuidance g (frameFor g s a) (guid s) = Some (guid s') /\
  segNext s' = newSegm a /\ segNow s' = segNext s /\ readaheadMag s' = rawNext a /\ haveReadahead s' = true /\ classifyPrev s' = current g s a /\
  every_bin (fun i x d y e => 0 <= y /\ 0 <= e /\
    (if present (preKick (guid s')) then kept x d y e /\ e = d \/ lost x y e /\ 0 < e /\ (i <= binForFrequency (rf1 (preKick (guid s'))) (longest g) (rate g))%Z
     else if present (kick (guid s')) then if (i <=? binForFrequency (rf1 (preKick (guid s'))) (longest g) (rate g))%Z then y = x + d /\ e = 0 else y = x /\ e = d
     else y = x /\ e = d))%Q (incoming g a) (pendingKick s) m (pendingKick s').
Proof.
  intros St [Kc Klo Khi Ka Kp Kl Kd] (F1 & F2 & F3 & F4 & F5). pose proof St as [Hr1 Hr2 Hn Hn4 Er Es En Hsz]. destruct Hsz as (Hlg & _).
  assert (Hrg : (0 < rate g)%Q) by (rewrite Er; lra).
  assert (Hnow : full (cfft g) (current g s a)) by (unfold current; destruct (haveReadahead s); (apply scaleBy_full; [lia|done])).
  assert (Hin : full (longest g) (incoming g a)) by (apply scaleBy_full; [lia|done]).
  destruct (update_good r false g n (frameFor g s a) (guid s) St Kc) as (gd & Eg & Gg). { split_and!; cbn; [apply Hnow|apply Kp|apply F2]. }
  destruct (update_kicks g (frameFor g s a) (guid s) gd Es Eg) as (HF & HK).
  assert (Hpk : rf0 (preKick gd) = 0%Q /\ (0 <= rf1 (preKick gd) /\ rf1 (preKick gd) <= rate g / 2)%Q).
  { destruct HK as [(_ & _ & ->)|(_ & k & f & _ & _ & ->)]; [by cbn|]. destruct k; [by cbn|]. destruct f; by cbn. }
  destruct Hpk as (P0 & P1 & P2).
  destruct (adjust_ok r g n gd (incoming g a) (longPrev s) (pendingKick s) St HF P0 P1 P2 Hin Kl Kd) as (m & p & Ea & Hall).
  eexists _, m. split.
  { unfold kstep. cbv zeta. replace (if haveReadahead s then scaleBy (cfft g) (readaheadMag s) else scaleBy (cfft g) (rawNow a)) with (current g s a) by (unfold current; by destruct (haveReadahead s)).
    fold (frameFor g s a). rewrite Eg. bindsome. change (scaleBy (longest g) (rawLong a)) with (incoming g a). rewrite Ea. bindsome. reflexivity. }
  cbn [guid segNext segNow readaheadMag haveReadahead classifyPrev pendingKick longPrev]. split; [|split; [exact Eg|]; do 5 (split; [reflexivity|]); exact Hall].
  destruct Hall as (L3 & L4 & L5 & Hall).
  assert (Hpt : forall i, 0 <= i < Z.of_nat (length (incoming g a)) -> exists u v, at_ m i = Some u /\ at_ p i = Some v /\ (0 <= u /\ 0 <= v)%Q).
  { intros i Hi. destruct (at_some (incoming g a) i Hi) as [x Hx]. destruct (at_some (pendingKick s) i) as [d Hd]; [lia|]. destruct (Hall i x d Hx Hd) as (u & v & ? & ? & ? & ? & _). eauto 8. }
  destruct Hin as [Hin _].
  constructor; cbn [guid segNext segNow readaheadMag haveReadahead classifyPrev pendingKick longPrev].
  - apply Gg.
  - done.
  - done.
  - done.
  - done.
  - apply full_by; [lia|]. intros i x Hx. destruct (Hpt i) as (u & v & Hu & Hv & ? & ?); [apply at_lt in Hx; lia|]. congruence.
  - apply full_by; [lia|]. intros i x Hx. destruct (Hpt i) as (u & v & Hu & Hv & ? & ?); [apply at_lt in Hx; lia|]. congruence.
Qed.

Lemma krun_ok r g n l : setup r false g n -> forall s, kgood g s -> Forall (kframe_ok g) l -> exists s' ms, krun g s l = Some (s', ms) /\ kgood g s'.
Proof.
  intros St. induction l as [|a l IH]; intros s Hg Hl; cbn [krun]; [eauto|]. apply Forall_cons in Hl as [Ha Hl].
  destruct (kstep_ok r g n s a St Hg Ha) as (s1 & m & E1 & G1 & _). rewrite E1. bindsome. destruct (IH s1 G1 Hl) as (s2 & ms & E2 & G2). rewrite E2. bindsome. eauto.
Qed.
Lemma multi_setup r : (8000 <= r)%Q -> (r <= 192000)%Q -> exists g n, newGuide r false = Some g /\ setup r false g n.
Proof. intros H1 H2. destruct (guide_sizes r false H1 H2) as (g & n & E & N1 & N2 & N3 & N4 & N5 & N6 & N7). exists g, n. split; [exact E|]. by constructor. Qed.

Lemma conservation r : (8000 <= r)%Q -> (r <= 192000)%Q -> exists g, newGuide r false = Some g /\ forall l a, Forall (kframe_ok g) l -> kframe_ok g a ->
  exists s ms s' m, krun g (kstate0 g) l = Some (s, ms) /\ kstep g s a = Some (s', m) /\
    every_bin (fun i x d y e => (0 <= y /\ 0 <= e)%Q /\ (kept x d y e \/ present (preKick (guid s')) = true /\ lost x y e)) (incoming g a) (pendingKick s) m (pendingKick s').
Proof.
  intros H1 H2. destruct (multi_setup r H1 H2) as (g & n & E & St). exists g. split; [exact E|]. intros l a Hl Ha.
  destruct (krun_ok r g n l St (kstate0 g) (kstate0_good r g n St) Hl) as (s & ms & Er & Gs).
  destruct (kstep_ok r g n s a St Gs Ha) as (s' & m & Ek & _ & _ & _ & _ & _ & _ & _ & L1 & L2 & L3 & HH).
  exists s, ms, s', m. split; [exact Er|]. split; [exact Ek|]. split; [exact L1|]. split; [exact L2|]. split; [exact L3|]. intros i x d Hx Hd.
  destruct (HH i x d Hx Hd) as (u & v & Hu & Hv & U0 & V0 & Hc). exists u, v. split; [done|]. split; [done|]. split; [done|].
  destruct (present (preKick (guid s'))); [destruct Hc as [[Hc _]|[Hc _]]; [by left|by right]|]. left. destruct (present (kick (guid s'))); [destruct (i <=? _)|]; destruct Hc as [-> ->]; unfold kept; lra.
Qed.

Lemma restored r g l a b s ms s1 m1 : (8000 <= r)%Q -> (r <= 192000)%Q -> newGuide r false = Some g -> Forall (kframe_ok g) l -> kframe_ok g a -> kframe_ok g b ->
  krun g (kstate0 g) l = Some (s, ms) -> kstep g s a = Some (s1, m1) ->
  checkPotentialKick g (scaleBy (cfft g) (rawNext a)) (current g s a) = Some true -> kunity b <= 0 -> ((1 # 1000000) <= meanOf (cfft g) (scaleBy (cfft g) (rawNext a)))%Q ->
  exists s2 m2, kstep g s1 b = Some (s2, m2) /\ forall i x y, at_ (incoming g a) i = Some x -> at_ m1 i = Some y -> (y < x)%Q ->
    exists x2 y2, at_ (incoming g b) i = Some x2 /\ at_ m2 i = Some y2 /\ (y2 == x2 + (x - y))%Q /\ at_ (pendingKick s2) i = Some 0%Q.
Proof.
  intros H1 H2 Eg Hl Ha Hb Er Ea Hstrong Hun Hloud. destruct (multi_setup r H1 H2) as (g' & n & E' & St). assert (g' = g) as -> by congruence.
  destruct (krun_ok r g n l St (kstate0 g) (kstate0_good r g n St) Hl) as (s' & ms' & Er' & Gs). assert (s' = s) as -> by congruence.
  destruct (kstep_ok r g n s a St Gs Ha) as (s1' & m1' & Ea' & G1 & U1 & S1 & S2 & R1 & R2 & P1 & L1 & L2 & L3 & HH1). rewrite Ea in Ea'. injection Ea' as <- <-.
  destruct (kstep_ok r g n s1 b St G1 Hb) as (s2 & m2 & Eb & _ & U2 & _ & _ & _ & _ & _ & M1 & M2 & M3 & HH2).
  exists s2, m2. split; [exact Eb|]. intros i x y Hx Hy Hlt.
  destruct (at_some (pendingKick s) i) as [d Hd]; [apply at_lt in Hx; lia|]. destruct (HH1 i x d Hx Hd) as (u & v & Hu & Hv & U0 & V0 & Hc). assert (u = y) as -> by congruence.
  pose proof St as [_ _ _ _ _ Es _ _]. destruct (update_kicks _ _ _ _ Es U1) as (_ & HK1). destruct (update_kicks _ _ _ _ Es U2) as (_ & HK2).
  (* the pre-kick is there, for only then is something held back *)
  pose proof (full_at _ _ _ _ (k_pend _ _ Gs) Hd) as D0.
  destruct (present (preKick (guid s1))) eqn:Epk.
  2:{ destruct (present (kick (guid s1))); [destruct (i <=? _)|]; destruct Hc as [-> ->]; lra. }
  destruct Hc as [[Hc1 ->]|(Hc1 & Hc2 & Hc3)]; [unfold kept in Hc1; lra|]. unfold lost in Hc1.
  destruct HK1 as [(_ & _ & Hp)|(_ & k & f & Ed & _ & Hp)]; [by rewrite Hp in Epk|]. destruct k; [by rewrite Hp in Epk|]. destruct f; [|by rewrite Hp in Epk].
  assert (Hseg : ltq 40 (percussiveBelow (newSegm a)) = true /\ ltq (percussiveBelow (segNext s)) 40 = true).
  { unfold detectKicks in Ed. cbn [segm prevSegm nextSegm magnitudes prevMagnitudes nextMagnitudes frameFor] in Ed.
    destruct (if ltq 40 (percussiveBelow (segNext s)) && ltq (percussiveBelow (segNow s)) 40 then _ else _) as [k|]; [|discriminate Ed]. cbn [mbind option_bind] in Ed.
    destruct k; cbn [negb andb] in Ed; [discriminate Ed|]. destruct (ltq 40 (percussiveBelow (newSegm a))); [|discriminate Ed]. cbn [andb] in Ed.
    destruct (ltq (percussiveBelow (segNext s)) 40); [done|discriminate Ed]. }
  destruct Hseg as [Hs1 Hs2].
  (* so there is the kick *)
  assert (Hcur : current g s1 b = scaleBy (cfft g) (rawNext a)) by (unfold current; by rewrite R2, R1).
  destruct HK2 as [([Hq|Hq] & _)|(_ & k & f & Ed2 & Hk & Hp2)].
  { cbn [resetOnSilence meanMagnitude frameFor andb] in Hq. rewrite Hcur in Hq. apply ltq_true in Hq. lra. }
  { cbn [unityCount frameFor] in Hq. lia. }
  assert (k = true) as ->.
  { unfold detectKicks in Ed2. cbn [segm prevSegm nextSegm magnitudes prevMagnitudes nextMagnitudes frameFor] in Ed2. rewrite S1, S2, Hs1, Hs2 in Ed2. cbn [andb] in Ed2.
    rewrite Hcur, P1, Hstrong in Ed2. cbn in Ed2. congruence. }
  destruct (at_some (incoming g b) i) as [x2 Hx2]; [apply at_lt in Hv; lia|]. destruct (HH2 i x2 v Hx2 Hv) as (y2 & e2 & Hy2 & He2 & _ & _ & Hc4).
  rewrite Hp2, Hk in Hc4. cbn [present absent rf1] in Hc4. rewrite (proj2 (Z.leb_le _ _) Hc3) in Hc4. destruct Hc4 as [-> ->].
  exists x2, (x2 + v)%Q. split; [done|]. split; [done|]. split; [lra|done].
Qed.
