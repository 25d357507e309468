(** The finer engine: key frames, steady streams, reset. *)
From stdpp Require Import prelude list numbers.
From Coq Require Import ZArith QArith Qround Lia Lqa.
From Verif Require Import Base.Arith MathMisc.Model Calculator.Spec Finer.GuideModel Finer.GuideProofs Finer.EngineModel Finer.EngineSpec Finer.EngineShape Finer.EngineProofs Finer.EngineSession Finer.EngineTotal Finer.EngineMore.
From Verif Require Calculator.Model.
From stdpp Require Import list.
Local Open Scope Z_scope.

Lemma cround_comp a b : (a == b)%Q -> cround a = cround b.
Proof.
  intros H. unfold cround. destruct (Qlt_le_dec a 0), (Qlt_le_dec b 0); try lra; [f_equal|]; apply Qfloor_comp; by rewrite H.
Qed.

(** Maps *)
Fixpoint floorKey (a : Z) (m : list (Z * Z)) (x : Z) : Z :=
  match m with [] => a | (a1, _) :: m => if x <? a1 then a else floorKey a1 m x end.
Lemma ub_cons k e m : upper_bound k (e :: m) = if k <? e.1 then Some e else upper_bound k m.
Proof. unfold upper_bound. rewrite filter_cons. destruct (decide _) as [D|D]; [by rewrite D|]. by destruct (k <? e.1). Qed.
Lemma few_cons e m x y : few (e :: m) x y -> few m x y /\ (x < e.1 <= y -> forall e', e' ∈ m -> ~ (x < e'.1 <= y)).
Proof.
  unfold few. rewrite filter_cons. destruct (decide (x < e.1 <= y)) as [D|D]; cbn [length].
  - intros H. split; [lia|]. intros _ e' He D'. assert (Hi : e' ∈ filter (fun e : Z * Z => x < e.1 <= y) m) by (by apply elem_of_list_filter).
    destruct (filter (fun e : Z * Z => x < e.1 <= y) m); [by apply elem_of_nil in Hi|]. cbn in H. lia.
  - intros H. split; [done|]. done.
Qed.
Lemma rising_above m : forall a b ea eb e, rising a b m ea eb -> e ∈ m -> a < e.1.
Proof.
  induction m as [|[a1 b1] m IH]; intros a b ea eb e H He; [by apply elem_of_nil in He|]. destruct H as (H1 & H2 & H3).
  apply elem_of_cons in He as [->|He]; [done|]. specialize (IH _ _ _ _ _ H3 He). lia.
Qed.
Lemma rising_end m : forall a b ea eb, rising a b m ea eb -> a < ea /\ b < eb.
Proof. induction m as [|[a1 b1] m IH]; intros a b ea eb H; [done|]. destruct H as (H1 & H2 & H3). destruct (IH _ _ _ _ H3). lia. Qed.
Lemma ub_in k m e : upper_bound k m = Some e -> e ∈ m /\ k < e.1.
Proof.
  induction m as [|e0 m IH]; [done|]. rewrite ub_cons. destruct (Z.ltb_spec k e0.1).
  - intros [= <-]. split; [by left|done].
  - intros H1. destruct (IH H1). split; [by right|done].
Qed.
Lemma floor_ge m : forall a b ea eb x, rising a b m ea eb -> a <= floorKey a m x.
Proof. induction m as [|[a1 b1] m IH]; intros a b ea eb x H; cbn; [lia|]. destruct H as (H1 & H2 & H3). destruct (x <? a1); [lia|]. specialize (IH _ _ _ _ x H3). lia. Qed.
Lemma ub_floor m : forall a b ea eb x, rising a b m ea eb -> a <= x -> upper_bound (floorKey a m x) m = upper_bound x m.
Proof.
  induction m as [|[a1 b1] m IH]; intros a b ea eb x H Hx; [done|]. destruct H as (H1 & H2 & H3). rewrite !ub_cons. cbn.
  destruct (Z.ltb_spec x a1).
  - destruct (Z.ltb_spec a a1); [done|lia].
  - pose proof (floor_ge m a1 b1 ea eb x H3). destruct (Z.ltb_spec (floorKey a1 m x) a1); [lia|]. by eapply IH.
Qed.
Lemma segment_stay m : forall a b ea eb x y, x <= y -> match upper_bound x m with Some (a0, _) => y < a0 | None => True end ->
  rising a b m ea eb -> segment a b m ea eb y = segment a b m ea eb x /\ floorKey a m y = floorKey a m x.
Proof.
  induction m as [|[a1 b1] m IH]; intros a b ea eb x y Hx H Hr; [done|]. destruct Hr as (H1 & H2 & H3). rewrite ub_cons in H. cbn in *.
  destruct (Z.ltb_spec x a1).
  - destruct (Z.ltb_spec y a1); [done|lia].
  - destruct (Z.ltb_spec y a1); [lia|]. by apply IH.
Qed.
Lemma segment_pass m : forall a b ea eb x y a0 b0, x <= y -> upper_bound x m = Some (a0, b0) -> a0 <= y -> few m x y -> rising a b m ea eb ->
  let '(a1, b1) := match upper_bound y m with Some e => e | None => (ea, eb) end in
  a0 < a1 /\ b0 < b1 /\ segment a b m ea eb y = (inject_Z (b1 - b0) / inject_Z (a1 - a0))%Q /\ floorKey a m y = a0.
Proof.
  induction m as [|[a1 b1] m IH]; intros a b ea eb x y a0 b0 Hx H Hy Hf Hr; [done|]. destruct Hr as (H1 & H2 & H3). rewrite ub_cons in H |- *. cbn in *.
  apply few_cons in Hf as [Hf Hg]. cbn in Hg.
  destruct (Z.ltb_spec x a1).
  - injection H as <- <-. destruct (Z.ltb_spec y a1); [lia|]. specialize (Hg ltac:(lia)). destruct m as [|[a2 b2] m]; cbn.
    + destruct H3. done.
    + specialize (Hg (a2, b2) ltac:(by left)). cbn in Hg. destruct H3 as (G1 & G2 & G3). destruct (Z.ltb_spec y a2); [|lia]. rewrite ub_cons. cbn. destruct (Z.ltb_spec y a2); [|lia]. done.
  - destruct (Z.ltb_spec y a1); [lia|]. by apply (IH a1 b1 ea eb x y a0 b0).
Qed.

Section Engine.
  Context {R : Type} (RS : resampler R) (E : shape) (m c : Z).
  Notation eng := (@eng R).
  Notation ok := (@ok R E). Notation moves := (@moves R E). Notation move := (@move R E).

  (** The ratio in force is the one for the position last seen. *)
  Definition tracked (seen : Z) (s : eng) : Prop :=
    0 <= seen <= consumed s /\ lastKey s = floorKey 0 (keys s) seen /\ timeRatio s = slope (keys s) (studied s) (target s) seen /\ rising 0 0 (keys s) (studied s) (target s).
  Lemma set_ratio (s : eng) a b k : (0 < pitchScale s)%Q -> 0 < a -> 0 < b ->
    let s' := withLastKey (calculateHop E s (quotient b a) (Fin (pitchScale s))) k in
    timeRatio s' = (inject_Z b / inject_Z a)%Q /\ pitchScale s' = pitchScale s /\ lastKey s' = k /\ keys s' = keys s /\ studied s' = studied s /\ target s' = target s /\ consumed s' = consumed s.
  Proof.
    intros O Ha Hb. unfold quotient. destruct (Z.eqb_spec a 0); [lia|]. unfold calculateHop. rewrite sanitise_same.
    - unfold setRatios. destruct (match mode s with JustCreated => _ | _ => _ end). done.
    - apply Qlt_shift_div_l; rewrite ?Qmult_0_l; change 0%Q with (inject_Z 0); rewrite <- Zlt_Qlt; lia.
    - done.
  Qed.
  Lemma update_tracked seen s : (0 < pitchScale s)%Q -> 0 <= consumed s -> rising 0 0 (keys s) (studied s) (target s) -> keys s <> [] -> few (keys s) seen (consumed s) ->
    (consumed s = 0 \/ tracked seen s) -> tracked (consumed s) (updateRatioFromMap E s) /\ consumed (updateRatioFromMap E s) = consumed s /\
    keys (updateRatioFromMap E s) = keys s /\ pitchScale (updateRatioFromMap E s) = pitchScale s /\ studied (updateRatioFromMap E s) = studied s.
  Proof.
    intros O Hc Hr Hk Hf Ht. unfold updateRatioFromMap. destruct (keys s) as [|[k0 v0] ks] eqn:Ek; [done|].
    destruct (Z.eqb_spec (consumed s) 0) as [Hz|Hz].
    - destruct Hr as (R1 & R2 & R3). destruct (set_ratio s k0 v0 0 O ltac:(lia) ltac:(lia)) as (S1 & S2 & S3 & S4 & S5 & S6 & S7).
      split; [|split_and!; congruence]. unfold tracked. rewrite S1, S3, S4, S5, S6, S7, Ek, Hz. split; [lia|]. unfold slope. cbn. destruct (Z.ltb_spec 0 k0); [|lia]. rewrite !Z.sub_0_r. done.
    - destruct Ht as [|(T1 & T2 & T3 & T4)]; [done|]. rewrite Ek in *. set (mm := (k0, v0) :: ks) in *.
      rewrite T2. rewrite (ub_floor mm 0 0 (studied s) (target s) seen T4 ltac:(lia)).
      destruct (upper_bound seen mm) as [[a0 b0]|] eqn:Eu.
      + destruct (Z.leb_spec a0 (consumed s)).
        * pose proof (segment_pass mm 0 0 (studied s) (target s) seen (consumed s) a0 b0 ltac:(lia) Eu ltac:(lia) Hf T4) as X.
          destruct (match upper_bound (consumed s) mm with Some e => e | None => _ end) as [a1 b1]. destruct X as (X1 & X2 & X3 & X4).
          destruct (Z.ltb_spec a0 a1); [|lia]. destruct (Z.ltb_spec b0 b1); [|lia].
          destruct (set_ratio s (a1 - a0) (b1 - b0) a0 O ltac:(lia) ltac:(lia)) as (S1 & S2 & S3 & S4 & S5 & S6 & S7).
          split; [|split_and!; congruence]. unfold tracked. rewrite S1, S3, S4, S5, S6, S7, Ek. split; [lia|]. fold mm. unfold slope. by rewrite X3, X4.
        * destruct (segment_stay mm 0 0 (studied s) (target s) seen (consumed s) ltac:(lia) ltac:(rewrite Eu; lia) T4) as [X1 X2].
          split; [|done]. unfold tracked. rewrite Ek. fold mm. split; [lia|]. unfold slope in *. by rewrite X1, X2.
      + destruct (segment_stay mm 0 0 (studied s) (target s) seen (consumed s) ltac:(lia) ltac:(by rewrite Eu) T4) as [X1 X2].
        split; [|done]. unfold tracked. rewrite Ek. fold mm. split; [lia|]. unfold slope in *. by rewrite X1, X2.
  Qed.
  Lemma move_consumed s s' : ok s -> move s s' -> consumed s <= consumed s'.
  Proof.
    intros O M. destruct M as [s' ih o count Hih Ho H|r f z H1 H2 H3|k Hk]; [|cbn; lia..]. destruct O as [[] _ _ _]. destruct H. rewrite h_con. lia.
  Qed.
  Lemma moves_consumed s s' : sized E m c -> ok s -> moves s s' -> consumed s <= consumed s'.
  Proof.
    intros Z0 O H. induction H as [|x y z M _ IH]; [lia|]. pose proof (move_consumed _ _ O M). pose proof (IH (move_ok E m c _ _ Z0 O M)). lia.
  Qed.
  Definition on_track (seen : Z) (s : eng) : Prop :=
    keys s <> [] /\
    (mode s = Finished \/ (mode s = Studying /\ seen = 0 /\ consumed s = 0 /\ rising 0 0 (keys s) (studied s) (aim s)) \/ (mode s = Processing /\ tracked seen s)).
  Lemma prepare_track seen s : realTime E = false -> ok s -> on_track seen s -> mode s <> Finished -> few (keys s) seen (consumed s) ->
    tracked (consumed s) (prepareOffline RS E s) /\ consumed (prepareOffline RS E s) = consumed s /\ keys (prepareOffline RS E s) = keys s /\
    pitchScale (prepareOffline RS E s) = pitchScale s /\ studied (prepareOffline RS E s) = studied s.
  Proof.
    intros Er [[] Ot Op Oh] (Hk & Ht) Hm Hf. unfold prepareOffline. rewrite Er. destruct Ht as [Ht|[(Em & -> & Hz & Hr)|(Em & Ht)]]; [done|..].
    - rewrite Em. unfold aim in Hr. rewrite Em in Hr. set (s0 := withDurations s (studied s) (supplied s) (cround (inject_Z (studied s) * timeRatio s))).
      destruct (update_tracked 0 s0 Op o_con Hr Hk Hf ltac:(by left)) as (U1 & U2 & U3 & U4 & U5).
      destruct (update_fields E s0) as ([] & _). assert (mode (updateRatioFromMap E s0) = Studying) as -> by (rewrite p_mode; exact Em).
      destruct (res (updateRatioFromMap E s0)); [done|]. destruct (Qeq_bool (pitchScale (updateRatioFromMap E s0)) 1); done.
    - rewrite Em. destruct Ht as (T1 & T2 & T3 & T4).
      destruct (update_tracked seen s Op o_con T4 Hk Hf ltac:(by right)) as (U1 & U2 & U3 & U4 & U5).
      destruct (update_fields E s) as ([] & _). assert (mode (updateRatioFromMap E s) = Processing) as -> by (rewrite p_mode; exact Em). done.
  Qed.
  Lemma run_track l : forall got seen s s' a, sized E m c -> fair RS -> realTime E = false -> Forall counts l -> Forall second_pass l -> idle E got s ->
    gentle RS E seen s l -> on_track seen s -> run RS E s l = Some (s', a) ->
    exists seen', on_track seen' s' /\ keys s' = keys s /\ pitchScale s' = pitchScale s /\ studied s' = studied s /\
      forall o, gentle RS E seen s (l ++ [o]) -> gentle RS E seen' s' [o].
  Proof.
    induction l as [|o l IH]; intros got seen s s' a Z0 F Er Hc Hs I Hg Ht H; cbn [run] in H; [injection H as <- <-; eauto 10|].
    inversion Hc as [|? ? C1 C2]; inversion Hs as [|? ? N1 N2]; subst. destruct (step RS E s o) as [[s1 a1]|] eqn:E1; [|done]. binds.
    destruct (run RS E s1 l) as [[s2 a2]|] eqn:E2; [|done]. binds. injection H as <- <-. cbn [gentle] in Hg. destruct Hg as [G1 G2]. specialize (G2 _ _ E1).
    destruct (step_any RS E m c got s o s1 a1 Z0 F C1 I E1) as [got' I'].
    set (seen1 := match o with Process _ _ => consumed s | _ => seen end) in *.
    assert (X : on_track seen1 s1 /\ keys s1 = keys s /\ pitchScale s1 = pitchScale s /\ studied s1 = studied s).
    { destruct o as [x|x|ks|n|n|n|n f|n|]; cbn [step second_pass] in E1, N1; try done; try (injection E1 as <- <-; done).
      cbn in seen1. destruct (process RS E s n f) as [s3|] eqn:E3; [|done]. binds. injection E1 as <- _. destruct I as [O Fr _ _].
      destruct (process_moves RS E m c s n f s3 Z0 F O Fr E3) as [[Hx ->]|(Hm & s4 & M & ->)].
      - split; [|done]. destruct Ht. split; [done|]. by left.
      - destruct (prepare_track seen s Er O Ht Hm G1) as ((T1 & T2 & T3 & T4) & P1 & P2 & P3 & P4). pose proof (prepare_ok RS E m c s Z0 O Fr) as O1.
        pose proof (moves_consumed _ _ Z0 O1 M). destruct (moves_same E _ _ M) as (S1 & S2 & S3 & S4 & S5 & S6 & S7 & S8 & S9 & S10).
        unfold on_track. cbn. rewrite S8, P2. destruct Ht as [Hk _]. split; [|split; [done|split; congruence]]. split; [done|]. destruct f; [by left|]. right; right. split; [done|].
        unfold tracked. cbn. rewrite S1, S4, S6, S7, S8. split; [lia|]. done. }
    destruct X as (X1 & X2 & X3 & X4). destruct (IH got' seen1 s1 s2 a2 Z0 F Er C2 N2 I' G2 X1 E2) as (seen' & Y1 & Y2 & Y3 & Y4 & Y5).
    exists seen'. split; [done|]. do 3 (split; [congruence|]). intros o' Hg'. apply Y5. cbn [app gentle] in Hg'. destruct Hg' as [_ Hg']. by apply (Hg' _ _ E1).
  Qed.
  Lemma key_frames t p l1 s1 g1 l2 s2 g2 n f : sized E m c -> fair RS -> realTime E = false ->
    run RS E (engine0 RS E t p) l1 = Some (s1, g1) -> Forall counts l1 -> Forall first_pass l1 -> mode s1 = Studying -> keys s1 <> [] ->
    rising 0 0 (keys s1) (studied s1) (aim s1) ->
    run RS E s1 l2 = Some (s2, g2) -> Forall counts l2 -> Forall second_pass l2 -> mode s2 <> Finished -> gentle RS E 0 s1 (l2 ++ [Process n f]) ->
    let s := prepareOffline RS E s2 in
    timeRatio s = slope (keys s1) (studied s1) (aim s1) (consumed s2) /\ pitchScale s = pitchScale s1 /\ inhop s = inhopFor E (ratioOf s).
  Proof.
    intros Z0 F Er R1 C1 F1 Hm Hk Hr R2 C2 F2 Hm2 Hg.
    pose proof (run_idle RS E m c l1 0 _ _ _ Z0 F C1 ltac:(eapply Forall_impl; [exact F1|by intros []]) (engine0_idle RS E m c t p Z0) R1) as I1.
    assert (T1 : on_track 0 s1). { split; [done|]. right; left. split; [done|]. split; [done|]. split; [|done]. destruct (i_fresh _ _ _ I1 ltac:(by right)) as (_ & _ & _ & _ & ? & _). done. }
    assert (Hg' : gentle RS E 0 s1 l2). { clear -Hg. revert Hg. generalize 0 s1. induction l2 as [|o l IH]; intros z s Hg; [done|]. cbn [app gentle] in *. destruct Hg as [G1 G2]. split; [done|]. intros s' a Hs. by apply IH, (G2 _ a). }
    destruct (run_track l2 _ 0 s1 s2 g2 Z0 F Er C2 F2 I1 Hg' T1 R2) as (seen & T2 & K2 & P2 & Y2 & G2). specialize (G2 _ Hg). cbn [gentle] in G2. destruct G2 as [G2 _].
    pose proof (run_idle RS E m c l2 _ _ _ _ Z0 F C2 ltac:(eapply Forall_impl; [exact F2|by intros []]) I1 R2) as I2.
    destruct (prepare_track seen s2 Er (i_ok _ _ _ I2) T2 Hm2 G2) as ((V1 & V2 & V3 & V4) & V5 & V6 & V7 & V8). cbv zeta.
    assert (Ht : target (prepareOffline RS E s2) = aim s1).
    { assert (P0 : pending E (cround (inject_Z (windowSource E / 2) / pitchScale s1)) (aim s1) s1).
      { split; [done|]. split; [|split; [done|]; intros N; exfalso; apply N; by right].
        unfold starts. destruct (keys s1) as [|[k0 v0] ?] eqn:Ek; [done|]. destruct Hr as (Q1 & _). cbn. lia. }
      destruct (run_pending RS E m c l2 _ _ _ s1 s2 g2 Z0 F C2 F2 I1 P0 R2) as (_ & _ & P3 & P4). destruct (prepare_spec RS E s2) as (_ & _ & Q2 & Q3).
      assert (D : isFirst s2 \/ ~ isFirst s2) by (unfold isFirst; destruct (mode s2); auto; right; intros [|]; done). destruct D as [D|D].
      - destruct (P3 D) as [_ ->]. pose proof (i_ok _ _ _ I2) as O2. destruct (wss_pos E m c Z0).
        apply (Q3 D Er (i_fresh _ _ _ I2 D) (o_ins E _ (o_base E _ O2)) ltac:(lia)).
      - rewrite (Q2 D), Er. destruct (update_fields E s2) as (_ & _ & _ & _ & -> & _). by apply P4. }
    rewrite V3, V6, V8, K2, Y2, Ht. split; [done|]. split; [congruence|]. pose proof (prepare_ok RS E m c s2 Z0 (i_ok _ _ _ I2) (i_fresh _ _ _ I2)) as O2. apply (o_h E _ O2).
  Qed.

  (** A steady stream: the output hop is the exact product, always. *)
  Definition steady (t : Q) (k : Calculator.Model.calc) : Prop :=
    Calculator.Model.useHardPeaks k = false /\ (Calculator.Model.justReset k = true \/ (t == Calculator.Model.prevRatio k)%Q) /\
    Calculator.Model.frameCheckpoint k = (0, 0) /\ (Calculator.Model.outFrameCounter k == inject_Z (Calculator.Model.inFrameCounter k) * t)%Q.
  Lemma outhop_steady s t o : steady t (calculator s) -> (timeRatio s == t)%Q -> (pitchScale s == 1)%Q -> (0 <= t)%Q -> 1 <= inhop s -> 1 <= o ->
    (forall r q, (q == 1)%Q -> (reff RS r q == 1)%Q) -> (inject_Z o == inject_Z (inhop s) * t)%Q ->
    exists k, outhopFor RS E s = (o, k) /\ steady t k.
  Proof.
    intros (S1 & S2 & S3 & S4) Ht Hp H0 Hi Ho Hr Hq. unfold outhopFor. set (e := match res s with Some r => reff RS r (1 / pitchScale s) | None => (1 / pitchScale s)%Q end).
    assert (He : (e == 1)%Q). { unfold e. assert (1 / pitchScale s == 1)%Q by (rewrite Hp; reflexivity). destruct (res s); [by apply Hr|done]. }
    assert (Hte : (timeRatio s / e == t)%Q) by (rewrite He, Ht; field).
    destruct (single_level (calculator s) (timeRatio s) e (inhop s) (longestFft E) S1 Hi ltac:(by rewrite Hte)) as (k & Ek & K1 & K2 & K3 & K4 & K5 & K6).
    - destruct S2 as [S2|S2]; [by left|right]. by rewrite Hte.
    - rewrite S3. unfold Calculator.Model.expectedOutFrame. cbn [fst snd]. rewrite Z.sub_0_r. apply cround_comp. rewrite S4, Ht. change (inject_Z 0) with 0%Q. ring.
    - assert (Hri : rint (inject_Z (inhop s) * (timeRatio s / e)) = o) by (rewrite (rint_comp _ (inject_Z o)); [apply rint_Z|by rewrite Hte, Hq]). rewrite Hri in *. rewrite Ek.
      destruct (Z.ltb_spec o 1); [lia|]. exists k. split; [done|]. split; [done|]. split; [right; by rewrite K1|]. split; [congruence|].
      rewrite K5, K3, S4, He, Hq, inject_Z_plus. ring.
  Qed.
  Definition steadied (t : Q) (h o : Z) (s : eng) : Prop :=
    steady t (calculator s) /\ timeRatio s = t /\ (pitchScale s == 1)%Q /\ inhop s = h /\ Forall (fun e => e.1.2 = o /\ e.2 = o) (trail s).
  Lemma loop_steady fuel : forall s t h o f s', sized E m c -> fair RS -> ok s -> 1 <= h -> 1 <= o -> calm E s -> steadied t h o s ->
    consumeLoop RS E fuel s f h o = Some s' -> steadied t h o s'.
  Proof.
    induction fuel as [|fuel IH]; intros s t h o f s' Z0 F O Hh Ho C J H; [done|]. cbn [consumeLoop] in H. cbv zeta in H.
    match type of H with (if ?b then _ else _) = _ => destruct b end; [by injection H as <-|].
    destruct (hop RS E s f h o (inFill s)) as [s1|] eqn:E1; [|done]. binds. pose proof (o_base E s O) as [].
    destruct (hop_spec RS E m c s f h o s1 F Z0 ltac:(lia) ltac:(lia) E1) as [count Hc].
    pose proof (M_hop E s s1 h o count Hh Ho Hc) as M. pose proof (move_ok E m c _ _ Z0 O M) as O1. destruct (move_calm E s s1 O C M) as [C1 _].
    apply (IH s1 t h o f s' Z0 F O1 Hh Ho C1); [|done]. destruct Hc. destruct (h_plain C) as [-> _]. destruct h_same as (S1 & S2 & S3 & S4 & S5 & S6 & S7 & S8 & S9 & S10).
    destruct J as (J1 & J2 & J3 & J4 & J5). unfold steadied. rewrite S10, S1, S2, S3, h_trail. do 4 (split; [done|]). by constructor.
  Qed.
  Lemma process_steady got s n f s' t h o : sized E m c -> fair RS -> (forall r q, (q == 1)%Q -> (reff RS r q == 1)%Q) -> realTime E = true -> highConsistency E = false ->
    (0 <= t)%Q -> 1 <= o -> (inject_Z o == inject_Z h * t)%Q -> idle E got s -> drained E s -> steadied t h o s -> 0 <= n <= 524288 ->
    process RS E s n f = Some s' -> steadied t h o s'.
  Proof.
    intros Z0 F Hr Er Ehc Ht Ho Hq [O Fr _ _] D J Hn H. destruct (prepare_spec RS E s) as (_ & P & _). specialize (P Er). pose proof J as (J1 & J2 & J3 & J4 & J5).
    pose proof (inhop_range E m c (ratioOf s) Z0) as Hi. rewrite <- (o_h E s O) in Hi.
    assert (Hres : resampling E s = (false, false)) by (by apply unpitched_calm).
    assert (X : forall s0 s1 f, ok s0 -> steadied t h o s0 -> resampling E s0 = (false, false) -> consume RS E s0 f = Some s1 -> steadied t h o s1).
    { intros s0 s1 f0 O0 (K1 & K2 & K3 & K4 & K5) Hr0 Hc. unfold consume in Hc. rewrite K4 in Hc.
      destruct (outhop_steady s0 t o K1 ltac:(by rewrite K2) K3 Ht ltac:(lia) Ho Hr ltac:(by rewrite K4)) as (k & Ek & Sk). rewrite Ek in Hc.
      destruct (outhop_range RS E m c _ o k Z0 F O0 Ek) as (H1 & H2 & _).
      assert (M1 : move s0 (withCalc s0 k)) by (by apply M_calc). pose proof (move_ok E m c _ _ Z0 O0 M1) as O2.
      eapply loop_steady; [exact Z0|exact F|exact O2|..|exact Hc]; [lia|done|unfold calm; change (resampling E (withCalc s0 k)) with (resampling E s0); by rewrite Hr0|done]. }
    unfold process in H. rewrite P, Hres in H. cbn [fst] in H. destruct (Z.ltb_spec processLimit n); [unfold processLimit in *; lia|].
    assert (Y : forall s2, (if (n =? 0) && f then consume RS E s true else feed RS E (Z.to_nat (n + 1)) s false n 0 f) = Some s2 -> steadied t h o s2).
    { intros s2 Hs. destruct (Z.eqb_spec n 0) as [->|Hz]; cbn [andb] in Hs.
      - destruct f; [by eapply X|]. by injection Hs as <-.
      - replace (Z.to_nat (n + 1)) with (S (S (Z.to_nat (n - 1)))) in Hs by lia. destruct (wss_pos E m c Z0) as (W1 & W2). unfold drained in D. pose proof (o_ins E _ (o_base E _ O)).
        rewrite (feed_plain RS E _ s n f O) in Hs by lia. exact (X (filled s n) s2 f (filled_ok E s n O ltac:(lia)) J Hres Hs). }
    destruct (mode s); try (injection H as <-; done);
      (match type of H with (?B ≫= _) = _ => destruct B as [s2|] eqn:E2 end; [|done]; binds; injection H as <-; exact (Y s2 eq_refl) || (specialize (Y s2 E2); exact Y)).
  Qed.
  Lemma run_steady l : forall got s s' a t h o, sized E m c -> fair RS -> (forall r q, (q == 1)%Q -> (reff RS r q == 1)%Q) -> realTime E = true -> highConsistency E = false ->
    (0 <= t)%Q -> 1 <= o -> (inject_Z o == inject_Z h * t)%Q -> Forall counts l -> Forall streaming l -> idle E got s -> drained E s -> steadied t h o s ->
    run RS E s l = Some (s', a) -> steadied t h o s'.
  Proof.
    induction l as [|x l IH]; intros got s s' a t h o Z0 F Hr Er Ehc Ht Ho Hq Hc Hs I D J H; cbn [run] in H; [by injection H as <- <-|].
    inversion Hc as [|? ? C1 C2]; inversion Hs as [|? ? N1 N2]; subst. destruct (step RS E s x) as [[s1 a1]|] eqn:E1; [|done]. binds.
    destruct (run RS E s1 l) as [[s2 a2]|] eqn:E2; [|done]. binds. injection H as <- <-.
    destruct (step_any RS E m c got s x s1 a1 Z0 F C1 I E1) as [got' I']. pose proof (step_drained RS E m c got s x s1 a1 Z0 F C1 I D E1) as D1.
    eapply IH; try done. destruct x as [x|x|ks|n|n|n|n f|n|]; cbn [step streaming] in E1, N1; try done; try (injection E1 as <- <-; done).
    destruct N1 as [-> Hn]. cbn in C1. destruct (process RS E s n false) as [s3|] eqn:E3; [|done]. binds. injection E1 as <- _.
    exact (process_steady got s n false s3 t h o Z0 F Hr Er Ehc Ht Ho Hq I D J ltac:(lia) E3).
  Qed.
  Lemma made_all (s : eng) o : Forall (fun e => e.1.2 = o /\ e.2 = o) (trail s) -> made s = o * Z.of_nat (length (trail s)).
  Proof. unfold made. induction 1 as [|e l [_ H] _ IH]; cbn [foldr length]; [lia|]. rewrite IH, H. lia. Qed.
  (** A real-time stream at a steady ratio delivers an amount that does not depend on the blocks. *)
  Lemma stream_total t l s' a o : sized E m c -> fair RS -> (forall r q, (q == 1)%Q -> (reff RS r q == 1)%Q) -> realTime E = true -> highConsistency E = false ->
    (0 < t)%Q -> (inject_Z o == inject_Z (inhopFor E (t * 1)) * t)%Q -> Forall counts l -> Forall streaming l ->
    run RS E (engine0 RS E (Fin t) (Fin 1)) l = Some (s', a) ->
    a + outFill s' = o * frames (windowSource E) (inhopFor E (t * 1)) (given l).
  Proof.
    intros Z0 F Hr Er Ehc Ht Hq Hc Hs H. set (h := inhopFor E (t * 1)) in *. pose proof (inhop_range E m c (t * 1) Z0) as Hi. fold h in Hi.
    pose proof (engine0_idle RS E m c (Fin t) (Fin 1) Z0) as I0. set (e0 := engine0 RS E (Fin t) (Fin 1)) in *.
    assert (Ho : 1 <= o).
    { assert (0 < inject_Z o)%Q; [|change 0%Q with (inject_Z 0) in *; rewrite <- Zlt_Qlt in *; lia]. rewrite Hq. apply Qmult_lt_0_compat; [|done]. change 0%Q with (inject_Z 0). rewrite <- Zlt_Qlt. lia. }
    assert (He : mode e0 = JustCreated /\ timeRatio e0 = t /\ pitchScale e0 = 1%Q /\ inhop e0 = h /\ calculator e0 = Calculator.Model.create (roundRate E) 1 false).
    { unfold e0, engine0. rewrite Er. unfold calculateHop. rewrite sanitise_same by (done || reflexivity). unfold setRatios. cbn -[inhopFor]. done. }
    destruct He as (V1 & V2 & V3 & V4 & V5). destruct (i_fresh _ _ _ I0 ltac:(by left)) as (B1 & B2 & B3 & B4 & B5 & B6 & B7 & B8 & B9).
    destruct (wss_pos E m c Z0) as (W1 & W2). assert (D0 : drained E e0) by (unfold drained; lia).
    assert (U0 : unpitched e0) by (unfold unpitched; by rewrite V3).
    assert (Hres : resampling E e0 = (false, false)) by (by apply unpitched_calm).
    assert (J0 : steadied t h o e0).
    { unfold steadied. rewrite V2, V3, V4, V5, B3. split; [|done]. split; [done|]. split; [by left|]. split; [done|]. cbn. change (inject_Z 0) with 0%Q. ring. }
    pose proof (run_steady l 0 e0 s' a t h o Z0 F Hr Er Ehc ltac:(lra) Ho Hq Hc Hs I0 D0 J0 H) as (_ & _ & _ & _ & J).
    assert (Fd0 : framed E e0 0). { unfold framed, taken. rewrite B3, B4, B5. split; [lia|]. split; [cbn; lia|]. done. }
    destruct (run_stream RS E m c l 0 e0 s' a 0 Z0 F Er Hc Hs I0 D0 ltac:(by rewrite V1) ltac:(by rewrite Hres) Fd0 H) as [Fd Eh]. rewrite Z.add_0_l in Fd.
    assert (O1 : Forall one_session l) by (eapply Forall_impl; [exact Hs|by intros []]).
    pose proof (run_idle RS E m c l 0 e0 s' a Z0 F Hc O1 I0 H) as I1. pose proof (run_drained RS E m c l 0 e0 s' a Z0 F Hc I0 D0 H) as D1.
    pose proof (framed_frames E m c s' (given l) Z0 (i_ok _ _ _ I1) D1 Fd) as Hf. rewrite Eh, V4 in Hf. rewrite <- Hf, <- made_all by done.
    destruct (run_all RS E m c l 0 e0 s' a Z0 F Er Hc O1 I0 ltac:(split; [done|]; unfold made; by rewrite B1, B3) H) as [A1 A2].
    assert (Np : Forall no_pitch l) by (eapply Forall_impl; [exact Hs|by intros []]).
    destruct (run_calm RS E m c l 0 e0 s' a Z0 F ltac:(done) Hc O1 Np I0 U0 H) as [_ L].
    pose proof (i_account _ _ _ I1) as (_ & _ & A3). specialize (A3 A1). rewrite L, B8 in A3. lia.
  Qed.

  (** Reset: as new, with the ratios in force, but for the sizes of the buffers. *)
  Lemma reset_new s : ok s ->
    reset RS E s = withRes (withOut (withIn (engine0 RS E (Fin (timeRatio s)) (Fin (pitchScale s))) 0 (inSize s)) 0 (outSize s)) (rreset RS <$> res s).
  Proof.
    intros O. unfold reset, engine0, calculateHop. rewrite sanitise_same by (apply (o_t E s O) || apply (o_p E s O)). rewrite (o_cal E s (o_base E s O)).
    unfold setRatios. reflexivity.
  Qed.

  (** Real time: nothing is ever skipped. *)
  Lemma moves_skip s s' : sized E m c -> realTime E = true -> ok s -> startSkip s = 0 -> moves s s' -> startSkip s' = 0.
  Proof.
    intros Z0 Er O A H. induction H as [|x y z M _ IH]; [done|]. destruct (move_out E _ _ Er O A M) as [A' L]. exact (IH (move_ok E m c _ _ Z0 O M) A').
  Qed.
  Lemma run_skip l : forall got s s' a, sized E m c -> fair RS -> realTime E = true -> Forall counts l -> idle E got s -> startSkip s = 0 -> run RS E s l = Some (s', a) -> startSkip s' = 0.
  Proof.
    induction l as [|o l IH]; intros got s s' a Z0 F Er Hc I A H; cbn [run] in H; [by injection H as <- <-|].
    inversion Hc as [|? ? C1 C2]; subst. destruct (step RS E s o) as [[s1 a1]|] eqn:E1; [|done]. binds.
    destruct (run RS E s1 l) as [[s2 a2]|] eqn:E2; [|done]. binds. injection H as <- <-.
    destruct (step_any RS E m c got s o s1 a1 Z0 F C1 I E1) as [got' I']. eapply (IH got' s1); try done.
    destruct o as [x|x|ks|n|n|n|n f|n|]; cbn [step] in E1; try (injection E1 as <- <-; done).
    - injection E1 as <- _. unfold setTimeRatio. destruct (locked E s || same x (timeRatio s)); [done|]. unfold calculateHop. destruct (sanitise _ _). unfold setRatios. by destruct (mode s).
    - injection E1 as <- _. unfold setPitchScale. destruct (locked E s || same x (pitchScale s)); [done|]. unfold calculateHop. destruct (sanitise _ _). unfold setRatios. by destruct (mode s).
    - injection E1 as <- _. unfold setKeyFrameMap. by rewrite Er.
    - injection E1 as <- _. unfold study. by rewrite Er.
    - destruct (process RS E s n f) as [s3|] eqn:E3; [|done]. binds. injection E1 as <- _. destruct I as [O Fr _ _].
      destruct (process_moves RS E m c s n f s3 Z0 F O Fr E3) as [[_ ->]|(_ & s4 & M & ->)]; [done|]. cbn.
      destruct (prepare_spec RS E s) as (_ & P & _). rewrite (P Er) in M. by eapply moves_skip.
  Qed.
  Lemma prepare_taken s : sized E m c -> ok s -> untouched s ->
    taken (prepareOffline RS E s) = taken s + (if realTime E then 0 else match mode s with JustCreated | Studying => windowSource E / 2 | _ => 0 end).
  Proof.
    intros Z0 O Fr. destruct (wss_pos E m c Z0) as (W1 & _). destruct (prepare_spec RS E s) as (P & P1 & P2 & P3). unfold taken. destruct (realTime E) eqn:Er; [rewrite P1 by done; lia|].
    assert (D : isFirst s \/ ~ isFirst s) by (unfold isFirst; destruct (mode s); auto; right; intros [|]; done). destruct D as [D|D].
    - destruct (P3 D eq_refl (Fr D) (o_ins E _ (o_base E _ O)) ltac:(lia)) as (-> & _). destruct P. destruct (Fr D) as (_ & _ & _ & B4 & B5 & _). rewrite p_con, B4, B5.
      destruct D as [->| ->]; lia.
    - rewrite (P2 D). destruct (update_fields E s) as ([] & -> & _). rewrite p_con. unfold isFirst in D. destruct (mode s); [exfalso; apply D; by left|exfalso; apply D; by right|lia..].
  Qed.
End Engine.
