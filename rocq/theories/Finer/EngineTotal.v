(** The finer engine: that every call returns, keeps all its input and drops no output. *)
From stdpp Require Import prelude list numbers.
From Coq Require Import ZArith QArith Qround Lia Lqa.
From Verif Require Import Base.Arith MathMisc.Model Calculator.Spec Finer.GuideModel Finer.GuideProofs Finer.EngineModel Finer.EngineSpec Finer.EngineShape Finer.EngineProofs Finer.EngineSession.
From Verif Require Calculator.Model.
From stdpp Require Import list.
Local Open Scope Z_scope.

Section Engine.
  Context {R : Type} (RS : resampler R) (E : shape) (m c : Z).
  Notation eng := (@eng R).
  Notation ok := (@ok R E). Notation moves := (@moves R E). Notation move := (@move R E).

  (** Nothing is lost while there is no resampling after the stretch. *)
  Definition calm (s : eng) : Prop := (resampling E s).2 = false.
  Lemma resampling_same (s s' : eng) : pitchScale s' = pitchScale s -> (is_Some (res s) <-> is_Some (res s')) -> resampling E s' = resampling E s.
  Proof. intros H1 H2. unfold resampling. rewrite H1. f_equal. by apply bool_decide_ext. Qed.
  Lemma move_calm s s' : ok s -> calm s -> move s s' -> calm s' /\ lost s' = lost s.
  Proof.
    intros O C M. pose proof (move_same E s s' M) as (S1 & S2 & S3 & S4 & S5 & S6 & S7 & S8 & S9 & S10).
    split; [unfold calm; by rewrite (resampling_same s s')|].
    destruct M as [s' ih o count Hih Ho H|r f z H1 H2 H3|k Hk]; [|done..].
    destruct O as [[] Ht Hp Hh]. destruct H. destruct (h_plain C) as [-> _]. destruct h_out as (_ & -> & _).
    pose proof (grown_ge o (outFill s) (outSize s) ltac:(lia) ltac:(lia) ltac:(lia)) as [G1 G2].
    match goal with |- lost s + (?w - _) = _ => assert (W1 : 0 <= w <= o); [|lia] end.
    destruct (realTime E); cbn [negb andb]; [lia|]. specialize (o_target eq_refl).
    destruct (Z.ltb_spec 0 (target s)); cbn [andb]; [|lia]. destruct (Z.ltb_spec (target s) (totalOut s + o)); lia.
  Qed.
  Lemma moves_calm s s' : sized E m c -> ok s -> calm s -> moves s s' -> calm s' /\ lost s' = lost s.
  Proof.
    intros Z0 O C H. induction H as [|x y z M _ IH]; [done|]. destruct (move_calm _ _ O C M) as [C1 L1].
    destruct (IH (move_ok E m c _ _ Z0 O M) C1). split; [done|congruence].
  Qed.
  (** At unity pitch, but for the high-consistency option in real time. *)
  Definition unpitched (s : eng) : Prop := (pitchScale s == 1)%Q.
  Lemma unpitched_calm s : (realTime E = true -> highConsistency E = false) -> unpitched s -> resampling E s = (false, false).
  Proof.
    intros Hc Hu. unfold resampling, areWeResampling. destruct (bool_decide (is_Some (res s))); cbn [negb]; [|done].
    assert (Qeq_bool (pitchScale s) 1 = true) as -> by (by apply Qeq_bool_iff).
    destruct (realTime E); cbn [negb]; [|done]. by rewrite Hc.
  Qed.
  Lemma hop_unpitched s x : unpitched s -> unpitched (calculateHop E s x (Fin (pitchScale s))).
  Proof.
    intros Hu. unfold unpitched in *. unfold calculateHop, sanitise.
    assert (positiveOr1 (Fin (pitchScale s)) = Fin (pitchScale s)) as ->.
    { unfold positiveOr1, notPositive. assert (ltq 0 (pitchScale s) = true) as -> by (apply ltq_true; lra). done. }
    destruct (positiveOr1 x); unfold setRatios; destruct (match mode s with JustCreated => _ | _ => _ end); done.
  Qed.
  Lemma update_unpitched s : unpitched s -> unpitched (updateRatioFromMap E s).
  Proof.
    intros Hu. unfold updateRatioFromMap. destruct (keys s) as [|[k0 v0] ks]; [done|].
    case_match; [by apply hop_unpitched|]. case_match; [|done]. case_match. case_match; [|done]. case_match. by apply hop_unpitched.
  Qed.
  Lemma prepare_unpitched s : unpitched s -> unpitched (prepareOffline RS E s).
  Proof.
    intros O. unfold prepareOffline. destruct (realTime E); [done|].
    set (s0 := match mode s with Studying => _ | JustCreated => _ | _ => s end).
    assert (O0 : unpitched s0) by (unfold s0; destruct (mode s); [destruct (supplied s =? 0)|..]; done).
    pose proof (update_unpitched s0 O0) as P1. set (s1 := updateRatioFromMap E s0) in *.
    destruct (mode s1); try done; (destruct (res s1); [done|]; destruct (Qeq_bool (pitchScale s1) 1); done).
  Qed.
  Lemma step_calm got s o s' a : sized E m c -> fair RS -> (realTime E = true -> highConsistency E = false) -> counts o -> one_session o -> no_pitch o ->
    idle E got s -> unpitched s -> step RS E s o = Some (s', a) -> unpitched s' /\ lost s' = lost s.
  Proof.
    intros Z0 F Hc C N Np [O Fr A G] U H. destruct o as [x|x|ks|n|n|n|n f|n|]; cbn [step] in H; try done; try (injection H as <- <-; done).
    - injection H as <- _. unfold setTimeRatio. destruct (locked E s || same x (timeRatio s)); [done|].
      split; [by apply hop_unpitched|]. by destruct (calculateHop_fields E s x (Fin (pitchScale s))) as (_ & _ & _ & _ & _ & _ & _ & _ & -> & _).
    - injection H as <- _. unfold setKeyFrameMap. destruct (realTime E); [done|]. destruct (mode s); done.
    - injection H as <- _. unfold study. destruct (realTime E); [done|]. destruct (mode s); done.
    - destruct (process RS E s n f) as [s1|] eqn:E1; [|done]. binds. injection H as <- _.
      destruct (process_moves RS E m c s n f s1 Z0 F O Fr E1) as [[_ ->]|(Hm & s2 & M & ->)]; [done|].
      pose proof (prepare_unpitched s U) as U1. pose proof (prepare_ok RS E m c s Z0 O Fr) as O1.
      assert (C1 : calm (prepareOffline RS E s)) by (unfold calm; by rewrite unpitched_calm).
      destruct (moves_calm _ _ Z0 O1 C1 M) as [_ L]. destruct (moves_same E _ _ M) as (_ & S2 & _).
      split; [unfold unpitched in *; cbn; by rewrite S2|]. cbn. rewrite L. by destruct (prepare_spec RS E s) as ([] & _).
  Qed.
  Lemma run_calm l : forall got s s' a, sized E m c -> fair RS -> (realTime E = true -> highConsistency E = false) ->
    Forall counts l -> Forall one_session l -> Forall no_pitch l -> idle E got s -> unpitched s -> run RS E s l = Some (s', a) -> unpitched s' /\ lost s' = lost s.
  Proof.
    induction l as [|o l IH]; intros got s s' a Z0 F Hh Hc Hn Hp I U H; cbn [run] in H; [by injection H as <- <-|].
    inversion Hc as [|? ? C1 C2]; inversion Hn as [|? ? N1 N2]; inversion Hp as [|? ? P1 P2]; subst. destruct (step RS E s o) as [[s1 a1]|] eqn:E1; [|done]. binds.
    destruct (run RS E s1 l) as [[s2 a2]|] eqn:E2; [|done]. binds. injection H as <- <-.
    destruct (step_calm got s o s1 a1 Z0 F Hh C1 N1 P1 I U E1) as [U1 L1].
    destruct (IH (got + a1) s1 s2 a2 Z0 F Hh C2 N2 P2 ltac:(by eapply step_idle) U1 E2). split; [done|congruence].
  Qed.

  (** In real time everything made is delivered or waits. *)
  Definition all_made (s : eng) : Prop := startSkip s = 0 /\ totalOut s = made s.
  Lemma move_all s s' : realTime E = true -> move s s' -> all_made s -> all_made s'.
  Proof.
    intros Er M [A1 A2]. destruct M as [s' ih o count Hih Ho H|r f z H1 H2 H3|k Hk]; [|done..]. destruct H. destruct h_out as (_ & _ & U).
    rewrite Er, A1 in U. cbn [negb andb Z.ltb] in U. destruct U as (_ & U1 & U2). unfold all_made, made in *. rewrite h_trail, U1, U2, A2. cbn [foldr]. cbn. split; [done|lia].
  Qed.
  Lemma moves_all s s' : realTime E = true -> moves s s' -> all_made s -> all_made s'.
  Proof. intros Er H. induction H; [done|]. eauto using move_all. Qed.
  Lemma step_all got s o s' a : sized E m c -> fair RS -> realTime E = true -> counts o -> one_session o -> idle E got s -> all_made s -> step RS E s o = Some (s', a) -> all_made s'.
  Proof.
    intros Z0 F Er C N [O Fr A G] U H. destruct o as [x|x|ks|n|n|n|n f|n|]; cbn [step] in H; try done; try (injection H as <- <-; done).
    - injection H as <- _. unfold setTimeRatio. destruct (locked E s || same x (timeRatio s)); [done|]. unfold all_made, made in *.
      by destruct (calculateHop_fields E s x (Fin (pitchScale s))) as (_ & -> & _ & -> & _ & _ & _ & -> & _).
    - injection H as <- _. unfold setPitchScale. destruct (locked E s || same x (pitchScale s)); [done|]. unfold all_made, made in *.
      by destruct (calculateHop_fields E s (Fin (timeRatio s)) x) as (_ & -> & _ & -> & _ & _ & _ & -> & _).
    - injection H as <- _. unfold setKeyFrameMap. by rewrite Er.
    - injection H as <- _. unfold study. by rewrite Er.
    - destruct (process RS E s n f) as [s1|] eqn:E1; [|done]. binds. injection H as <- _.
      destruct (process_moves RS E m c s n f s1 Z0 F O Fr E1) as [[_ ->]|(Hm & s2 & M & ->)]; [done|].
      destruct (prepare_spec RS E s) as (_ & P & _). rewrite (P Er) in M. exact (moves_all _ _ Er M U).
  Qed.
  Lemma run_all l : forall got s s' a, sized E m c -> fair RS -> realTime E = true ->
    Forall counts l -> Forall one_session l -> idle E got s -> all_made s -> run RS E s l = Some (s', a) -> all_made s'.
  Proof.
    induction l as [|o l IH]; intros got s s' a Z0 F Hh Hc Hn I U H; cbn [run] in H; [by injection H as <- <-|].
    inversion Hc as [|? ? C1 C2]; inversion Hn as [|? ? N1 N2]; subst. destruct (step RS E s o) as [[s1 a1]|] eqn:E1; [|done]. binds.
    destruct (run RS E s1 l) as [[s2 a2]|] eqn:E2; [|done]. binds. injection H as <- <-.
    apply (IH (got + a1) s1 s2 a2 Z0 F Hh C2 N2); [by eapply step_idle| |done]. by eapply step_all.
  Qed.

  (** Every call returns. *)
  Definition left (s : eng) : Z := if inFill s =? 0 then accFill s else inFill s + longestFft E.
  Lemma loop_some fuel : forall s f ih o, sized E m c -> fair RS -> ok s -> 1 <= ih -> 1 <= o <= longestFft E -> left s < Z.of_nat fuel -> is_Some (consumeLoop RS E fuel s f ih o).
  Proof.
    induction fuel as [|fuel IH]; intros s f ih o Z0 F O Hih Ho Hl.
    - unfold left in Hl. destruct O as [[] _ _ _]. destruct (Z.eqb_spec (inFill s) 0); lia.
    - cbn [consumeLoop]. cbv zeta. destruct (wss_pos E m c Z0) as (W1 & W2).
      destruct ((inFill s <? windowSource E) && (negb f || (inFill s =? 0) && (accFill s =? 0))) eqn:Eb; [eauto|].
      destruct (hop_some RS E s f ih o (inFill s) ltac:(lia)) as [s1 E1]. rewrite E1. change (is_Some (consumeLoop RS E fuel s1 f ih o)).
      destruct (hop_spec RS E m c s f ih o s1 F Z0 ltac:(destruct O as [[] _ _ _]; lia) ltac:(lia) E1) as [count H].
      pose proof (move_ok E m c s s1 Z0 O (M_hop E s s1 ih o count Hih ltac:(lia) H)) as O1. apply IH; try done.
      unfold left in *. destruct O as [[] _ _ _]. destruct H. rewrite h_in, h_acc.
      destruct (Z.eqb_spec (inFill s) 0) as [Hz|Hz].
      + rewrite Hz in *. rewrite andb_false_iff in Eb. assert (accFill s <> 0).
        { destruct Eb as [Eb|Eb]; [apply Z.ltb_ge in Eb; lia|]. rewrite orb_false_iff in Eb. destruct Eb as [_ Eb]. by apply Z.eqb_neq. }
        destruct (Z.eqb_spec (0 - 0 `min` ih) 0); lia.
      + destruct (Z.eqb_spec (inFill s - inFill s `min` ih) 0); lia.
  Qed.
  Lemma within_same (s s' : eng) : timeRatio s' = timeRatio s -> pitchScale s' = pitchScale s -> within E s -> within E s'.
  Proof. unfold within, ratioOf. by intros -> ->. Qed.
  Lemma consume_some s f : sized E m c -> fair RS -> ok s -> within E s -> is_Some (consume RS E s f).
  Proof.
    intros Z0 F O W. unfold consume. destruct (outhopFor RS E s) as [o k] eqn:Eo. destruct (outhop_range RS E m c s o k Z0 F O Eo) as (H1 & H2 & _).
    pose proof (outhop_fits RS E m c s o k Z0 F O W Eo) as H3. apply loop_some; try done.
    - eapply move_ok; [exact Z0|exact O|by apply M_calc].
    - destruct O as [? ? ? Hh]. rewrite Hh. by apply (inhop_range E m c).
    - destruct (wss_pos E m c Z0). destruct O as [[] _ _ _]. unfold left. cbn [inFill withCalc accFill]. rewrite Z2Nat.id by lia. destruct (Z.eqb_spec (inFill s) 0); lia.
  Qed.
  Lemma feed_some fuel : forall s b n i f, sized E m c -> fair RS -> ok s -> within E s -> n - i < Z.of_nat fuel -> (0 < fuel)%nat -> is_Some (feed RS E fuel s b n i f).
  Proof.
    induction fuel as [|fuel IH]; intros s b n i f Z0 F O W Hl Hf; [lia|]. pose proof (hop_buffer E m c Z0) as Hb. cbn [feed].
    destruct (Z.leb_spec n i) as [Hni|Hni]; [eauto|]. cbv zeta.
    assert (X0 : exists s0, (if inSize s - inFill s =? 0 then consume RS E s false else Some s) = Some s0 /\ moves s s0).
    { destruct (inSize s - inFill s =? 0); [|exists s; split; [done|apply rtc_refl]]. destruct (consume_some s false Z0 F O W) as [s0 E0]. exists s0. split; [done|]. by eapply consume_moves. }
    destruct X0 as (s0 & -> & M0). binds. pose proof (moves_ok E m c _ _ Z0 O M0) as O0.
    pose proof (moves_same E _ _ M0) as (S1 & S2 & _). pose proof (within_same s s0 S1 S2 W) as W0.
    set (s1 := ensureInbuf s0 (n - i)) in *.
    pose proof (ensureIn_ok E s0 (n - i) O0 ltac:(lia)) as O1. fold s1 in O1.
    assert (Hws : n - i <= inSize s1 - inFill s1).
    { destruct O0 as [[] _ _ _]. pose proof (grown_ge (n - i) (inFill s0) (inSize s0) ltac:(lia) ltac:(lia) ltac:(lia)). cbn. lia. }
    assert (X1 : exists s2 took, (match b, res s1 with
         | true, Some r =>
             let cap := Z.min (inSize s1 - inFill s1) (hopBuffer E) in
             let take := Z.min (n - i) (Qfloor (inject_Z cap * pitchScale s1)) in
             let take := if take =? 0 then 1 else take in
             let '(got, r) := rres RS r cap take (1 / pitchScale s1)%Q (f && (n <=? i + take)) in
             Some (withIn (withRes s1 (Some r)) (inFill s1 + Z.min got (inSize s1 - inFill s1)) (inSize s1), take)
         | _, _ => let take := Z.min (inSize s1 - inFill s1) (n - i) in Some (withIn s1 (inFill s1 + take) (inSize s1), take)
         end) = Some (s2, took) /\ 1 <= took /\ ok s2 /\ timeRatio s2 = timeRatio s1 /\ pitchScale s2 = pitchScale s1).
    { assert (Hplain : ok (withIn s1 (inFill s1 + Z.min (inSize s1 - inFill s1) (n - i)) (inSize s1))).
      { destruct O1 as [[] ? ? ?]. constructor; [constructor; try done; cbn [withIn inFill inSize]; lia|done..]. }
      destruct b; [destruct (res s1) as [r|] eqn:Er|].
      - cbv zeta. set (cap := Z.min (inSize s1 - inFill s1) (hopBuffer E)). set (tk0 := Z.min (n - i) (Qfloor (inject_Z cap * pitchScale s1))).
        assert (Hcap : 0 <= cap) by (unfold cap; lia).
        assert (Htk : 0 <= tk0). { unfold tk0. apply Z.min_glb; [lia|]. apply floor_least. change (inject_Z 0) with 0%Q. apply Qmult_le_0_compat; [|destruct O1; lra]. change 0%Q with (inject_Z 0). by rewrite <- Zle_Qle. }
        set (tk := if tk0 =? 0 then 1 else tk0). assert (1 <= tk) by (unfold tk; destruct (Z.eqb_spec tk0 0); lia).
        pose proof (proj1 F r cap tk (1 / pitchScale s1)%Q (f && (n <=? i + tk)) Hcap ltac:(lia)) as HF.
        destruct (rres RS r cap tk (1 / pitchScale s1)%Q (f && (n <=? i + tk))) as [got r']. cbn [fst] in HF.
        eexists _, _. split; [reflexivity|]. split; [done|]. split; [|done].
        eapply move_ok; [exact Z0|exact O1|]. destruct O1 as [[] ? ? ?]. apply M_in; [lia|done|rewrite Er; split; eauto].
      - eexists _, _. split; [reflexivity|]. split; [lia|]. done.
      - eexists _, _. split; [reflexivity|]. split; [lia|]. done. }
    destruct X1 as (s2 & took & X1 & Ht & O2 & T1 & T2).
    match goal with |- is_Some (?X ≫= _) => replace X with (Some (s2, took)) by (symmetry; exact X1) end. binds.
    assert (W2 : within E s2) by (eapply within_same; [exact T1|exact T2|exact W0]).
    destruct (consume_some s2 (f && (n <=? i + took)) Z0 F O2 W2) as [s3 E3]. rewrite E3. binds.
    pose proof (consume_moves RS E m c _ _ _ Z0 F O2 E3) as M3. pose proof (moves_same E _ _ M3) as (U1 & U2 & _).
    apply IH; try done; [by eapply moves_ok|by eapply within_same|lia|].
    destruct fuel; [|lia]. exfalso. lia.
  Qed.

  Lemma process_some s n f : sized E m c -> fair RS -> ok s -> untouched s -> within E (prepareOffline RS E s) -> 0 <= n -> is_Some (process RS E s n f).
  Proof.
    intros Z0 F O Fr W Hn. pose proof (prepare_ok RS E m c s Z0 O Fr) as O1.
    assert (X : forall n, 0 <= n -> exists s2, (if (n =? 0) && f then consume RS E (prepareOffline RS E s) true
      else feed RS E (Z.to_nat (n + 1)) (prepareOffline RS E s) (resampling E (prepareOffline RS E s)).1 n 0 f) = Some s2).
    { intros k Hk. destruct ((k =? 0) && f); [by destruct (consume_some (prepareOffline RS E s) true Z0 F O1 W); eauto|].
      destruct (feed_some (Z.to_nat (k + 1)) (prepareOffline RS E s) (resampling E (prepareOffline RS E s)).1 k 0 f Z0 F O1 W); [lia|lia|eauto]. }
    unfold process. assert (Hk : 0 <= (if processLimit <? n then processLimit else n)) by (destruct (Z.ltb_spec processLimit n); unfold processLimit in *; lia).
    destruct (X _ Hk) as [s2 X2]. destruct (mode s); cbv zeta; [rewrite X2; binds; eauto..|by eauto].
  Qed.
  Lemma step_some s o : sized E m c -> fair RS -> ok s -> untouched s -> counts o ->
    match o with Process _ _ => within E (prepareOffline RS E s) | _ => True end -> is_Some (step RS E s o).
  Proof.
    intros Z0 F O Fr C W. destruct o; cbn [step]; eauto. destruct (process_some s n final Z0 F O Fr W C) as [s1 ->]. binds. eauto.
  Qed.
  (** Reached states. *)
  Lemma step_any got s o s' a : sized E m c -> fair RS -> counts o -> idle E got s -> step RS E s o = Some (s', a) -> exists got', idle E got' s'.
  Proof.
    intros Z0 F C I H. assert (D : o = Reset \/ one_session o) by (destruct o; auto; by right). destruct D as [->|Hn]; [|exists (got + a); by eapply step_idle].
    exists 0. injection H as <- _. destruct I as [O _ _ _]. pose proof (reset_ok RS E m c s Z0 O) as O'. constructor; [done| | |done].
    - intros _. unfold reset, setRatios. cbn [mode]. done.
    - unfold account, reset, setRatios. cbn [mode]. cbn. split; [lia|]. split; lia.
  Qed.
  Lemma run_any l : forall got s s' a, sized E m c -> fair RS -> Forall counts l -> idle E got s -> run RS E s l = Some (s', a) -> exists got', idle E got' s'.
  Proof.
    induction l as [|o l IH]; intros got s s' a Z0 F Hc I H; cbn [run] in H; [injection H as <- <-; eauto|].
    inversion Hc as [|? ? C1 C2]; subst. destruct (step RS E s o) as [[s1 a1]|] eqn:E1; [|done]. binds.
    destruct (run RS E s1 l) as [[s2 a2]|] eqn:E2; [|done]. binds. injection H as <- <-.
    destruct (step_any got s o s1 a1 Z0 F C1 I E1) as [got' I']. eapply IH; [done|done|done|exact I'|exact E2].
  Qed.
  Lemma reached_idle s : sized E m c -> fair RS -> reached RS E s -> exists got, idle E got s.
  Proof. intros Z0 F (t & p & l & a & C & H). eapply run_any; [done|done|exact C|by apply (engine0_idle RS E m c t p)|exact H]. Qed.
  Lemma run_some l : forall got s, sized E m c -> fair RS -> Forall counts l -> idle E got s -> moderate RS E s l -> is_Some (run RS E s l).
  Proof.
    induction l as [|o l IH]; intros got s Z0 F Hc I Mo; cbn [run]; [eauto|]. destruct Mo as [M1 M2]. inversion Hc as [|? ? C1 C2]; subst.
    destruct (step_some s o Z0 F (i_ok _ _ _ I) (i_fresh _ _ _ I) C1 M1) as [[s1 a1] E1]. rewrite E1. binds.
    destruct (step_any got s o s1 a1 Z0 F C1 I E1) as [got' I']. destruct (IH got' s1 Z0 F C2 I' (M2 _ _ E1)) as [[s2 a2] E2]. rewrite E2. binds. eauto.
  Qed.

  (** The input left after a call is less than a frame. *)
  Lemma loop_exit fuel : forall s f ih o s', consumeLoop RS E fuel s f ih o = Some s' -> inFill s' < windowSource E /\ (f = true -> inFill s' = 0 /\ accFill s' = 0).
  Proof.
    induction fuel as [|fuel IH]; intros s f ih o s' H; [done|]. cbn [consumeLoop] in H. cbv zeta in H.
    destruct ((inFill s <? windowSource E) && (negb f || (inFill s =? 0) && (accFill s =? 0))) eqn:Eb.
    - injection H as <-. apply andb_true_iff in Eb. destruct Eb as [E1 E2]. apply Z.ltb_lt in E1. split; [done|]. intros ->. cbn in E2. apply andb_true_iff in E2. lia.
    - destruct (hop RS E s f ih o (inFill s)) as [s1|]; [|done]. exact (IH s1 f ih o s' H).
  Qed.
  Lemma consume_exit s f s' : consume RS E s f = Some s' -> inFill s' < windowSource E /\ (f = true -> inFill s' = 0 /\ accFill s' = 0).
  Proof. unfold consume. destruct (outhopFor RS E s). apply loop_exit. Qed.
  Lemma feed_exit fuel : forall s b n i f s', feed RS E fuel s b n i f = Some s' -> inFill s < windowSource E -> inFill s' < windowSource E.
  Proof.
    induction fuel as [|fuel IH]; intros s b n i f s' H Hi; [done|]. cbn [feed] in H. destruct (n <=? i); [by injection H as <-|]. cbv zeta in H.
    destruct (if inSize s - inFill s =? 0 then consume RS E s false else Some s) as [s0|]; [|done]. binds.
    match type of H with (?X ≫= _) = _ => destruct X as [[s2 took]|] end; [|done]. binds.
    destruct (consume RS E s2 (f && (n <=? i + took))) as [s3|] eqn:E3; [|done]. binds. eapply IH; [exact H|]. by eapply consume_exit.
  Qed.
  Definition drained (s : eng) : Prop := inFill s < windowSource E.
  Lemma prepare_drained s : sized E m c -> ok s -> untouched s -> drained s -> drained (prepareOffline RS E s).
  Proof.
    intros Z0 O Fr D0. destruct (wss_pos E m c Z0) as [Hw _]. destruct (prepare_spec RS E s) as (P & P1 & P2 & P3). destruct (realTime E) eqn:Er; [by rewrite P1|].
    assert (D : isFirst s \/ ~ isFirst s) by (unfold isFirst; destruct (mode s); auto; right; intros [|]; done).
    unfold drained. destruct D as [D|D].
    - destruct (P3 D eq_refl (Fr D) (o_ins E s (o_base E s O)) ltac:(lia)) as (-> & _). apply Z.div_lt; lia.
    - rewrite (P2 D). destruct (update_fields E s) as (_ & -> & _). done.
  Qed.
  Lemma step_drained got s o s' a : sized E m c -> fair RS -> counts o -> idle E got s -> drained s -> step RS E s o = Some (s', a) -> drained s'.
  Proof.
    intros Z0 F C [O Fr A G] D H. destruct (wss_pos E m c Z0) as [Hw _].
    destruct o as [x|x|ks|n|n|n|n f|n|]; cbn [step] in H; try (injection H as <- <-; done).
    - injection H as <- _. unfold setTimeRatio. destruct (locked E s || same x (timeRatio s)); [done|]. unfold drained.
      by destruct (calculateHop_fields E s x (Fin (pitchScale s))) as (_ & _ & _ & _ & -> & _).
    - injection H as <- _. unfold setPitchScale. destruct (locked E s || same x (pitchScale s)); [done|]. unfold drained.
      by destruct (calculateHop_fields E s (Fin (timeRatio s)) x) as (_ & _ & _ & _ & -> & _).
    - injection H as <- _. unfold setKeyFrameMap. destruct (realTime E); [done|]. destruct (mode s); done.
    - injection H as <- _. unfold study. destruct (realTime E); [done|]. destruct (mode s); done.
    - destruct (process RS E s n f) as [s1|] eqn:E1; [|done]. binds. injection H as <- _. unfold process in E1.
      pose proof (prepare_drained s Z0 O Fr D) as D1.
      destruct (mode s); try (by injection E1 as <-); cbv zeta in E1;
        (match type of E1 with (?X ≫= _) = _ => destruct X as [s2|] eqn:E2 end; [|done]; binds; injection E1 as <-;
         match type of E2 with (if ?b then _ else _) = _ => destruct b end; [by destruct (consume_exit _ _ _ E2)|exact (feed_exit _ _ _ _ _ _ _ E2 D1)]).
    - injection H as <- _. unfold drained, reset, setRatios. cbn [mode]. cbn. lia.
  Qed.
  Lemma run_drained l : forall got s s' a, sized E m c -> fair RS -> Forall counts l -> idle E got s -> drained s -> run RS E s l = Some (s', a) -> drained s'.
  Proof.
    induction l as [|o l IH]; intros got s s' a Z0 F Hc I D H; cbn [run] in H; [by injection H as <- <-|].
    inversion Hc as [|? ? C1 C2]; subst. destruct (step RS E s o) as [[s1 a1]|] eqn:E1; [|done]. binds.
    destruct (run RS E s1 l) as [[s2 a2]|] eqn:E2; [|done]. binds. injection H as <- <-.
    destruct (step_any got s o s1 a1 Z0 F C1 I E1) as [got' I']. eapply IH; [done|done|done|exact I'|exact (step_drained got s o s1 a1 Z0 F C1 I D E1)|exact E2].
  Qed.
  Lemma reached_drained s : sized E m c -> fair RS -> reached RS E s -> drained s.
  Proof.
    intros Z0 F (t & p & l & a & C & H). pose proof (engine0_idle RS E m c t p Z0) as I. eapply run_drained; [done|done|exact C|exact I| |exact H].
    destruct I as [_ Fr _ _]. unfold drained. destruct (wss_pos E m c Z0). destruct (Fr ltac:(left; unfold engine0; match goal with |- mode (calculateHop E ?s t p) = _ => destruct (calculateHop_fields E s t p) as (-> & _) end; done)) as (_ & _ & _ & -> & _). lia.
  Qed.

  (** A block without resampling before goes in whole. *)
  Definition filled (s : eng) (n : Z) : eng := withIn (ensureInbuf s n) (inFill s + n) (grown n (inFill s) (inSize s)).
  Lemma feed_plain k s n f : ok s -> 0 < n -> inFill s < inSize s -> feed RS E (S (S k)) s false n 0 f = consume RS E (filled s n) f.
  Proof.
    intros O Hn Hs. cbn [feed]. destruct (Z.leb_spec n 0); [lia|]. cbv zeta. destruct (Z.eqb_spec (inSize s - inFill s) 0); [lia|]. rewrite Z.sub_0_r. binds.
    pose proof (o_base E s O) as [].
    pose proof (grown_ge n (inFill s) (inSize s) ltac:(lia) ltac:(lia) ltac:(lia)) as [G1 G2].
    cbn [inSize inFill ensureInbuf withIn res]. assert (Z.min (grown n (inFill s) (inSize s) - inFill s) n = n) as -> by lia.
    rewrite Z.add_0_l, Z.leb_refl, andb_true_r. change (withIn (ensureInbuf s n) (inFill s + n) (grown n (inFill s) (inSize s))) with (filled s n).
    destruct (consume RS E (filled s n) f); done.
  Qed.
  Lemma filled_ok s n : ok s -> 0 <= n -> ok (filled s n).
  Proof.
    intros O Hn. pose proof (o_base E s O) as []. pose proof (grown_ge n (inFill s) (inSize s) ltac:(lia) ltac:(lia) ltac:(lia)) as [G1 G2].
    destruct O as [[] ? ? ?]. constructor; [constructor; cbn -[grown]; try done; lia|done..].
  Qed.
  (** Samples taken in so far. *)
  Definition taken (s : eng) : Z := consumed s + inFill s.
  Lemma loop_taken fuel : forall s f ih o s', sized E m c -> fair RS -> ok s -> 1 <= ih -> 1 <= o -> consumeLoop RS E fuel s f ih o = Some s' -> taken s' = taken s.
  Proof.
    induction fuel as [|fuel IH]; intros s f ih o s' Z0 F O Hih Ho H; [done|]. cbn [consumeLoop] in H. cbv zeta in H.
    match type of H with (if ?b then _ else _) = _ => destruct b end; [by injection H as <-|].
    destruct (hop RS E s f ih o (inFill s)) as [s1|] eqn:E1; [|done]. binds.
    destruct (hop_spec RS E m c s f ih o s1 F Z0 ltac:(destruct (o_base _ _ O); lia) ltac:(lia) E1) as [count Hc].
    pose proof (M_hop E s s1 ih o count Hih Ho Hc) as M. rewrite (IH s1 f ih o s' Z0 F (move_ok E m c _ _ Z0 O M) Hih Ho H). destruct Hc. unfold taken. lia.
  Qed.
  Lemma consume_taken s f s' : sized E m c -> fair RS -> ok s -> consume RS E s f = Some s' -> taken s' = taken s.
  Proof.
    intros Z0 F O H. unfold consume in H. destruct (outhopFor RS E s) as [o k] eqn:Eo. destruct (outhop_range RS E m c s o k Z0 F O Eo) as (H1 & H2 & _).
    assert (M : move s (withCalc s k)) by (by apply M_calc).
    assert (Hi : 1 <= inhop s) by (destruct O as [? ? ? Hh]; rewrite Hh; by apply (inhop_range E m c)).
    rewrite (loop_taken _ _ _ _ _ _ Z0 F (move_ok E m c _ _ Z0 O M) Hi H1 H). done.
  Qed.
  Lemma process_taken s n f s' : sized E m c -> fair RS -> ok s -> untouched s -> drained s -> mode s <> Finished -> (resampling E (prepareOffline RS E s)).1 = false ->
    0 <= n <= 524288 -> process RS E s n f = Some s' -> taken s' = taken (prepareOffline RS E s) + n /\ (f = true -> inFill s' = 0).
  Proof.
    intros Z0 F O Fr D Hm Hr Hn H. pose proof (prepare_ok RS E m c s Z0 O Fr) as O1. pose proof (prepare_drained s Z0 O Fr D) as D1. destruct (wss_pos E m c Z0) as [Hw _].
    assert (X : forall s2, (if (n =? 0) && f then consume RS E (prepareOffline RS E s) true
      else feed RS E (Z.to_nat (n + 1)) (prepareOffline RS E s) (resampling E (prepareOffline RS E s)).1 n 0 f) = Some s2 ->
      taken s2 = taken (prepareOffline RS E s) + n /\ (f = true -> inFill s2 = 0)).
    { intros s2 Hs. rewrite Hr in Hs. destruct (Z.eqb_spec n 0) as [->|Hz].
      - destruct f; cbn [andb] in Hs.
        + split; [rewrite (consume_taken _ _ _ Z0 F O1 Hs); lia|]. intros _. by apply (consume_exit _ _ _ Hs).
        + injection Hs as <-. split; [lia|done].
      - cbn [andb] in Hs. replace (Z.to_nat (n + 1)) with (S (S (Z.to_nat (n - 1)))) in Hs by lia.
        rewrite feed_plain in Hs; [|done|lia|].
        + split; [rewrite (consume_taken _ _ _ Z0 F (filled_ok _ n O1 ltac:(lia)) Hs); unfold taken; cbn; lia|]. intros ->. by apply (consume_exit _ _ _ Hs).
        + pose proof (o_ins E _ (o_base E _ O1)). unfold drained in D1. lia. }
    unfold process in H. destruct (Z.ltb_spec processLimit n); [unfold processLimit in *; lia|].
    destruct (mode s); try done; cbv zeta in H; (match type of H with (?X ≫= _) = _ => destruct X as [s2|] eqn:E2 end; [|done]; binds; injection H as <-; exact (X s2 eq_refl)).
  Qed.
End Engine.
