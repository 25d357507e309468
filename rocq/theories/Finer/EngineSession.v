(** Sessions with the finer engine: what is delivered. *)
From stdpp Require Import prelude list numbers.
From Coq Require Import ZArith QArith Qround Lia Lqa.
From Verif Require Import Base.Arith MathMisc.Model Finer.GuideModel Finer.GuideProofs Finer.EngineModel Finer.EngineSpec Finer.EngineShape Finer.EngineProofs.
From Verif Require Calculator.Model.
From stdpp Require Import list.
Local Open Scope Z_scope.

Section Engine.
  Context {R : Type} (RS : resampler R) (E : shape) (m c : Z).
  Notation eng := (@eng R).
  Notation ok := (@ok R E). Notation moves := (@moves R E). Notation move := (@move R E).

  Definition isFirst (s : eng) : Prop := mode s = JustCreated \/ mode s = Studying.
  Definition blank (s : eng) : Prop :=
    totalOut s = 0 /\ outFill s = 0 /\ trail s = [] /\ inFill s = 0 /\ consumed s = 0 /\ accFill s = 0 /\ startSkip s = 0 /\ lost s = 0 /\ target s = 0.
  Definition untouched (s : eng) : Prop := isFirst s -> blank s.

  (** What the preparation of the first block does. *)
  Record prepared (s s' : eng) : Prop := Prepared {

    p_mode : mode s' = mode s; p_out : outFill s' = outFill s; p_outs : outSize s' = outSize s; p_lost : lost s' = lost s;
    p_trail : trail s' = trail s; p_total : totalOut s' = totalOut s; p_con : consumed s' = consumed s; p_acc : accFill s' = accFill s;
    p_keys : keys s' = keys s
  }.
  Lemma update_fields s : prepared s (updateRatioFromMap E s) /\ inFill (updateRatioFromMap E s) = inFill s /\ inSize (updateRatioFromMap E s) = inSize s /\
    startSkip (updateRatioFromMap E s) = startSkip s /\ target (updateRatioFromMap E s) = target s /\ res (updateRatioFromMap E s) = res s /\
    (keys s = [] -> updateRatioFromMap E s = s) /\ calculator (updateRatioFromMap E s) = calculator s.
  Proof.
    assert (H : forall q k, let s' := withLastKey (calculateHop E s q (Fin (pitchScale s))) k in
      prepared s s' /\ inFill s' = inFill s /\ inSize s' = inSize s /\ startSkip s' = startSkip s /\ target s' = target s /\ res s' = res s /\ calculator s' = calculator s).
    { intros q k. unfold calculateHop. destruct (sanitise q (Fin (pitchScale s))) as [t p]. unfold setRatios.
      destruct (match mode s with JustCreated => _ | _ => _ end). cbn. split; [by constructor|]. done. }
    unfold updateRatioFromMap. destruct (keys s) as [|[k0 v0] ks] eqn:Ek; [split; [by constructor|done]|].
    assert (G : forall q k, let s' := withLastKey (calculateHop E s q (Fin (pitchScale s))) k in
      prepared s s' /\ inFill s' = inFill s /\ inSize s' = inSize s /\ startSkip s' = startSkip s /\ target s' = target s /\ res s' = res s /\
      ((k0, v0) :: ks = [] -> s' = s) /\ calculator s' = calculator s).
    { intros q k. destruct (H q k) as (H1 & H2 & H3 & H4 & H5 & H6 & H7). do 6 (split; [done|]). split; [done|]. done. }
    case_match; [apply G|]. case_match; [|split; [by constructor|done]]. case_match. case_match; [|split; [by constructor|done]]. case_match. apply G.
  Qed.
  Lemma prepare_spec s : prepared s (prepareOffline RS E s) /\
    (realTime E = true -> prepareOffline RS E s = s) /\
    (~ isFirst s -> prepareOffline RS E s = if realTime E then s else updateRatioFromMap E s) /\
    (isFirst s -> realTime E = false -> blank s -> 16 * windowSource E <= inSize s -> 0 <= windowSource E ->
      let s' := prepareOffline RS E s in
      inFill s' = windowSource E / 2 /\ inSize s <= inSize s' /\ inFill s' <= inSize s' /\
      startSkip s' = cround (inject_Z (windowSource E / 2) / pitchScale s') /\ (is_Some (res s') \/ (pitchScale s' == 1)%Q) /\
      calculator s' = calculator s /\
      (is_Some (res s) -> is_Some (res s')) /\ (res s = None -> Qeq_bool (pitchScale s') 1 = true -> res s' = None) /\
      target s' = aim s).
  Proof.
    unfold prepareOffline. destruct (realTime E) eqn:Er. { split; [by constructor|]. split; [done|]. split; [done|]. done. }
    set (s0 := match mode s with Studying => _ | JustCreated => _ | _ => s end).
    destruct (update_fields s0) as (P & Q1 & Q2 & Q3 & Q4 & Q5 & Q6 & Q7). destruct P.
    assert (P0 : prepared s s0 /\ inFill s0 = inFill s /\ inSize s0 = inSize s /\ startSkip s0 = startSkip s /\ res s0 = res s /\ calculator s0 = calculator s).
    { unfold s0. destruct (mode s); [destruct (supplied s =? 0)|..]; (split; [by constructor|done]). }
    destruct P0 as ([] & R1 & R2 & R3 & R4 & R5).
    set (s1 := updateRatioFromMap E s0) in *.
    assert (Hm : mode s1 = mode s) by congruence. rewrite Hm.
    set (s2 := match res s1 with None => if Qeq_bool (pitchScale s1) 1 then s1 else withRes s1 (Some (rnew RS)) | _ => s1 end).
    assert (H2 : prepared s1 s2 /\ inFill s2 = inFill s1 /\ inSize s2 = inSize s1 /\ pitchScale s2 = pitchScale s1 /\ target s2 = target s1 /\ calculator s2 = calculator s1 /\
      (is_Some (res s2) \/ (pitchScale s1 == 1)%Q) /\ (is_Some (res s1) -> is_Some (res s2)) /\ (res s1 = None -> Qeq_bool (pitchScale s1) 1 = true -> res s2 = None)).
    { unfold s2. destruct (res s1) eqn:E1; [rewrite E1; split; [by constructor|]; do 5 (split; [done|]); split; [left; eauto|]; split; [done|congruence]|].
      destruct (Qeq_bool (pitchScale s1) 1) eqn:E2.
      - split; [by constructor|]. do 5 (split; [done|]). split; [right; by apply Qeq_bool_iff|]. rewrite E1. split; [done|done].
      - split; [by constructor|]. do 5 (split; [done|]). split; [left; cbn; eauto|]. split; [cbn; eauto|done]. }
    destruct H2 as ([] & T1 & T2 & T3 & T4 & T5 & T6 & T7 & T8).
    split; [|split; [done|split]].
    - destruct (mode s) eqn:Em; constructor; cbn; congruence.
    - intros Hn. unfold s1, s0. destruct (mode s) eqn:Em; try reflexivity; exfalso; apply Hn; unfold isFirst; rewrite Em; auto.
    - intros Hf _ (B1 & B2 & B3 & B4 & B5 & B6 & B7 & B8 & B9) Hsz Hw. cbv zeta.
      assert (Hpad : 0 <= windowSource E / 2 <= windowSource E) by (split; [apply Z.div_pos; lia|apply Z.div_le_upper_bound; lia]).
      assert (Hg : inSize s2 <= grown (windowSource E / 2) (inFill s2) (inSize s2) /\ inFill s2 + windowSource E / 2 <= grown (windowSource E / 2) (inFill s2) (inSize s2)).
      { apply grown_ge; rewrite ?T1, ?T2, ?Q1, ?Q2, ?R1, ?R2; lia. }
      assert (Hin : inFill s2 = 0) by (rewrite T1, Q1, R1; done).
      assert (Htar : target s1 = aim s).
      { rewrite Q4. unfold s0, aim. destruct Hf as [Hf|Hf]; rewrite Hf; cbn -[cround]; [|done]. destruct (Z.eqb_spec (supplied s) 0) as [Hz|]; [|done]. rewrite Hz, B9. symmetry. apply (cround_is _ 0); change (inject_Z 0) with 0%Q; rewrite Qmult_0_l; try reflexivity; discriminate. }
      destruct Hf as [Hf|Hf]; rewrite Hf; cbn -[Z.min grown cround Z.div]; rewrite Hin in *;
        (split; [lia|]; split; [rewrite <- R2, <- Q2, <- T2; lia|]; split; [lia|]; split; [by rewrite T3|]; split; [by rewrite T3|]; split; [congruence|];
         split; [intros Hr; apply T7; rewrite Q5, R4; done|]; split; [intros Hr; rewrite T3; apply T8; by rewrite Q5, R4|]; rewrite T4, Htar; done).
  Qed.
  Definition rat (s : eng) : Prop := (0 < timeRatio s)%Q /\ (0 < pitchScale s)%Q /\ inhop s = inhopFor E (ratioOf s).
  Lemma update_rat s : rat s -> rat (updateRatioFromMap E s).
  Proof.
    intros O. unfold updateRatioFromMap. destruct (keys s) as [|[k0 v0] ks]; [done|].
    assert (G : forall q k, rat (withLastKey (calculateHop E s q (Fin (pitchScale s))) k)).
    { intros q k. unfold calculateHop. destruct (sanitise_pos q (Fin (pitchScale s))) as [H1 H2]. destruct (sanitise q (Fin (pitchScale s))).
      unfold setRatios. destruct (match mode s with JustCreated => _ | _ => _ end). split_and!; done. }
    case_match; [apply G|]. case_match; [|done]. case_match. case_match; [|done]. case_match. apply G.
  Qed.
  Lemma prepare_rat s : rat s -> rat (prepareOffline RS E s).
  Proof.
    intros O. unfold prepareOffline. destruct (realTime E); [done|].
    set (s0 := match mode s with Studying => _ | JustCreated => _ | _ => s end).
    assert (O0 : rat s0) by (unfold s0; destruct (mode s); [destruct (supplied s =? 0)|..]; done).
    pose proof (update_rat s0 O0) as O1. set (s1 := updateRatioFromMap E s0) in *.
    destruct (mode s1); try done; (destruct (res s1); [done|]; destruct (Qeq_bool (pitchScale s1) 1); done).
  Qed.
  Lemma prepare_ok s : sized E m c -> ok s -> untouched s -> ok (prepareOffline RS E s).
  Proof.
    intros Z0 O Fr. destruct (wss_pos E m c Z0) as [Hw _]. destruct (prepare_spec s) as (P & P1 & P2 & P3).
    destruct (realTime E) eqn:Er; [by rewrite P1|].
    assert (D : isFirst s \/ ~ isFirst s) by (unfold isFirst; destruct (mode s); auto; right; intros [|]; done).
    destruct D as [D|D]; [|rewrite P2 by done; by apply updateRatio_ok].
    destruct O as [[] Ot Op Oh]. pose proof (Fr D) as B.
    destruct (P3 D eq_refl B o_ins ltac:(lia)) as (A1 & A2 & A3 & A4 & A5 & A6 & A7 & A8 & A9). destruct B as (B1 & B2 & B3 & B4 & B5 & B6 & B7 & B8 & B9). destruct P.
    pose proof (prepare_rat s (conj Ot (conj Op Oh))) as (T1 & T2 & T3).
    assert (Hsk : 0 <= cround (inject_Z (windowSource E / 2) / pitchScale (prepareOffline RS E s))).
    { apply cround_nonneg. apply Qlt_le_trans with 0%Q; [reflexivity|]. apply Qle_shift_div_l; [done|]. rewrite Qmult_0_l. change 0%Q with (inject_Z 0). rewrite <- Zle_Qle. apply Z.div_pos; lia. }
    pose proof (Z.div_pos (windowSource E) 2 ltac:(lia) ltac:(lia)).
    constructor; [constructor|done..]; rewrite ?p_out0, ?p_outs0, ?p_acc0, ?p_con0, ?p_total0, ?A6; try lia; try done.
  Qed.

  Lemma process_moves s n f s' : sized E m c -> fair RS -> ok s -> untouched s -> process RS E s n f = Some s' ->
    (mode s = Finished /\ s' = s) \/
    (mode s <> Finished /\ exists s2, moves (prepareOffline RS E s) s2 /\ s' = withMode s2 (if f then Finished else Processing)).
  Proof.
    intros Z0 F O Fr H. unfold process in H. destruct (mode s) eqn:Em; try (injection H as <-; by left); right; (split; [done|]);
      (match type of H with (?X ≫= _) = _ => destruct X as [s2|] eqn:E2 end; [|done]; binds; injection H as <-; exists s2; split; [|done];
       pose proof (prepare_ok s Z0 O Fr) as O1;
       match type of E2 with (if ?b then _ else _) = _ => destruct b end; [by eapply consume_moves|by eapply feed_moves]).
  Qed.
  Lemma withMode_ok s k : ok s -> ok (withMode s k).
  Proof. intros [[] ? ? ?]. constructor; [by constructor|done..]. Qed.

  (** Everything that left the engine was delivered, waits or was lost. *)
  Definition account (got : Z) (s : eng) : Prop :=
    0 <= lost s /\ (0 < startSkip s -> got = 0 /\ lost s = 0) /\ (startSkip s = 0 -> got + outFill s + lost s = totalOut s).
  (** All the frames made, less those skipped, cut at the target. *)
  Definition exact (skip0 : Z) (s : eng) : Prop :=
    (0 < startSkip s -> made s + startSkip s = skip0) /\
    (startSkip s = 0 -> skip0 <= made s /\ totalOut s = (if realTime E then made s - skip0 else cut (target s) (made s - skip0))).
  Notation whole := (@whole R E).

  Lemma move_account got s s' : sized E m c -> ok s -> move s s' -> account got s -> account got s'.
  Proof.
    intros Z0 O M A. destruct M as [s' ih o count Hih Ho H|r f z H1 H2 H3|k Hk]; [|done..].
    destruct O as [[] Ht Hp Hh]. destruct H. destruct A as (A1 & A2 & A3). destruct h_out as (U1 & U2 & U3).
    pose proof (hop_buffer E m c Z0) as Hb.
    pose proof (grown_ge o (outFill s) (outSize s) ltac:(lia) ltac:(lia) ltac:(lia)) as [G1 G2].
    set (wc := if negb (realTime E) && (0 <? target s) && (target s <? totalOut s + count) then target s - totalOut s else count) in *.
    set (size := grown o (outFill s) (outSize s)) in *.
    assert (W1 : 0 <= wc <= count).
    { unfold wc. destruct (realTime E); cbn [negb andb]; [lia|]. specialize (o_target eq_refl).
      destruct (Z.ltb_spec 0 (target s)); cbn [andb]; [|lia]. destruct (Z.ltb_spec (target s) (totalOut s + count)); lia. }
    destruct (Z.ltb_spec 0 (startSkip s)) as [Hs|Hs].
    - destruct (o_wait Hs) as [Wa Wb]. destruct (A2 Hs) as [-> Al]. destruct U3 as (U3 & U4 & U5).
      assert (wc <= size) by lia. unfold account. rewrite U2, U3, U4, U5, Wa. split; [lia|]. split; lia.
    - destruct U3 as (U3 & U4 & U5). assert (Hs0 : startSkip s = 0) by lia. specialize (A3 Hs0). unfold account. rewrite U2, U3, U4, U5. split; [lia|]. split; lia.
  Qed.
  Lemma move_whole s s' : move s s' -> whole s' -> whole s.
  Proof.
    intros M W. destruct M as [s' ih o count Hih Ho H|r f z H1 H2 H3|k Hk]; [|done..]. destruct H. destruct h_same as (_ & _ & _ & _ & _ & S6 & _).
    unfold whole in *. rewrite S6, h_trail in W. destruct W as [W|[W|W]]; auto. right; right. by inversion W.
  Qed.
  Lemma move_exact skip0 s s' : sized E m c -> ok s -> move s s' -> whole s' -> exact skip0 s -> exact skip0 s'.
  Proof.
    intros Z0 O M W A. destruct M as [s' ih o count Hih Ho H|r f z H1 H2 H3|k Hk]; [|done..].
    destruct O as [[] Ht Hp Hh]. destruct H. destruct A as (A1 & A2). destruct h_out as (U1 & U2 & U3). destruct h_same as (_ & _ & _ & _ & _ & S6 & _).
    pose proof (hop_buffer E m c Z0) as Hb.
    pose proof (grown_ge o (outFill s) (outSize s) ltac:(lia) ltac:(lia) ltac:(lia)) as [G1 G2].
    assert (Hm : made s' = count + made s) by (unfold made; by rewrite h_trail).
    assert (Hc : realTime E = true \/ target s = 0 \/ count <= target s).
    { unfold whole in W. rewrite S6, h_trail in W. destruct W as [W|[W|W]]; auto. right; right. by inversion W. }
    set (wc := if negb (realTime E) && (0 <? target s) && (target s <? totalOut s + count) then target s - totalOut s else count) in *.
    set (size := grown o (outFill s) (outSize s)) in *.
    assert (W1 : 0 <= wc <= count).
    { unfold wc. destruct (realTime E); cbn [negb andb]; [lia|]. specialize (o_target eq_refl).
      destruct (Z.ltb_spec 0 (target s)); cbn [andb]; [|lia]. destruct (Z.ltb_spec (target s) (totalOut s + count)); lia. }
    destruct (Z.ltb_spec 0 (startSkip s)) as [Hs|Hs].
    - destruct (o_wait Hs) as [Wa Wb]. specialize (A1 Hs). destruct U3 as (U3 & U4 & U5).
      assert (Hwc : wc = count).
      { unfold wc. rewrite Wb. destruct (realTime E); cbn [negb andb]; [done|]. destruct Hc as [?|Hc]; [done|].
        destruct (Z.ltb_spec 0 (target s)); cbn [andb]; [|lia]. destruct (Z.ltb_spec (target s) (0 + count)); lia. }
      assert (wc <= size) by lia. rewrite Wa, Hwc in *. unfold exact. rewrite U4, U5, Hm, S6. split; [lia|].
      intros Hz. split; [lia|]. unfold cut. destruct (realTime E); [lia|]. destruct Hc as [?|Hc]; [done|]. destruct (Z.ltb_spec 0 (target s)); lia.
    - destruct U3 as (U3 & U4 & U5). assert (Hs0 : startSkip s = 0) by lia. destruct (A2 Hs0) as [A3 A4]. unfold exact. rewrite U4, U5, Hm, S6. split; [lia|].
      intros _. split; [lia|]. unfold cut, wc in *. destruct (realTime E); cbn [negb andb]; [lia|].
      destruct (Z.ltb_spec 0 (target s)); cbn [andb]; [|lia]. destruct (Z.ltb_spec (target s) (totalOut s + count)); lia.
  Qed.
  Lemma moves_account got s s' : sized E m c -> ok s -> moves s s' -> account got s -> account got s'.
  Proof. intros Z0 O H. induction H; [done|]. eauto using move_ok, move_account. Qed.
  Lemma moves_whole s s' : moves s s' -> whole s' -> whole s.
  Proof. intros H. induction H; [done|]. eauto using move_whole. Qed.
  Lemma moves_exact skip0 s s' : sized E m c -> ok s -> moves s s' -> whole s' -> exact skip0 s -> exact skip0 s'.
  Proof.
    intros Z0 O H. induction H as [|x y z M M' IH]; [done|]. intros W A. apply IH; [by eapply move_ok|done|].
    eapply move_exact; [done|exact O|exact M| |done]. by eapply moves_whole.
  Qed.

  (** Between calls. *)
  Record idle (got : Z) (s : eng) : Prop := Idle { i_ok : ok s; i_fresh : untouched s; i_account : account got s; i_first : isFirst s -> got = 0 }.
  Lemma calculateHop_fields (s : eng) t p : let s' := calculateHop E s t p in
    mode s' = mode s /\ totalOut s' = totalOut s /\ outFill s' = outFill s /\ trail s' = trail s /\ inFill s' = inFill s /\ consumed s' = consumed s /\
    accFill s' = accFill s /\ startSkip s' = startSkip s /\ lost s' = lost s /\ target s' = target s /\ keys s' = keys s /\ res s' = res s.
  Proof. unfold calculateHop. destruct (sanitise t p). unfold setRatios. destruct (match mode s with JustCreated => _ | _ => _ end). done. Qed.
  Lemma step_idle got s o s' a : sized E m c -> fair RS -> counts o -> one_session o -> idle got s -> step RS E s o = Some (s', a) -> idle (got + a) s'.
  Proof.
    intros Z0 F C N [O Fr A G] H. destruct o as [x|x|ks|n|n|n|n f|n|]; cbn [step] in H; try (injection H as <- <-; rewrite Z.add_0_r).
    - unfold setTimeRatio. destruct (locked E s || same x (timeRatio s)); [done|].
      destruct (calculateHop_fields s x (Fin (pitchScale s))) as (C1 & C2 & C3 & C4 & C5 & C6 & C7 & C8 & C9 & C10 & _).
      constructor; [apply calculateHop_ok; by destruct O|..]; unfold untouched, isFirst, blank, account in *; rewrite ?C1, ?C2, ?C3, ?C4, ?C5, ?C6, ?C7, ?C8, ?C9, ?C10; done.
    - unfold setPitchScale. destruct (locked E s || same x (pitchScale s)); [done|].
      destruct (calculateHop_fields s (Fin (timeRatio s)) x) as (C1 & C2 & C3 & C4 & C5 & C6 & C7 & C8 & C9 & C10 & _).
      constructor; [apply calculateHop_ok; by destruct O|..]; unfold untouched, isFirst, blank, account in *; rewrite ?C1, ?C2, ?C3, ?C4, ?C5, ?C6, ?C7, ?C8, ?C9, ?C10; done.
    - unfold setKeyFrameMap. destruct (realTime E); [done|]. destruct (mode s) eqn:Em; try done;
        (constructor; [destruct O as [[] ? ? ?]; constructor; [by constructor|done..]|done..]).
    - pose proof (study_ok E s n O) as O'. unfold study in *. destruct (realTime E); [done|]. destruct (mode s) eqn:Em; try done.
      constructor; [done| |done|]; [intros _; apply Fr; by left|intros _; apply G; by left].
    - constructor; [|done..]. destruct O as [[] ? ? ?]. constructor; [by constructor|done..].
    - unfold setMaxProcessSize. constructor; [|done..]. cbn in C. apply ensureOut_ok; [apply ensureIn_ok; [done|]|]; destruct (Z.ltb_spec processLimit n); unfold processLimit in *; lia.
    - destruct (process RS E s n f) as [s1|] eqn:E1; [|done]. binds. injection H as <- <-. rewrite Z.add_0_r.
      destruct (process_moves s n f s1 Z0 F O Fr E1) as [[_ ->]|(Hm & s2 & M & ->)]; [done|].
      pose proof (prepare_ok s Z0 O Fr) as O1. pose proof (moves_ok E m c _ _ Z0 O1 M) as O2.
      assert (A1 : account got (prepareOffline RS E s)).
      { destruct (prepare_spec s) as (P & P1 & P2 & P3). destruct (realTime E) eqn:Er; [by rewrite P1|].
        assert (D : isFirst s \/ ~ isFirst s) by (unfold isFirst; destruct (mode s); auto; right; intros [|]; done).
        destruct D as [D|D].
        - destruct P. destruct (Fr D) as (B1 & B2 & B3 & B4 & B5 & B6 & B7 & B8 & B9). unfold account. rewrite p_lost0, p_out0, p_total0, B8, B2, B1, (G D). split; [lia|]. split; lia.
        - rewrite (P2 D). destruct (update_fields s) as ([] & _ & _ & Q3 & _). unfold account in *. by rewrite p_lost0, p_out0, p_total0, Q3. }
      pose proof (moves_account got _ _ Z0 O1 M A1) as A2.
      constructor; [by apply withMode_ok| |done|]; intros [Hx|Hx]; destruct f; done.
    - injection H as <- <-. cbn in C. destruct O as [[] ? ? ?]. destruct A as (A1 & A2 & A3). constructor.
      + constructor; [constructor; cbn -[Z.min]; try done; lia|done..].
      + intros D. destruct (Fr D) as (B1 & B2 & B3 & B4 & B5 & B6 & B7 & B8 & B9). unfold blank. cbn -[Z.min]. split_and!; try done; lia.
      + unfold account. cbn -[Z.min]. split; [lia|]. split; [|lia]. intros Hs. destruct (o_wait Hs). destruct (A2 Hs). lia.
      + intros D. specialize (G D). destruct (Fr D) as (B1 & B2 & _). lia.
    - done.
  Qed.
  Lemma run_idle l : forall got s s' a, sized E m c -> fair RS -> Forall counts l -> Forall one_session l -> idle got s -> run RS E s l = Some (s', a) -> idle (got + a) s'.
  Proof.
    induction l as [|o l IH]; intros got s s' a Z0 F Hc Hn I H; cbn [run] in H; [injection H as <- <-; by rewrite Z.add_0_r|].
    inversion Hc as [|? ? C1 C2]; inversion Hn as [|? ? N1 N2]; subst. destruct (step RS E s o) as [[s1 a1]|] eqn:E1; [|done]. binds.
    destruct (run RS E s1 l) as [[s2 a2]|] eqn:E2; [|done]. binds. injection H as <- <-. rewrite Z.add_assoc.
    eapply IH; [done..| |exact E2]. by eapply step_idle.
  Qed.
  Lemma engine0_idle t p : sized E m c -> idle 0 (engine0 RS E t p).
  Proof.
    intros Z0. pose proof (engine0_ok RS E m c t p Z0) as O.
    assert (B : blank (engine0 RS E t p)).
    { unfold engine0. match goal with |- blank (calculateHop E ?s t p) => destruct (calculateHop_fields s t p) as (C1 & C2 & C3 & C4 & C5 & C6 & C7 & C8 & C9 & C10 & _) end.
      unfold blank. rewrite C2, C3, C4, C5, C6, C7, C8, C9, C10. done. }
    constructor; [done|by intros _| |done]. destruct B as (B1 & B2 & B3 & B4 & B5 & B6 & B7 & B8 & B9). unfold account. rewrite B1, B2, B7, B8. split; lia.
  Qed.

  (** The whole offline session. *)
  Lemma update_pitch s : rat s -> starts s -> pitchScale (updateRatioFromMap E s) = pitchScale s.
  Proof.
    intros (_ & Hp & _) K. unfold updateRatioFromMap, starts in *. destruct (keys s) as [|[k0 v0] ks]; [done|].
    assert (G : forall a b k, b <> 0 -> pitchScale (withLastKey (calculateHop E s (quotient a b) (Fin (pitchScale s))) k) = pitchScale s).
    { intros a b k Hb. unfold calculateHop, quotient. destruct (Z.eqb_spec b 0); [done|]. unfold sanitise.
      assert (positiveOr1 (Fin (pitchScale s)) = Fin (pitchScale s)) as ->. { unfold positiveOr1, notPositive. apply ltq_true in Hp. by rewrite Hp. }
      destruct (positiveOr1 (Fin (inject_Z a / inject_Z b))) eqn:Ep.
      - unfold setRatios. by destruct (match mode s with JustCreated => _ | _ => _ end).
      - unfold positiveOr1 in Ep. by destruct (notPositive (Fin (inject_Z a / inject_Z b))).
      - unfold positiveOr1 in Ep. by destruct (notPositive (Fin (inject_Z a / inject_Z b))). }
    case_match; [by apply G|]. case_match; [|done]. case_match. case_match; [|done].
    destruct (match upper_bound (consumed s) ((k0, v0) :: ks) with Some e => e | None => (studied s, target s) end) as [a1 b1].
    destruct (Z.ltb_spec z a1); [apply G; lia|].
    unfold calculateHop, sanitise. assert (positiveOr1 (Fin (pitchScale s)) = Fin (pitchScale s)) as ->. { unfold positiveOr1, notPositive. apply ltq_true in Hp. by rewrite Hp. }
    change (positiveOr1 (Fin 1)) with (Fin 1). unfold setRatios. by destruct (match mode s with JustCreated => _ | _ => _ end).
  Qed.
  Lemma prepare_pitch s : rat s -> starts s -> pitchScale (prepareOffline RS E s) = pitchScale s.
  Proof.
    intros O K. unfold prepareOffline. destruct (realTime E); [done|].
    set (s0 := match mode s with Studying => _ | JustCreated => _ | _ => s end).
    assert (O0 : rat s0 /\ starts s0 /\ pitchScale s0 = pitchScale s) by (unfold s0; destruct (mode s); [destruct (supplied s =? 0)|..]; done).
    destruct O0 as (O0 & K0 & P0). pose proof (update_pitch s0 O0 K0) as P1. rewrite P0 in P1. set (s1 := updateRatioFromMap E s0) in *.
    destruct (mode s1); try done; (destruct (res s1); [done|]; destruct (Qeq_bool (pitchScale s1) 1); done).
  Qed.
  (** Before the first block and after it. *)
  Definition pending (skip0 T : Z) (s : eng) : Prop :=
    realTime E = false /\ starts s /\
    (isFirst s -> skip0 = cround (inject_Z (windowSource E / 2) / pitchScale s) /\ T = aim s) /\
    (~ isFirst s -> target s = T /\ (whole s -> exact skip0 s)).
  Lemma step_pending skip0 T got s o s' a : sized E m c -> fair RS -> counts o -> second_pass o -> idle got s -> pending skip0 T s ->
    step RS E s o = Some (s', a) -> pending skip0 T s'.
  Proof.
    intros Z0 F C N [O Fr A G] (Er & K & P1 & P2) H. destruct (wss_pos E m c Z0) as [Hw _].
    destruct o as [x|x|ks|n|n|n|n f|n|]; cbn [step second_pass] in H, N; try done; try (injection H as <- <-; split; [done|]; split; [done|]; done).
    destruct (process RS E s n f) as [s1|] eqn:E1; [|done]. binds. injection H as <- <-.
    destruct (process_moves s n f s1 Z0 F O Fr E1) as [[_ ->]|(Hm & s2 & M & ->)]; [split; done|].
    pose proof (prepare_ok s Z0 O Fr) as O1. pose proof (moves_same E _ _ M) as (S1 & S2 & S3 & S4 & S5 & S6 & S7 & S8 & S9 & S10).
    destruct (prepare_spec s) as (P & _ & Q2 & Q3).
    split; [done|]. split. { unfold starts in *. cbn. rewrite S8. destruct P as [_ _ _ _ _ _ _ _ ->]. done. }
    split; [intros [Hx|Hx]; destruct f; done|]. intros _. cbn [target withMode]. rewrite S6.
    assert (Hx : target (prepareOffline RS E s) = T /\ (whole (prepareOffline RS E s) -> exact skip0 (prepareOffline RS E s))).
    { assert (D : isFirst s \/ ~ isFirst s) by (unfold isFirst; destruct (mode s); auto; right; intros [|]; done).
      destruct D as [D|D].
      - destruct (P1 D) as [-> ->]. pose proof (Fr D) as B. destruct O as [Ob Ot Op Oh]. destruct (Q3 D Er B (o_ins E s Ob) ltac:(lia)) as (A1 & A2 & A3 & A4 & A5 & A6 & A7 & A8 & A9).
        split; [done|]. intros _. rewrite (prepare_pitch s (conj Ot (conj Op Oh)) K) in A4. destruct B as (B1 & B2 & B3 & B4 & B5 & B6 & B7 & B8 & B9). destruct P.
        unfold exact. rewrite Er, A4. unfold made. rewrite p_trail0, p_total0, B3, B1. cbn [foldr]. split; [lia|]. intros Hs0. split; [lia|].
        rewrite Hs0. unfold cut. destruct (Z.ltb_spec 0 (target (prepareOffline RS E s))); lia.
      - rewrite (Q2 D), Er. destruct (update_fields s) as ([] & _ & _ & U3 & U4 & _). destruct (P2 D) as [P3 P4]. split; [by rewrite U4|].
        unfold whole, exact, made in *. rewrite U3, U4, p_trail0, p_total0. done. }
    destruct Hx as [X1 X2]. split; [done|]. intros W. change (exact skip0 s2). eapply moves_exact; [done|exact O1|exact M|exact W|]. apply X2. by eapply moves_whole.
  Qed.
  Lemma run_pending l : forall skip0 T got s s' a, sized E m c -> fair RS -> Forall counts l -> Forall second_pass l -> idle got s -> pending skip0 T s ->
    run RS E s l = Some (s', a) -> pending skip0 T s'.
  Proof.
    induction l as [|o l IH]; intros skip0 T got s s' a Z0 F Hc Hn I P H; cbn [run] in H; [by injection H as <- <-|].
    inversion Hc as [|? ? C1 C2]; inversion Hn as [|? ? N1 N2]; subst. destruct (step RS E s o) as [[s1 a1]|] eqn:E1; [|done]. binds.
    destruct (run RS E s1 l) as [[s2 a2]|] eqn:E2; [|done]. binds. injection H as <- <-.
    eapply IH; [done|done|done|done| |by eapply step_pending|exact E2]. eapply step_idle; try done. by destruct o.
  Qed.
  Lemma first_isFirst l : forall s s' a, Forall first_pass l -> isFirst s -> run RS E s l = Some (s', a) -> isFirst s'.
  Proof.
    induction l as [|o l IH]; intros s s' a Hf I H; cbn [run] in H; [by injection H as <- <-|].
    inversion Hf as [|? ? F1 F2]; subst. destruct (step RS E s o) as [[s1 a1]|] eqn:E1; [|done]. binds.
    destruct (run RS E s1 l) as [[s2 a2]|] eqn:E2; [|done]. binds. injection H as <- <-. eapply IH; [done| |exact E2].
    destruct o as [x|x|ks|n|n|n|n f|n|]; cbn [step first_pass] in E1, F1; try done; injection E1 as <- _; try done.
    - unfold setTimeRatio. destruct (locked E s || same x (timeRatio s)); [done|]. unfold isFirst. destruct (calculateHop_fields s x (Fin (pitchScale s))) as (-> & _). done.
    - unfold setPitchScale. destruct (locked E s || same x (pitchScale s)); [done|]. unfold isFirst. destruct (calculateHop_fields s (Fin (timeRatio s)) x) as (-> & _). done.
    - unfold setKeyFrameMap. destruct (realTime E); [done|]. destruct (mode s) eqn:Em; done.
    - unfold study. destruct (realTime E); [done|]. destruct (mode s) eqn:Em; try done. by right.
  Qed.

  Lemma offline_length t p l1 s1 g1 l2 s2 g2 : sized E m c -> fair RS -> realTime E = false ->
    run RS E (engine0 RS E t p) l1 = Some (s1, g1) -> Forall counts l1 -> Forall first_pass l1 -> starts s1 ->
    run RS E s1 l2 = Some (s2, g2) -> Forall counts l2 -> Forall second_pass l2 -> begun s2 ->
    g1 = 0 /\ target s2 = aim s1 /\ 0 <= lost s2 /\ (0 < aim s1 -> g2 + outFill s2 + lost s2 <= aim s1) /\
    (whole s2 -> g2 + outFill s2 + lost s2 = cut (aim s1) (Z.max 0 (made s2 - cround (inject_Z (windowSource E / 2) / pitchScale s1)))).
  Proof.
    intros Z0 F Er R1 C1 F1 K R2 C2 F2 B.
    pose proof (run_idle l1 0 _ _ _ Z0 F C1 ltac:(eapply Forall_impl; [exact F1|by intros []]) (engine0_idle t p Z0) R1) as I1. rewrite Z.add_0_l in I1.
    assert (H1 : isFirst s1). { eapply first_isFirst; [exact F1| |exact R1]. left. unfold engine0. match goal with |- mode (calculateHop E ?s t p) = _ => destruct (calculateHop_fields s t p) as (-> & _) end. done. }
    assert (g1 = 0) as -> by (by apply (i_first _ _ I1)).
    assert (P1 : pending (cround (inject_Z (windowSource E / 2) / pitchScale s1)) (aim s1) s1). { split; [done|]. split; [done|]. split; [done|]. done. }
    pose proof (run_pending l2 _ _ 0 s1 s2 g2 Z0 F C2 F2 I1 P1 R2) as (_ & _ & _ & P2).
    pose proof (run_idle l2 0 _ _ _ Z0 F C2 ltac:(eapply Forall_impl; [exact F2|by intros []]) I1 R2) as I2. rewrite Z.add_0_l in I2.
    assert (N : ~ isFirst s2) by (destruct B as [B|B]; unfold isFirst; rewrite B; intros [|]; done).
    destruct (P2 N) as [P3 P4]. destruct I2 as [O2 _ (A1 & A2 & A3) _]. destruct O2 as [[] _ _ _]. rewrite P3 in *.
    split; [done|]. split; [done|]. split; [done|].
    assert (Hs : 0 < startSkip s2 \/ startSkip s2 = 0) by lia. split.
    - intros Ha. specialize (o_target Er Ha). destruct Hs as [Hs|Hs]; [destruct (A2 Hs), (o_wait Hs); lia|rewrite (A3 Hs); lia].
    - intros W. destruct (P4 W) as [X1 X2]. rewrite Er, P3 in X2. destruct Hs as [Hs|Hs].
      + destruct (A2 Hs), (o_wait Hs). specialize (X1 Hs). unfold cut. destruct (0 <? aim s1) eqn:Ha; lia.
      + destruct (X2 Hs) as [X3 X4]. rewrite (A3 Hs), X4. f_equal. lia.
  Qed.
End Engine.
