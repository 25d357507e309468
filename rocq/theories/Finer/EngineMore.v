(** The finer engine: progress, frames of a stream, one block, key frames, reset. *)
From stdpp Require Import prelude list numbers.
From Coq Require Import ZArith QArith Qround Lia Lqa.
From Verif Require Import Base.Arith MathMisc.Model Calculator.Spec Finer.GuideModel Finer.GuideProofs Finer.EngineModel Finer.EngineSpec Finer.EngineShape Finer.EngineProofs Finer.EngineSession Finer.EngineTotal.
From Verif Require Calculator.Model.
From stdpp Require Import list.
Local Open Scope Z_scope.

Section Engine.
  Context {R : Type} (RS : resampler R) (E : shape) (m c : Z).
  Notation eng := (@eng R).
  Notation ok := (@ok R E). Notation moves := (@moves R E). Notation move := (@move R E).

  (** Supplying what is required yields output. *)
  Lemma move_out s s' : realTime E = true -> ok s -> startSkip s = 0 -> move s s' -> startSkip s' = 0 /\ outFill s <= outFill s'.
  Proof.
    intros Er O A1 M. destruct M as [s' ih o count Hih Ho H|r f z H1 H2 H3|k Hk]; [|done..]. destruct O as [[] _ _ _]. destruct H. destruct h_out as (_ & _ & U).
    pose proof (grown_ge o (outFill s) (outSize s) ltac:(lia) ltac:(lia) ltac:(lia)) as [G1 G2].
    rewrite Er, A1 in U. cbn [negb andb Z.ltb] in U. destruct U as (U1 & U2 & _). split; [done|]. lia.
  Qed.
  Lemma moves_out s s' : sized E m c -> realTime E = true -> ok s -> startSkip s = 0 -> moves s s' -> outFill s <= outFill s'.
  Proof.
    intros Z0 Er O A H. induction H as [|x y z M _ IH]; [lia|]. destruct (move_out _ _ Er O A M) as [A' L]. pose proof (IH (move_ok E m c _ _ Z0 O M) A'). lia.
  Qed.
  Lemma required_yields s s' : sized E m c -> fair RS -> realTime E = true -> ok s -> untouched s -> drained E s -> startSkip s = 0 -> resampling E s = (false, false) ->
    mode s <> Finished -> available s = 0 ->
    1 <= samplesRequired E s /\ (process RS E s (samplesRequired E s) false = Some s' -> 1 <= available s').
  Proof.
    intros Z0 F Er O Fr D A Hr Hm Ha. assert (Hw : windowSource E <= 524288) by (destruct Z0 as [Zm Zc1 Zc2 Zc3 Zc Zr]; destruct (short E); lia). pose proof (o_base E s O) as [].
    assert (Ho : outFill s = 0). { unfold available in Ha. destruct (Z.eqb_spec (outFill s) 0); [done|lia]. }
    unfold samplesRequired. rewrite Ha, Hr. cbn [negb fst Z.eqb]. unfold drained in D. destruct (Z.ltb_spec (inFill s) (windowSource E)) as [Hlt|]; [|lia].
    set (n := windowSource E - inFill s). assert (Hn : 1 <= n) by (unfold n; lia). split; [done|]. intros H.
    destruct (prepare_spec RS E s) as (_ & P & _). specialize (P Er).
    assert (X : forall s2, feed RS E (Z.to_nat (n + 1)) s false n 0 false = Some s2 -> 1 <= outFill s2).
    { intros s2 Hs. replace (Z.to_nat (n + 1)) with (S (S (Z.to_nat (n - 1)))) in Hs by lia. rewrite (feed_plain RS E _ s n false O ltac:(lia)) in Hs by lia.
      pose proof (filled_ok E s n O ltac:(lia)) as O1. unfold consume in Hs. destruct (outhopFor RS E (filled s n)) as [o k] eqn:Eo.
      destruct (outhop_range RS E m c _ o k Z0 F O1 Eo) as (H1 & H2 & _).
      assert (M1 : move (filled s n) (withCalc (filled s n) k)) by (by apply M_calc). pose proof (move_ok E m c _ _ Z0 O1 M1) as O2.
      set (s1 := withCalc (filled s n) k) in *. assert (Hi : 1 <= inhop (filled s n)) by (destruct O1 as [? ? ? Hh]; rewrite Hh; by apply (inhop_range E m c)).
      assert (Hin : inFill s1 = windowSource E) by (cbn; unfold n; lia).
      destruct (wss_pos E m c Z0) as (W1 & W2).
      replace (Z.to_nat (inFill (filled s n) + longestFft E + 1)) with (S (Z.to_nat (inFill (filled s n) + longestFft E))) in Hs by (cbn; lia).
      cbn [consumeLoop] in Hs. cbv zeta in Hs. rewrite Hin in Hs. rewrite Z.ltb_irrefl in Hs. cbn [andb] in Hs.
      destruct (hop RS E s1 false (inhop (filled s n)) o (windowSource E)) as [s3|] eqn:E3; [|done]. binds. rewrite <- Hin in E3.
      destruct (hop_spec RS E m c s1 false _ o s3 F Z0 ltac:(destruct (o_base _ _ O2); lia) ltac:(lia) E3) as [count Hc].
      pose proof (M_hop E s1 s3 _ o count Hi H1 Hc) as M3. pose proof (move_ok E m c _ _ Z0 O2 M3) as O3.
      destruct (move_out _ _ Er O2 A M3) as [A3 _].
      pose proof (loop_moves RS E m c _ _ _ _ _ _ Z0 F O3 Hi H1 Hs) as M4. pose proof (moves_out _ _ Z0 Er O3 A3 M4).
      assert (1 <= outFill s3); [|lia]. destruct Hc. destruct h_out as (_ & _ & U). destruct (h_plain ltac:(change (resampling E s1) with (resampling E s); by rewrite Hr)) as [-> _].
      pose proof (grown_ge o (outFill s) (outSize s) ltac:(lia) ltac:(lia) ltac:(lia)) as [G1 G2].
      change (startSkip s1) with (startSkip s) in U. change (outFill s1) with (outFill s) in U. change (outSize s1) with (outSize s) in U.
      rewrite Er, A in U. cbn [negb andb Z.ltb] in U. destruct U as (U1 & _). change (0 <? 0) with false in U1. lia. }
    unfold process in H. rewrite P, Hr in H. destruct (Z.ltb_spec processLimit n); [unfold processLimit, n in *; lia|].
    assert (Hav : forall (s2 : eng) k, 1 <= outFill s2 -> 1 <= available (withMode s2 k)). { intros s2 k Hs. unfold available. cbn. destruct (Z.eqb_spec (outFill s2) 0); lia. }
    rewrite andb_false_r in H. cbn [fst] in H.
    destruct (mode s); try done; (destruct (feed RS E (Z.to_nat (n + 1)) s false n 0 false) as [s2|]; [|done]; binds; injection H as <-; apply Hav; by apply X).
  Qed.

  (** Frames of a stream. *)
  Definition framed (s : eng) (N : Z) : Prop :=
    taken s = N /\ consumed s = inhop s * Z.of_nat (length (trail s)) /\ (trail s <> [] -> windowSource E - inhop s <= inFill s).
  Lemma loop_framed fuel : forall s o s' N, sized E m c -> fair RS -> ok s -> 1 <= o -> framed s N -> consumeLoop RS E fuel s false (inhop s) o = Some s' -> framed s' N /\ inhop s' = inhop s.
  Proof.
    induction fuel as [|fuel IH]; intros s o s' N Z0 F O Ho Fd H; [done|]. cbn [consumeLoop] in H. cbv zeta in H. cbn [negb orb] in H. rewrite andb_true_r in H.
    destruct (Z.ltb_spec (inFill s) (windowSource E)) as [Hs|Hs]; [by injection H as <-|].
    destruct (hop RS E s false (inhop s) o (inFill s)) as [s1|] eqn:E1; [|done]. binds.
    pose proof (inhop_range E m c (ratioOf s) Z0) as Hi. rewrite <- (o_h E s O) in Hi.
    destruct (hop_spec RS E m c s false (inhop s) o s1 F Z0 ltac:(destruct (o_base _ _ O); lia) ltac:(lia) E1) as [count Hc].
    pose proof (M_hop E s s1 (inhop s) o count ltac:(lia) Ho Hc) as M. pose proof (move_ok E m c _ _ Z0 O M) as O1.
    assert (Hmin : Z.min (inFill s) (inhop s) = inhop s). { destruct Z0 as [Zm Zc1 Zc2 Zc3 Zc Zr]. destruct (short E); lia. }
    destruct Hc. destruct h_same as (S1 & S2 & S3 & _). rewrite <- S3 in H.
    assert (Fd1 : framed s1 N).
    { destruct Fd as (F1 & F2 & F3). unfold framed, taken in *. rewrite h_trail, h_in, h_con, S3, Hmin. cbn [length]. split; [lia|]. split; [rewrite F2; lia|]. lia. }
    destruct (IH s1 o s' N Z0 F O1 Ho Fd1 H) as [I1 I2]. split; [done|congruence].
  Qed.
  Lemma stream_step got s n s' N : sized E m c -> fair RS -> realTime E = true -> idle E got s -> drained E s -> mode s <> Finished -> (resampling E s).1 = false ->
    0 <= n <= 524288 -> framed s N -> process RS E s n false = Some s' -> framed s' (N + n) /\ inhop s' = inhop s /\ resampling E s' = resampling E s /\ mode s' <> Finished.
  Proof.
    intros Z0 F Er [O Fr _ _] D Hm Hr Hn Fd H. destruct (prepare_spec RS E s) as (_ & P & _). specialize (P Er).
    destruct (process_moves RS E m c s n false s' Z0 F O Fr H) as [[? _]|(_ & s2' & M & Es)]; [done|]. rewrite P in M.
    pose proof (moves_same E _ _ M) as (S1 & S2 & S3 & _ & _ & _ & _ & _ & _ & S10).
    assert (X : framed s' (N + n)); [|split; [done|]; subst s'; split; [done|]; split; [by apply (resampling_same E s)|done]].
    assert (Y : forall s2, feed RS E (Z.to_nat (n + 1)) s false n 0 false = Some s2 -> framed s2 (N + n)).
    { intros s2 Hs. destruct (Z.eq_dec n 0) as [->|Hz]; [injection Hs as <-; by rewrite Z.add_0_r|].
      replace (Z.to_nat (n + 1)) with (S (S (Z.to_nat (n - 1)))) in Hs by lia. destruct (wss_pos E m c Z0) as (W1 & W2). unfold drained in D. pose proof (o_ins E _ (o_base E _ O)).
      rewrite (feed_plain RS E _ s n false O ltac:(lia)) in Hs by lia.
      pose proof (filled_ok E s n O ltac:(lia)) as O1. unfold consume in Hs. destruct (outhopFor RS E (filled s n)) as [o k] eqn:Eo.
      destruct (outhop_range RS E m c _ o k Z0 F O1 Eo) as (H1 & H2 & _).
      assert (M1 : move (filled s n) (withCalc (filled s n) k)) by (by apply M_calc). pose proof (move_ok E m c _ _ Z0 O1 M1) as O2.
      refine (proj1 (loop_framed _ (withCalc (filled s n) k) o s2 (N + n) Z0 F O2 H1 _ Hs)).
      destruct Fd as (F1 & F2 & F3). unfold framed, taken in *. cbn. split; [lia|]. split; [done|]. intros Ht. specialize (F3 Ht). lia. }
    unfold process in H. rewrite P, Hr in H. destruct (Z.ltb_spec processLimit n); [unfold processLimit in *; lia|]. rewrite andb_false_r in H.
    destruct (mode s); try done; (destruct (feed RS E (Z.to_nat (n + 1)) s false n 0 false) as [s2|]; [|done]; binds; injection H as <-; apply (Y s2); done).
  Qed.
  Lemma run_stream l : forall got s s' a N, sized E m c -> fair RS -> realTime E = true -> Forall counts l -> Forall streaming l -> idle E got s -> drained E s -> mode s <> Finished ->
    (resampling E s).1 = false -> framed s N -> run RS E s l = Some (s', a) -> framed s' (N + given l) /\ inhop s' = inhop s.
  Proof.
    induction l as [|o l IH]; intros got s s' a N Z0 F Er Hc Hs I D Hm Hr Fd H; cbn [run] in H; [injection H as <- <-; by rewrite Z.add_0_r|].
    inversion Hc as [|? ? C1 C2]; inversion Hs as [|? ? N1 N2]; subst. destruct (step RS E s o) as [[s1 a1]|] eqn:E1; [|done]. binds.
    destruct (run RS E s1 l) as [[s2 a2]|] eqn:E2; [|done]. binds. injection H as <- <-.
    destruct (step_any RS E m c got s o s1 a1 Z0 F C1 I E1) as [got' I']. pose proof (step_drained RS E m c got s o s1 a1 Z0 F C1 I D E1) as D1.
    assert (X : framed s1 (N + match o with Process k _ => k | _ => 0 end) /\ inhop s1 = inhop s /\ resampling E s1 = resampling E s /\ mode s1 <> Finished).
    { destruct o as [x|x|ks|n|n|n|n f|n|]; cbn [step streaming] in E1, N1; try done; try (injection E1 as <- <-; rewrite Z.add_0_r; done).
      destruct N1 as [-> Hn]. cbn in C1. destruct (process RS E s n false) as [s3|] eqn:E3; [|done]. binds. injection E1 as <- _. by eapply stream_step. }
    destruct X as (X1 & X2 & X3 & X4). rewrite <- X3 in Hr.
    destruct (IH got' s1 s2 a2 _ Z0 F Er C2 N2 I' D1 X4 Hr X1 E2) as [Y1 Y2]. split; [|congruence]. cbn [given foldr]. by rewrite Z.add_assoc.
  Qed.
  Lemma framed_frames s N : sized E m c -> ok s -> drained E s -> framed s N -> Z.of_nat (length (trail s)) = frames (windowSource E) (inhop s) N.
  Proof.
    intros Z0 O D (F1 & F2 & F3). pose proof (inhop_range E m c (ratioOf s) Z0) as Hi. rewrite <- (o_h E s O) in Hi. unfold drained in D. unfold frames, taken in *.
    pose proof (o_base E s O) as [].
    destruct (trail s) as [|e l] eqn:Et.
    - cbn [length] in *. destruct (Z.ltb_spec N (windowSource E)); lia.
    - specialize (F3 ltac:(done)). set (k := Z.of_nat (length (e :: l))) in *. assert (1 <= k) by (unfold k; cbn [length]; lia).
      destruct (Z.ltb_spec N (windowSource E)); [nia|]. symmetry. apply Z.add_move_r. symmetry. apply Z.div_unique with (inFill s - (windowSource E - inhop s)); [lia|]. lia.
  Qed.

  (** The output hop when the calculator sees no divergence. *)
  Lemma single_level k t e h w : Calculator.Model.useHardPeaks k = false -> 1 <= h -> (0 <= t / e)%Q ->
    (Calculator.Model.justReset k = true \/ (t / e == Calculator.Model.prevRatio k)%Q) ->
    cround (Calculator.Model.outFrameCounter k) = Calculator.Model.expectedOutFrame (Calculator.Model.frameCheckpoint k) (Calculator.Model.inFrameCounter k) t ->
    exists k', Calculator.Model.calculateSingle k t e 1 h w w true = (rint (inject_Z h * (t / e)), k') /\
      Calculator.Model.prevRatio k' = (t / e)%Q /\ Calculator.Model.justReset k' = false /\ Calculator.Model.inFrameCounter k' = Calculator.Model.inFrameCounter k + h /\
      Calculator.Model.frameCheckpoint k' = Calculator.Model.frameCheckpoint k /\
      Calculator.Model.outFrameCounter k' = (Calculator.Model.outFrameCounter k + inject_Z (rint (inject_Z h * (t / e))) * e)%Q /\
      Calculator.Model.useHardPeaks k' = false.
  Proof.
    intros Hp Hh Hr Hj Hd. unfold Calculator.Model.calculateSingle. rewrite Hp. cbn [andb].
    assert (negb (Calculator.Model.justReset k) && negb (Qeq_bool (t / e) (Calculator.Model.prevRatio k)) = false) as ->.
    { destruct Hj as [->|Hj]; [done|]. apply Qeq_bool_iff in Hj. rewrite Hj. by rewrite andb_false_r. }
    rewrite <- Hd. rewrite Z.sub_diag. cbv zeta.
    change (Calculator.Model.far 1000 0) with false. change (Calculator.Model.far 100 0) with false. cbv iota.
    destruct (Z.eqb_spec h 0); [lia|]. set (x := (inject_Z h * (t / e))%Q).
    assert (Hx : (0 <= x)%Q). { unfold x. apply Qmult_le_0_compat; [|done]. change 0%Q with (inject_Z 0). rewrite <- Zle_Qle. lia. }
    assert (Hi : rint (inject_Z (rint x) - inject_Z 0 / 4) = rint x).
    { rewrite (rint_comp _ (inject_Z (rint x))); [apply rint_Z|]. change (inject_Z 0) with 0%Q. field. }
    rewrite Hi. assert (H1 : rint (x * (3 # 10)) <= rint x) by (apply rint_le; lra). assert (H2 : rint x <= rint (x * 2)) by (apply rint_le; lra).
    pose proof (rint_nonneg x Hx). destruct (Z.ltb_spec (rint x) (rint (x * (3 # 10)))); [lia|]. destruct (Z.ltb_spec (rint (x * 2)) (rint x)); [lia|].
    destruct (Z.ltb_spec (rint x) 0); [lia|]. eexists. split; [reflexivity|]. cbn. done.
  Qed.

  (** A sound in one block, at unity pitch. *)
  Lemma loop_makes fuel : forall s h o s', sized E m c -> fair RS -> ok s -> 1 <= h -> 1 <= o -> calm E s ->
    consumed s * o <= made s * h -> (inFill s = 0 -> consumed s * o + (longestFft E - accFill s) * h <= made s * h) ->
    Forall (fun e => e.2 = o) (trail s) ->
    consumeLoop RS E fuel s true h o = Some s' -> taken s' * o + longestFft E * h <= made s' * h /\ Forall (fun e => e.2 = o) (trail s').
  Proof.
    induction fuel as [|fuel IH]; intros s h o s' Z0 F O Hh Ho C J1 J2 J3 H; [done|]. pose proof (loop_exit RS E _ _ _ _ _ _ H) as [_ X]. specialize (X eq_refl).
    cbn [consumeLoop] in H. cbv zeta in H.
    match type of H with (if ?b then _ else _) = _ => destruct b end.
    - injection H as <-. destruct X as [X1 X2]. specialize (J2 X1). unfold taken. rewrite X1, X2 in *. split; [nia|done].
    - destruct (hop RS E s true h o (inFill s)) as [s1|] eqn:E1; [|done]. binds. pose proof (o_base E s O) as [].
      destruct (hop_spec RS E m c s true h o s1 F Z0 ltac:(lia) ltac:(lia) E1) as [count Hc].
      pose proof (M_hop E s s1 h o count Hh Ho Hc) as M. pose proof (move_ok E m c _ _ Z0 O M) as O1. destruct (move_calm E s s1 O C M) as [C1 _].
      destruct Hc. destruct (h_plain C) as [-> _]. assert (Hm : made s1 = o + made s) by (unfold made; by rewrite h_trail).
      apply (IH s1 h o s'); try done; rewrite ?Hm, ?h_con, ?h_in, ?h_acc.
      + destruct (Z.min_spec (inFill s) h) as [[? ->]|[? ->]]; nia.
      + intros Hz. destruct (Z.eqb_spec (inFill s) 0) as [Hf|Hf].
        * specialize (J2 Hf). rewrite Hf. assert (Z.min 0 h = 0) as -> by lia. nia.
        * destruct (Z.min_spec (inFill s) h) as [[? ->]|[? ->]]; nia.
      + rewrite h_trail. by constructor.
  Qed.
  Lemma prepare_plain s : keys s = [] -> timeRatio (prepareOffline RS E s) = timeRatio s /\ pitchScale (prepareOffline RS E s) = pitchScale s /\ studied (prepareOffline RS E s) = studied s.
  Proof.
    intros K. unfold prepareOffline. destruct (realTime E); [done|].
    set (s0 := match mode s with Studying => _ | JustCreated => _ | _ => s end).
    assert (K0 : keys s0 = [] /\ timeRatio s0 = timeRatio s /\ pitchScale s0 = pitchScale s /\ studied s0 = studied s) by (unfold s0; destruct (mode s); [destruct (supplied s =? 0)|..]; done).
    destruct K0 as (K0 & K1 & K2 & K3). destruct (update_fields E s0) as (_ & _ & _ & _ & _ & _ & U & _). rewrite (U K0).
    destruct (mode s0); try done; (destruct (res s0); [done|]; destruct (Qeq_bool (pitchScale s0) 1); done).
  Qed.
  Notation firstHop := (firstHop E).
  Lemma one_block t n k s' a : sized E m c -> fair RS -> realTime E = false -> (0 < t)%Q -> 1 <= n <= 524288 -> 0 <= k ->
    let T := cround (inject_Z n * t) in let h := inhopFor E (t * 1) in let pad := windowSource E / 2 in
    firstHop t <= T ->
    (inject_Z (n + pad + h) <= 2 * inject_Z h * (inject_Z pad * t + inject_Z (longestFft E - pad)))%Q ->
    run RS E (engine0 RS E (Fin t) (Fin 1)) [Study n; Process n true; Retrieve k] = Some (s', a) -> a = Z.min k T.
  Proof.
    intros Z0 F Er Ht Hn Hk T h pad HT Hb H. destruct (wss_pos E m c Z0) as (W1 & W2).
    pose proof (engine0_idle RS E m c (Fin t) (Fin 1) Z0) as I0. set (e0 := engine0 RS E (Fin t) (Fin 1)) in *.
    assert (He : mode e0 = JustCreated /\ keys e0 = [] /\ timeRatio e0 = t /\ pitchScale e0 = 1%Q /\ res e0 = None /\ calculator e0 = Calculator.Model.create (roundRate E) 1 false).
    { unfold e0, engine0. rewrite Er. unfold calculateHop. rewrite sanitise_same by (done || reflexivity). unfold setRatios. cbn. done. }
    destruct He as (V1 & V2 & V3 & V4 & V5 & V6).
    cbn [run step] in H. binds. set (s1 := study E e0 n) in *.
    assert (He1 : mode s1 = Studying /\ keys s1 = [] /\ timeRatio s1 = t /\ pitchScale s1 = 1%Q /\ res s1 = None /\ calculator s1 = Calculator.Model.create (roundRate E) 1 false /\ studied s1 = n).
    { unfold s1, study. rewrite Er, V1. cbn. done. }
    destruct He1 as (Y1 & Y2 & Y3 & Y4 & Y5 & Y6 & Y7).
    assert (I1 : idle E 0 s1). { exact (step_idle RS E m c 0 e0 (Study n) s1 0 Z0 F ltac:(cbn; lia) I I0 eq_refl). }
    destruct (process RS E s1 n true) as [s2|] eqn:Ep; [|done]. binds.
    destruct (retrieve s2 k) as [s3 a3] eqn:Eret. binds. injection H as <- <-. rewrite !Z.add_0_r, !Z.add_0_l.
    assert (Ea : a3 = Z.min k (outFill s2)) by (unfold retrieve in Eret; by injection Eret as _ <-).
    (* the length *)
    assert (R1 : run RS E e0 [Study n] = Some (s1, 0)) by reflexivity.
    assert (R2 : run RS E s1 [Process n true] = Some (s2, 0)). { cbn [run step]. rewrite Ep. reflexivity. }
    destruct I1 as [O1 Fr1 _ _].
    assert (Bg : begun s2). { destruct (process_moves RS E m c s1 n true s2 Z0 F O1 Fr1 Ep) as [[Hx _]|(_ & x & _ & ->)]; [congruence|by right]. }
    destruct (offline_length RS E m c (Fin t) (Fin 1) [Study n] s1 0 [Process n true] s2 0 Z0 F Er R1
      ltac:(repeat (apply Forall_cons_2; [cbn; lia|]); apply Forall_nil_2) ltac:(repeat (apply Forall_cons_2; [done|]); apply Forall_nil_2) ltac:(unfold starts; by rewrite Y2) R2
      ltac:(repeat (apply Forall_cons_2; [cbn; lia|]); apply Forall_nil_2) ltac:(repeat (apply Forall_cons_2; [done|]); apply Forall_nil_2) Bg) as (_ & Tg & Ls & _ & Ex).
    assert (Haim : aim s1 = T) by (unfold aim; by rewrite Y1, Y3, Y7). rewrite Haim in *. rewrite Y4 in Ex. fold pad in Ex.
    assert (Hskip : cround (inject_Z pad / 1) = pad).
    { apply cround_is; [|assert (inject_Z pad / 1 == inject_Z pad)%Q as -> by field; lra..].
      assert (inject_Z pad / 1 == inject_Z pad)%Q as -> by field. change 0%Q with (inject_Z 0). rewrite <- Zle_Qle. apply Z.div_pos; lia. }
    rewrite Hskip in Ex.
    (* what is made *)
    destruct (prepare_spec RS E s1) as (P & _ & _ & P3). destruct (prepare_plain s1 Y2) as (Q1 & Q2 & _). pose proof (prepare_ok RS E m c s1 Z0 O1 Fr1) as O2.
    destruct (P3 ltac:(by right) Er (Fr1 ltac:(by right)) (o_ins E _ (o_base E _ O1)) ltac:(lia)) as (A1 & A2 & A3 & A4 & _ & A6 & _ & A8 & _).
    set (p := prepareOffline RS E s1) in *. destruct P. destruct (Fr1 ltac:(by right)) as (B1 & B2 & B3 & B4 & B5 & B6 & B7 & B8 & B9).
    specialize (A8 Y5 ltac:(rewrite Q2, Y4; reflexivity)).
    unfold process in Ep. rewrite Y1 in Ep. fold p in Ep. destruct (Z.ltb_spec processLimit n); [unfold processLimit in *; lia|].
    destruct (Z.eqb_spec n 0); [lia|]. cbn [andb] in Ep.
    assert (Hun : unpitched p) by (unfold unpitched; rewrite Q2, Y4; reflexivity).
    assert (Hres : resampling E p = (false, false)) by (apply unpitched_calm; [congruence|done]).
    rewrite Hres in Ep. cbn [fst] in Ep. replace (Z.to_nat (n + 1)) with (S (S (Z.to_nat (n - 1)))) in Ep by lia.
    assert (Hpad : 0 <= windowSource E / 2 < windowSource E) by (split; [apply Z.div_pos|apply Z.div_lt]; lia).
    rewrite (feed_plain RS E _ p n true O2 ltac:(lia)) in Ep by (pose proof (o_ins E _ (o_base E _ O2)); lia).
    destruct (consume RS E (filled p n) true) as [s2'|] eqn:Ec; [|done]. binds. injection Ep as <-.
    pose proof (filled_ok E p n O2 ltac:(lia)) as O3. pose proof (consume_taken RS E m c _ _ _ Z0 F O3 Ec) as Tk.
    unfold consume in Ec. destruct (outhopFor RS E (filled p n)) as [o kk] eqn:Eo.
    destruct (outhop_range RS E m c _ o kk Z0 F O3 Eo) as (H1 & H2 & _).
    assert (Hh : inhop (filled p n) = h). { change (inhop (filled p n)) with (inhop p). rewrite (o_h E p O2). unfold h, ratioOf. by rewrite Q1, Q2, Y3, Y4. }
    pose proof (inhop_range E m c (t * 1) Z0) as Hir. fold h in Hir.
    assert (Hio : o = firstHop t /\ (inject_Z h * t - (1 # 2) <= inject_Z o)%Q).
    { unfold outhopFor in Eo. change (pitchScale (filled p n)) with (pitchScale p) in Eo. change (res (filled p n)) with (res p) in Eo.
      change (timeRatio (filled p n)) with (timeRatio p) in Eo. change (calculator (filled p n)) with (calculator p) in Eo.
      rewrite A8, A6, Y6, Q1, Q2, Y3, Y4, Hh in Eo. assert (Hte : (t / (1 / 1) == t)%Q) by field.
      destruct (single_level (Calculator.Model.create (roundRate E) 1 false) t (1 / 1) h (longestFft E) eq_refl ltac:(lia) ltac:(rewrite Hte; lra) ltac:(by left)) as (k' & Ek & _).
      { unfold Calculator.Model.expectedOutFrame. cbn -[cround]. symmetry. apply (cround_is _ 0); change (inject_Z 0) with 0%Q; rewrite Qmult_0_l; try reflexivity; discriminate. }
      rewrite Ek in Eo. assert (Hri : rint (inject_Z h * (t / (1 / 1))) = rint (inject_Z h * t)) by (apply rint_comp; by rewrite Hte). rewrite Hri in Eo. injection Eo as <- _.
      destruct (rint_near (inject_Z h * t)) as [_ Hnear]. unfold firstHop. fold h. split; [destruct (Z.ltb_spec (rint (inject_Z h * t)) 1); lia|].
      destruct (Z.ltb_spec (rint (inject_Z h * t)) 1) as [Hl|]; [|lra]. assert (inject_Z (rint (inject_Z h * t)) <= inject_Z 1)%Q by (rewrite <- Zle_Qle; lia). lra. }
    destruct Hio as [Hio Hon].
    assert (M1 : move (filled p n) (withCalc (filled p n) kk)) by (by apply M_calc). pose proof (move_ok E m c _ _ Z0 O3 M1) as O4.
    assert (Hcalm : calm E (withCalc (filled p n) kk)). { unfold calm. change (resampling E (withCalc (filled p n) kk)) with (resampling E p). by rewrite Hres. }
    rewrite Hh in Ec.
    destruct (loop_makes (Z.to_nat (inFill (filled p n) + longestFft E + 1)) (withCalc (filled p n) kk) h o s2' Z0 F O4 ltac:(lia) H1 Hcalm) as [Mk Fa]; [..|exact Ec|].
    { cbn. rewrite p_con, B5. unfold made. cbn. rewrite p_trail, B3. cbn. lia. }
    { cbn. rewrite A1. intros. lia. }
    { cbn. rewrite p_trail, B3. apply Forall_nil_2. }
    assert (Htk : taken s2' = n + pad). { rewrite Tk. unfold taken. cbn. rewrite p_con, B5, A1. unfold pad. lia. }
    rewrite Htk in Mk.
    assert (Hlost : lost s2' = 0).
    { assert (Mv : moves (filled p n) s2'). { eapply consume_moves; [exact Z0|exact F|exact O3|]. unfold consume. rewrite Eo, Hh. exact Ec. }
      destruct (moves_calm E m c _ _ Z0 O3 ltac:(unfold calm; change (resampling E (filled p n)) with (resampling E p); by rewrite Hres) Mv) as [_ ->]. cbn. by rewrite p_lost. }
    specialize (Ex ltac:(right; right; cbn; cbn in Tg; rewrite Tg; eapply Forall_impl; [exact Fa|]; cbn; intros ? ->; lia)).
    cbn [withMode outFill lost] in Ex, Ea. change (made (withMode s2' Finished)) with (made s2') in Ex. rewrite Hlost in Ex.
    assert (Henough : T <= made s2' - pad).
    { destruct (cround_near (inject_Z n * t)) as [HTu _]. fold T in HTu. rewrite Zle_Qle in Mk. rewrite !inject_Z_plus, !inject_Z_mult, !inject_Z_plus in Mk.
      rewrite !inject_Z_plus in Hb. unfold Zminus in Hb. rewrite inject_Z_plus, inject_Z_opp in Hb.
      assert (Hhq : (1 <= inject_Z h)%Q) by (change 1%Q with (inject_Z 1); rewrite <- Zle_Qle; lia).
      assert (Hnp : (0 <= inject_Z n + inject_Z pad)%Q) by (rewrite <- inject_Z_plus; change 0%Q with (inject_Z 0); rewrite <- Zle_Qle; unfold pad; lia).
      assert (X1 : ((inject_Z n + inject_Z pad) * (inject_Z h * t - (1 # 2)) <= (inject_Z n + inject_Z pad) * inject_Z o)%Q).
      { rewrite !(Qmult_comm (inject_Z n + inject_Z pad)). by apply Qmult_le_compat_r. }
      assert (X2 : ((inject_Z T - (1 # 2)) * inject_Z h <= inject_Z n * t * inject_Z h)%Q) by (apply Qmult_le_compat_r; lra).
      assert (X3 : ((inject_Z T + inject_Z pad) * inject_Z h <= inject_Z (made s2') * inject_Z h)%Q).
      { assert (Y : (2 * inject_Z h * (inject_Z pad * t + (inject_Z (longestFft E) + - inject_Z pad)) == 2 * (inject_Z pad * (inject_Z h * t)) + 2 * (inject_Z (longestFft E) * inject_Z h) - 2 * (inject_Z pad * inject_Z h))%Q) by ring.
        rewrite Y in Hb.
        assert (Y1' : ((inject_Z n + inject_Z pad) * (inject_Z h * t - (1 # 2)) == inject_Z n * t * inject_Z h + inject_Z pad * (inject_Z h * t) - (1 # 2) * (inject_Z n + inject_Z pad))%Q) by ring.
        rewrite Y1' in X1. rewrite Qmult_plus_distr_l. assert (Y2' : ((inject_Z T - (1 # 2)) * inject_Z h == inject_Z T * inject_Z h - (1 # 2) * inject_Z h)%Q) by ring. rewrite Y2' in X2. lra. }
      apply Qmult_le_r in X3; [|lra]. rewrite <- inject_Z_plus, <- Zle_Qle in X3. lia. }
    unfold cut in Ex. assert (1 <= T) by (unfold firstHop in HT; lia). destruct (Z.ltb_spec 0 T); [|lia]. rewrite Ea. f_equal. lia.
  Qed.
End Engine.
