(** Invariant of the finer engine, and that it always goes on. *)
From stdpp Require Import prelude list numbers.
From Coq Require Import ZArith QArith Qround Lia Lqa.
From Verif Require Import Base.Arith MathMisc.Model Calculator.Spec Calculator.Single Finer.GuideModel Finer.GuideProofs Finer.EngineModel Finer.EngineSpec Finer.EngineShape.
From Verif Require Calculator.Model.
From stdpp Require Import list.
Local Open Scope Z_scope.
Ltac binds := repeat (change (Some ?a ≫= ?f) with (f a) in *; cbv beta iota zeta in *).

Section Engine.
  Context {R : Type} (RS : resampler R) (E : shape) (m c : Z).
  Notation eng := (@eng R).

  Record base (s : eng) : Prop := Base {
    o_in : 0 <= inFill s <= inSize s; o_ins : 16 * windowSource E <= inSize s;
    o_out : 0 <= outFill s <= outSize s; o_outs : 16 * windowSource E <= outSize s;
    o_acc : 0 <= accFill s <= longestFft E; o_cal : Calculator.Model.reset (calculator s) = Calculator.Model.create (roundRate E) 1 false;
    o_skip : 0 <= startSkip s; o_con : 0 <= consumed s;
    o_tot : 0 <= totalOut s;
    o_wait : 0 < startSkip s -> outFill s = 0 /\ totalOut s = 0;
    o_target : realTime E = false -> 0 < target s -> totalOut s <= target s;
    o_rt : realTime E = true -> is_Some (res s)
  }.
  Record ok (s : eng) : Prop := Ok {
    o_base : base s; o_t : (0 < timeRatio s)%Q; o_p : (0 < pitchScale s)%Q; o_h : inhop s = inhopFor E (ratioOf s)
  }.
  Definition within (s : eng) : Prop := (ratioOf s <= inject_Z (maxOut E))%Q.

  Lemma wss_pos : sized E m c -> 1024 <= windowSource E /\ 1024 <= longestFft E <= windowSource E.
  Proof. intros [Zm Zc1 Zc2 Zc3 Zc Zr]. destruct (short E); lia. Qed.
  Lemma hop_buffer : sized E m c -> 0 <= hopBuffer E <= 16 * windowSource E.
  Proof. unfold hopBuffer. intros [Zm Zc1 Zc2 Zc3 Zc Zr]. destruct (short E); lia. Qed.
  Lemma grown_ge required fill size : 0 <= fill -> fill <= size -> 0 <= required ->
    size <= grown required fill size /\ fill + required <= grown required fill size.
  Proof. intros ???. unfold grown. destruct (Z.ltb_spec required (size - fill)); lia. Qed.

  Lemma setRatios_ok s t p : base s -> (0 < t)%Q -> (0 < p)%Q -> ok (setRatios E s t p).
  Proof. intros [] Ht Hp. unfold setRatios. destruct (match mode s with JustCreated => _ | _ => _ end). constructor; [by constructor|done..]. Qed.
  Lemma calculateHop_ok s t p : base s -> ok (calculateHop E s t p).
  Proof.
    intros Ok. unfold calculateHop. pose proof (sanitise_pos t p) as [H1 H2]. destruct (sanitise t p). by apply setRatios_ok.
  Qed.
  Lemma updateRatio_ok s : ok s -> ok (updateRatioFromMap E s).
  Proof.
    intros O. unfold updateRatioFromMap. destruct (keys s) as [|[k0 v0] ks]; [done|].
    assert (G : forall q k, ok (withLastKey (calculateHop E s q (Fin (pitchScale s))) k)).
    { intros q k. pose proof (calculateHop_ok s q (Fin (pitchScale s)) (o_base _ O)) as [[] ? ? ?]. constructor; [by constructor|done..]. }
    case_match; [apply G|]. case_match; [|done]. case_match. case_match; [|done]. case_match. apply G.
  Qed.
  Lemma engine0_ok t p : sized E m c -> ok (engine0 RS E t p).
  Proof.
    intros Z0. pose proof (wss_pos Z0). unfold engine0. apply calculateHop_ok. constructor; cbn; try done; try lia.
    intros ->. eauto.
  Qed.
  Lemma reset_ok s : sized E m c -> ok s -> ok (reset RS E s).
  Proof.
    intros Z0 [[] ? ? ?]. pose proof (wss_pos Z0). unfold reset. apply setRatios_ok; [|done..]. constructor; cbn; try done; try lia.
    intros Hr. destruct (o_rt0 Hr) as [r ->]. cbn. eauto.
  Qed.
  Lemma study_ok s n : ok s -> ok (study E s n).
  Proof. intros O. unfold study. destruct (realTime E); [done|]. destruct (mode s); try done; destruct O as [[] ? ? ?]; (constructor; [by constructor|done..]). Qed.
  Lemma ensureIn_ok s n : ok s -> 0 <= n -> ok (ensureInbuf s n).
  Proof.
    intros [[] ? ? ?] Hn. pose proof (grown_ge n (inFill s) (inSize s) ltac:(lia) ltac:(lia) Hn).
    constructor; [constructor; cbn; try done; lia|done..].
  Qed.
  Lemma ensureOut_ok s n : ok s -> 0 <= n -> ok (ensureOutbuf s n).
  Proof.
    intros [[] ? ? ?] Hn. pose proof (grown_ge n (outFill s) (outSize s) ltac:(lia) ltac:(lia) Hn).
    constructor; [constructor; cbn; try done; lia|done..].
  Qed.

  (** The output hop of a call of consume. *)
  Definition effective (s : eng) : Q := match res s with Some r => reff RS r (1 / pitchScale s)%Q | None => (1 / pitchScale s)%Q end.
  Lemma effective_ge s : fair RS -> (0 < pitchScale s)%Q -> ((4 # 5) * (1 / pitchScale s) <= effective s)%Q.
  Proof.
    intros [_ F] Hp. unfold effective. assert (0 < 1 / pitchScale s)%Q by (apply Qlt_shift_div_l; lra). destruct (res s); [by apply F|lra].
  Qed.
  Lemma effective_ratio s : fair RS -> (0 < pitchScale s)%Q -> (0 < timeRatio s)%Q ->
    (0 <= timeRatio s / effective s /\ timeRatio s / effective s <= (5 # 4) * ratioOf s)%Q.
  Proof.
    intros F Hp Ht. pose proof (effective_ge s F Hp) as H. assert (Hi : (0 < 1 / pitchScale s)%Q) by (apply Qlt_shift_div_l; lra).
    assert (He : (0 < effective s)%Q) by lra. split.
    - apply Qle_shift_div_l; [done|]. lra.
    - apply Qle_shift_div_r; [done|]. unfold ratioOf.
      assert (X : (pitchScale s * effective s >= 4 # 5)%Q).
      { assert (pitchScale s * ((4 # 5) * (1 / pitchScale s)) <= pitchScale s * effective s)%Q.
        { rewrite (Qmult_comm _ (effective s)), (Qmult_comm (pitchScale s)). apply Qmult_le_compat_r; lra. }
        assert (pitchScale s * ((4 # 5) * (1 / pitchScale s)) == 4 # 5)%Q by (field; lra). lra. }
      assert (Y : ((5 # 4) * (timeRatio s * pitchScale s) * effective s == timeRatio s * ((5 # 4) * (pitchScale s * effective s)))%Q) by ring.
      rewrite Y. assert (timeRatio s * 1 <= timeRatio s * ((5 # 4) * (pitchScale s * effective s)))%Q; [|lra].
      rewrite (Qmult_comm _ 1), (Qmult_comm (timeRatio s)). apply Qmult_le_compat_r; lra.
  Qed.
  Lemma outhop_range s o k : sized E m c -> fair RS -> ok s -> outhopFor RS E s = (o, k) ->
    1 <= o /\ Calculator.Model.reset k = Calculator.Model.create (roundRate E) 1 false /\ (within s -> (inject_Z o <= (5 # 2) * inject_Z (maxOut E) + (1 # 2))%Q).
  Proof.
    intros Z0 F [[] Ht Hp Hh] H. unfold outhopFor in H. fold (effective s) in H.
    pose proof (inhop_range E m c (ratioOf s) Z0) as Hi. rewrite <- Hh in Hi.
    set (kk := Calculator.Model.Call (timeRatio s) (effective s) 1 (inhop s) (longestFft E) (longestFft E) true).
    change (Calculator.Model.calculateSingle (calculator s) (timeRatio s) (effective s) 1 (inhop s) (longestFft E) (longestFft E) true) with (Calculator.Model.single (calculator s) kk) in H.
    destruct (Calculator.Model.single (calculator s) kk) as [x k'] eqn:Ek. injection H as Ho <-.
    assert (o_hp0 : Calculator.Model.useHardPeaks (calculator s) = false) by (by injection o_cal0).
    assert (Hk : Calculator.Model.reset k' = Calculator.Model.create (roundRate E) 1 false).
    { rewrite <- o_cal0. unfold Calculator.Model.single, Calculator.Model.calculateSingle in Ek. rewrite o_hp0 in Ek. cbn [andb] in Ek. injection Ek as _ <-. unfold Calculator.Model.reset. cbn. by rewrite o_hp0. }
    destruct (effective_ratio s F Hp Ht) as [R1 R2].
    assert (Hnom : (nominal (calculator s) kk == inject_Z (inhop s) * (timeRatio s / effective s))%Q).
    { unfold nominal, overall. cbn. destruct (Z.eqb_spec (inhop s) 0); [lia|]. reflexivity. }
    assert (Hih : (0 < inject_Z (inhop s))%Q) by (change 0%Q with (inject_Z 0); rewrite <- Zlt_Qlt; lia).
    assert (Hn0 : (0 <= nominal (calculator s) kk)%Q). { rewrite Hnom. apply Qmult_le_0_compat; lra. }
    destruct (single_range _ _ _ _ Ek Hn0) as [(_ & Hx & _)|(X1 & X2 & X3)]; [congruence|].
    split; [|split; [done|]].
    - destruct (Z.ltb_spec x 1); lia.
    - intros W. assert (W' : (inject_Z (inhop s) * ratioOf s <= inject_Z (maxOut E))%Q).
      { rewrite Hh. apply (nominal_limit E m c); [done| |done]. unfold ratioOf. nra. }
      assert (Hnu : (nominal (calculator s) kk <= (5 # 4) * inject_Z (maxOut E))%Q).
      { rewrite Hnom. assert (inject_Z (inhop s) * (timeRatio s / effective s) <= inject_Z (inhop s) * ((5 # 4) * ratioOf s))%Q.
        { rewrite !(Qmult_comm (inject_Z (inhop s))). apply Qmult_le_compat_r; lra. } lra. }
      assert (1 <= inject_Z (maxOut E))%Q. { change 1%Q with (inject_Z 1). rewrite <- Zle_Qle. destruct Z0 as [Zm ? ? ? ? Zr]. destruct (short E); lia. }
      subst o. destruct (Z.ltb_spec x 1); [change (inject_Z 1) with 1%Q|]; lra.
  Qed.
  Lemma outhop_fits s o k : sized E m c -> fair RS -> ok s -> within s -> outhopFor RS E s = (o, k) -> o <= longestFft E.
  Proof.
    intros Z0 F O W H. destruct (outhop_range s o k Z0 F O H) as (_ & _ & H1). specialize (H1 W).
    assert (H2 : 2 * o <= 5 * maxOut E + 1).
    { rewrite Zle_Qle. rewrite inject_Z_plus, !inject_Z_mult. change (inject_Z 2) with 2%Q. change (inject_Z 5) with 5%Q. change (inject_Z 1) with 1%Q. lra. }
    destruct Z0 as [Zm Zc1 Zc2 Zc3 Zc Zr]. destruct (short E); lia.
  Qed.

  (** One frame. *)
  Record hopped (s s' : eng) (ih o count : Z) : Prop := Hopped {
    h_in : inFill s' = inFill s - Z.min (inFill s) ih; h_ins : inSize s' = inSize s;
    h_con : consumed s' = consumed s + Z.min (inFill s) ih;
    h_acc : accFill s' = if inFill s =? 0 then Z.max 0 (accFill s - o) else longestFft E;
    h_count : 0 <= count; h_cap : count = o \/ count <= hopBuffer E;
    h_plain : (resampling E s).2 = false -> count = o /\ res s' = res s;
    h_trail : trail s' = (Z.min (inFill s) ih, o, count) :: trail s;
    h_same : timeRatio s' = timeRatio s /\ pitchScale s' = pitchScale s /\ inhop s' = inhop s /\ studied s' = studied s /\ supplied s' = supplied s /\
             target s' = target s /\ lastKey s' = lastKey s /\ keys s' = keys s /\ mode s' = mode s /\ calculator s' = calculator s;
    h_res : is_Some (res s) <-> is_Some (res s');
    h_out : let wc := if negb (realTime E) && (0 <? target s) && (target s <? totalOut s + count) then target s - totalOut s else count in
            let size := grown o (outFill s) (outSize s) in
            let w := Z.min wc (size - outFill s) in
            outSize s' = size /\ lost s' = lost s + (wc - w) /\
            if 0 <? startSkip s
            then let k := Z.min (startSkip s) (outFill s + w) in
                 outFill s' = outFill s + w - k /\ startSkip s' = startSkip s - k /\ totalOut s' = outFill s + w - k
            else outFill s' = outFill s + w /\ startSkip s' = startSkip s /\ totalOut s' = totalOut s + wc
  }.
  Lemma hop_spec s f ih o s' : fair RS -> sized E m c -> 0 <= accFill s -> 0 <= o -> hop RS E s f ih o (inFill s) = Some s' -> exists count, hopped s s' ih o count.
  Proof.
    intros [F _] Z0 Ha Ho H. pose proof (hop_buffer Z0) as Hb. unfold hop in H. cbv zeta in H. destruct (longestFft E <? o); [done|].
    match type of H with (let '(_, _) := ?X in _) = _ => destruct X as [count r] eqn:Ec end.
    change (resampling E (ensureOutbuf s o)) with (resampling E s) in Ec. change (res (ensureOutbuf s o)) with (res s) in Ec.
    assert (Cn : 0 <= count /\ (count = o \/ count <= hopBuffer E) /\ ((resampling E s).2 = false -> count = o /\ r = res s) /\ (is_Some (res s) <-> is_Some r)).
    { destruct ((resampling E s).2) eqn:Er; [destruct (res s) as [r0|] eqn:Es|].
      - match type of Ec with (let '(_, _) := ?X in _) = _ => pose proof (F r0 (hopBuffer E) o (1 / pitchScale s)%Q (f && (inFill s <? ih) && ((if inFill s =? 0 then if o <? accFill s then accFill s - o else 0 else longestFft E) <=? o)) ltac:(lia) Ho) as HF; destruct X as [n r1] eqn:Ex end.
        cbn [accFill ensureOutbuf withOut pitchScale] in Ex. rewrite Ex in HF. cbn in HF. injection Ec as -> <-. split; [lia|]. split; [lia|]. split; [done|]. split; eauto.
      - injection Ec as -> <-. split; [lia|]. split; [by left|]. done.
      - assert (count = o /\ r = res s) as [-> ->] by (destruct (res s); by injection Ec as -> ->). split; [lia|]. split; [by left|]. done. }
    destruct Cn as (C1 & C2 & C3 & C4). exists count.
    change (startSkip (ensureOutbuf s o)) with (startSkip s) in H.
    destruct (0 <? startSkip s) eqn:Esk; injection H as <-;
      (constructor; cbn -[Z.min Z.max Z.ltb hopBuffer grown]; try done;
       [ destruct (Z.ltb_spec (inFill s) ih); lia | destruct (Z.ltb_spec (inFill s) ih); lia
       | destruct (inFill s =? 0); [destruct (Z.ltb_spec o (accFill s)); lia|done]
       | do 2 f_equal; f_equal; destruct (Z.ltb_spec (inFill s) ih); lia
       | rewrite Esk; done ]).
  Qed.
  Lemma hop_some s f ih o rs : o <= longestFft E -> is_Some (hop RS E s f ih o rs).
  Proof.
    intros Ho. unfold hop. cbv zeta. destruct (Z.ltb_spec (longestFft E) o); [lia|].
    match goal with |- context [let '(_, _) := ?X in _] => destruct X as [count r] end.
    destruct (0 <? startSkip (ensureOutbuf s o)); eauto.
  Qed.

  (** Frames, input and new hops. *)
  Inductive move (s : eng) : eng -> Prop :=
  | M_hop s' ih o count : 1 <= ih -> 1 <= o -> hopped s s' ih o count -> move s s'
  | M_in r f z : inFill s <= f <= z -> inSize s <= z -> (is_Some (res s) <-> is_Some r) -> move s (withIn (withRes s r) f z)
  | M_calc k : Calculator.Model.reset k = Calculator.Model.create (roundRate E) 1 false -> move s (withCalc s k).
  Lemma move_ok s s' : sized E m c -> ok s -> move s s' -> ok s'.
  Proof.
    intros Z0 [[] Ht Hp Hh] M. pose proof (wss_pos Z0) as Hw. destruct M as [s' ih o count Hih Ho H|r f z H1 H2 H3|k Hk].
    - destruct H. destruct h_same0 as (S1 & S2 & S3 & S4 & S5 & S6 & S7 & S8 & S9 & S10).
      cbv zeta in h_out0. destruct h_out0 as (U1 & U2 & U3).
      pose proof (grown_ge o (outFill s) (outSize s) ltac:(lia) ltac:(lia) ltac:(lia)) as [G1 G2].
      set (wc := if negb (realTime E) && (0 <? target s) && (target s <? totalOut s + count) then target s - totalOut s else count) in *.
      set (size := grown o (outFill s) (outSize s)) in *.
      assert (Hwc : 0 <= wc <= count /\ (realTime E = false -> 0 < target s -> totalOut s + wc <= target s)).
      { unfold wc. destruct (realTime E); cbn [negb andb]; [split; [lia|done]|]. specialize (o_target0 eq_refl).
        destruct (Z.ltb_spec 0 (target s)); cbn [andb]; [|split; [lia|intros; lia]].
        destruct (Z.ltb_spec (target s) (totalOut s + count)); split; try lia. }
      destruct Hwc as [W1 W2].
      destruct (Z.ltb_spec 0 (startSkip s)) as [Hsk|Hsk].
      + destruct (o_wait0 Hsk) as [Wa Wb]. destruct U3 as (U3 & U4 & U5).
        constructor; [constructor|..]; rewrite ?U1, ?U2, ?U3, ?U4, ?U5, ?S1, ?S2, ?S3, ?S6, ?S10, ?h_ins0, ?h_con0, ?h_in0; try lia; try done.
        * rewrite h_acc0. destruct (inFill s =? 0); lia.
        * intros Hr. apply h_res0. auto.
        * rewrite Hh. unfold ratioOf. by rewrite S1, S2.
      + destruct U3 as (U3 & U4 & U5).
        constructor; [constructor|..]; rewrite ?U1, ?U2, ?U3, ?U4, ?U5, ?S1, ?S2, ?S3, ?S6, ?S10, ?h_ins0, ?h_con0, ?h_in0; try lia; try done.
        * rewrite h_acc0. destruct (inFill s =? 0); lia.
        * intros Hr. apply h_res0. auto.
        * rewrite Hh. unfold ratioOf. by rewrite S1, S2.
    - constructor; [constructor; cbn; try done; try lia|done..]. intros Hr. apply H3. auto.
    - constructor; [constructor; cbn; try done; try lia|done..].
  Qed.
  Definition moves := rtc move.
  Lemma moves_ok s s' : sized E m c -> ok s -> moves s s' -> ok s'.
  Proof. intros Z0 O H. induction H; [done|]. eauto using move_ok. Qed.
  (** What moves keep. *)
  Lemma move_same s s' : move s s' -> timeRatio s' = timeRatio s /\ pitchScale s' = pitchScale s /\ inhop s' = inhop s /\ studied s' = studied s /\ supplied s' = supplied s /\
             target s' = target s /\ lastKey s' = lastKey s /\ keys s' = keys s /\ mode s' = mode s /\ (is_Some (res s) <-> is_Some (res s')).
  Proof.
    intros M. destruct M as [s' ih o count Hih Ho H|r f z H1 H2 H3|k Hk]; [|done..].
    destruct H. destruct h_same0 as (S1 & S2 & S3 & S4 & S5 & S6 & S7 & S8 & S9 & S10). do 9 (split; [done|]). done.
  Qed.
  Lemma moves_same s s' : moves s s' -> timeRatio s' = timeRatio s /\ pitchScale s' = pitchScale s /\ inhop s' = inhop s /\ studied s' = studied s /\ supplied s' = supplied s /\
             target s' = target s /\ lastKey s' = lastKey s /\ keys s' = keys s /\ mode s' = mode s /\ (is_Some (res s) <-> is_Some (res s')).
  Proof.
    intros H. induction H as [|x y z M _ IH]; [do 9 (split; [done|]); done|].
    destruct (move_same _ _ M) as (S1 & S2 & S3 & S4 & S5 & S6 & S7 & S8 & S9 & S10).
    destruct IH as (T1 & T2 & T3 & T4 & T5 & T6 & T7 & T8 & T9 & T10).
    do 9 (split; [congruence|]). by rewrite S10, T10.
  Qed.

  Lemma loop_moves fuel : forall s f ih o s', sized E m c -> fair RS -> ok s -> 1 <= ih -> 1 <= o ->
    consumeLoop RS E fuel s f ih o = Some s' -> moves s s'.
  Proof.
    induction fuel as [|fuel IH]; intros s f ih o s' Z0 F O Hih Ho H; [done|]. cbn [consumeLoop] in H. cbv zeta in H.
    match type of H with (if ?b then _ else _) = _ => destruct b end; [injection H as <-; apply rtc_refl|].
    destruct (hop RS E s f ih o (inFill s)) as [s1|] eqn:E1; [|done]. binds.
    destruct (hop_spec s f ih o s1 F Z0 ltac:(destruct (o_base _ O); lia) ltac:(lia) E1) as [count Hc].
    pose proof (M_hop s s1 ih o count Hih Ho Hc) as M. eapply rtc_l; [exact M|]. apply (IH s1 f ih o s' Z0 F (move_ok _ _ Z0 O M) Hih Ho H).
  Qed.
  Lemma consume_moves s f s' : sized E m c -> fair RS -> ok s -> consume RS E s f = Some s' -> moves s s'.
  Proof.
    intros Z0 F O H. unfold consume in H. destruct (outhopFor RS E s) as [o k] eqn:Eo. destruct (outhop_range s o k Z0 F O Eo) as (H1 & H2 & _).
    assert (M : move s (withCalc s k)) by (by apply M_calc). eapply rtc_l; [exact M|].
    eapply loop_moves; [done|done|by eapply move_ok| |exact H1|exact H]. destruct O as [? ? ? Hh]. rewrite Hh. by apply (inhop_range E m c).
  Qed.

  Lemma feed_moves fuel : forall s b n i f s', sized E m c -> fair RS -> ok s -> feed RS E fuel s b n i f = Some s' -> moves s s'.
  Proof.
    induction fuel as [|fuel IH]; intros s b n i f s' Z0 F O H; [done|]. cbn [feed] in H.
    destruct (Z.leb_spec n i) as [Hni|Hni]; [injection H as <-; apply rtc_refl|]. cbv zeta in H.
    destruct (if inSize s - inFill s =? 0 then consume RS E s false else Some s) as [s0|] eqn:E0; [|done]. binds.
    assert (M0 : moves s s0). { destruct (inSize s - inFill s =? 0); [by eapply consume_moves|]. injection E0 as <-. apply rtc_refl. }
    pose proof (moves_ok _ _ Z0 O M0) as O0. etrans; [exact M0|]. clear E0 M0.
    set (s1 := ensureInbuf s0 (n - i)) in *.
    assert (M1 : moves s0 s1).
    { apply rtc_once. unfold s1, ensureInbuf. destruct O0 as [[] ? ? ?]. pose proof (grown_ge (n - i) (inFill s0) (inSize s0) ltac:(lia) ltac:(lia) ltac:(lia)).
      exact (M_in s0 (res s0) (inFill s0) (grown (n - i) (inFill s0) (inSize s0)) ltac:(lia) ltac:(lia) ltac:(done)). }
    pose proof (moves_ok _ _ Z0 O0 M1) as O1. etrans; [exact M1|]. clear M1.
    match type of H with (?X ≫= _) = _ => destruct X as [[s2 took]|] eqn:E2 end; [|done]. binds.
    assert (M2 : moves s1 s2).
    { apply rtc_once. destruct O1 as [[] ? ? ?]. change (inFill s1) with (inFill s0) in *.
      destruct b; [destruct (res s1) as [r|] eqn:Er|].
      - match type of E2 with context [rres RS r ?cap ?take ?q ?fl] => set (tk := take) in * end.
        match type of E2 with context [rres RS r ?cap ?take ?q ?fl] => pose proof (proj1 F r cap take q fl) as HF; destruct (rres RS r cap take q fl) as [got r'] eqn:Ex end.
        injection E2 as <- <-. apply M_in; [|done|rewrite Er; split; eauto].
        assert (0 <= got).
        { cbn [fst] in HF. refine (proj1 (HF _ _)); [pose proof (hop_buffer Z0); lia|]. unfold tk. match goal with |- 0 <= (if ?t =? 0 then 1 else ?t) => assert (0 <= t) end.
          - apply Z.min_glb; [lia|]. apply floor_least. change (inject_Z 0) with 0%Q. apply Qmult_le_0_compat; [|lra]. change 0%Q with (inject_Z 0). rewrite <- Zle_Qle. pose proof (hop_buffer Z0). lia.
          - destruct (_ =? 0); lia. }
        change (inFill s1) with (inFill s0). change (inSize s1) with (grown (n - i) (inFill s0) (inSize s0)) in o_in0. lia.
      - injection E2 as <- <-. change (withIn s1 ?a ?b) with (withIn (withRes s1 (res s1)) a b). change (inSize s1) with (grown (n - i) (inFill s0) (inSize s0)) in *; change (inFill s1) with (inFill s0); apply M_in; [cbn -[grown Z.min]; lia|cbn -[grown]; lia|done].
      - injection E2 as <- <-. change (withIn s1 ?a ?b) with (withIn (withRes s1 (res s1)) a b). change (inSize s1) with (grown (n - i) (inFill s0) (inSize s0)) in *; change (inFill s1) with (inFill s0); apply M_in; [cbn -[grown Z.min]; lia|cbn -[grown]; lia|done]. }
    pose proof (moves_ok _ _ Z0 O1 M2) as O2. etrans; [exact M2|]. clear M2 E2.
    destruct (consume RS E s2 (f && (n <=? i + took))) as [s3|] eqn:E3; [|done]. binds.
    pose proof (consume_moves _ _ _ Z0 F O2 E3) as M3. etrans; [exact M3|]. eapply IH; eauto using moves_ok.
  Qed.
End Engine.
