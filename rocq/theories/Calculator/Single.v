(** Proofs about [calculateSingle]. *)
From stdpp Require Import prelude.
From Coq Require Import ZArith QArith Qround Qfield Lia Lqa ZifyBool.
From Verif.Base Require Import Arith.
From Verif.Calculator Require Import Model Spec Peaks.
Local Open Scope Z_scope.

Lemma nonneg_Q z : 0 <= z -> (0 <= inject_Z z)%Q.
Proof. intros. change 0%Q with (inject_Z 0). by rewrite inject_Z_inj_le. Qed.

(** ** Range *)
Definition nominal (c : calc) (k : call) : Q :=
  inject_Z (if inIncr k =? 0 then increment c else inIncr k) * overall k.

Lemma single_range c k x c' : single c k = (x, c') -> (0 <= nominal c k)%Q ->
  (x = - (if inIncr k =? 0 then increment c else inIncr k) /\ useHardPeaks c = true /\
   transientAmnesty c <= 0 /\ ltQ (35 # 100) (dfValue k) = true) \/
  (0 <= x /\ (nominal c k * (3 # 10) - (1 # 2) <= inject_Z x)%Q /\ (inject_Z x <= nominal c k * 2 + (1 # 2))%Q).
Proof.
  unfold single, calculateSingle. intros E Hn. unfold nominal, overall in *.
  set (incr := if inIncr k =? 0 then increment c else inIncr k) in *.
  set (tr := useHardPeaks c && _ && _ && _ && _) in *. destruct tr eqn:Etr.
  - injection E as <- _. left. unfold tr in Etr. rewrite !andb_true_iff in Etr. split; [done|].
    destruct Etr as [[[[H1 H2] H3] H4] H5]. split_and!; [done| |done]. lia.
  - cbv zeta in E. injection E as <- _. right. set (y := (inject_Z incr * (timeRatio k / pitchRatio k))%Q) in *.
    match goal with |- context [rint (inject_Z _ - ?r)%Q] => set (rec := r) end.
    destruct (rint_near (y * (3 # 10))) as [Hl1 Hl2], (rint_near (y * 2)) as [Hh1 Hh2].
    assert (0 <= rint (y * (3 # 10))) by (apply rint_nonneg; lra).
    assert (rint (y * (3 # 10)) <= rint (y * 2)) by (apply rint_le; lra).
    set (i := rint (inject_Z (rint y) - rec)%Q). set (lo := rint (y * (3 # 10))) in *. set (hi := rint (y * 2)) in *.
    set (v := if i <? lo then lo else if hi <? i then hi else i).
    assert (Hv : lo <= v <= hi) by (unfold v; destruct (Z.ltb_spec i lo); [lia|]; destruct (Z.ltb_spec hi i); lia).
    destruct (Z.ltb_spec v 0); [lia|]. destruct Hv as [Hv1 Hv2].
    rewrite <- inject_Z_inj_le in Hv1, Hv2. split; [lia|]. split; lra.
Qed.

(** ** No transients during the amnesty *)
Lemma single_next c k x c' : single c k = (x, c') ->
  sampleRate c' = sampleRate c /\ increment c' = increment c /\ useHardPeaks c' = useHardPeaks c /\
  keyFrameMap c' = keyFrameMap c.
Proof.
  unfold single, calculateSingle. set (tr := useHardPeaks c && _ && _ && _ && _). destruct tr; intros E; injection E as _ <-; done.
Qed.
Lemma single_amnesty c k x c' : single c k = (x, c') -> (0 <= nominal c k)%Q ->
  (0 < transientAmnesty c -> 0 <= x /\ transientAmnesty c' = transientAmnesty c - 1) /\
  (x < 0 -> transientAmnesty c' = spacing (sampleRate c) (if inIncr k =? 0 then increment c else inIncr k)).
Proof.
  intros E Hn. pose proof (single_range c k x c' E Hn) as Hr. split.
  - intros Ha. destruct Hr as [(_ & _ & H & _)|[H _]]; [lia|]. split; [done|].
    unfold single, calculateSingle in E. set (tr := useHardPeaks c && _ && _ && _ && _) in E.
    assert (tr = false) as Htr.
    { unfold tr. destruct (Z.ltb_spec 0 (transientAmnesty c)); [|lia]. by rewrite andb_false_r. }
    rewrite Htr in E. injection E as _ <-. cbn [transientAmnesty]. destruct (Z.ltb_spec 0 (transientAmnesty c)); lia.
  - intros Hx. unfold single, calculateSingle in E. set (tr := useHardPeaks c && _ && _ && _ && _) in E.
    destruct tr eqn:Etr; [injection E as _ <-; done|]. exfalso.
    destruct Hr as [(Hx' & H1 & H2 & H3)|[H _]]; [|lia].
    cbv zeta in E. injection E as Ex _.
    set (y := (inject_Z _ * (timeRatio k / pitchRatio k))%Q) in Ex.
    match type of Ex with (if ?v <? 0 then _ else _) = _ => destruct (Z.ltb_spec v 0); lia end.
Qed.

Lemma singles_len ks : forall c xs c', singles c ks = (xs, c') -> length xs = length ks.
Proof.
  induction ks as [|k ks IH]; intros c xs c' E; cbn [singles] in E; [by injection E as <- _|].
  destruct (single c k) as [x c1]. destruct (singles c1 ks) as [ys c2] eqn:E2. injection E as <- _.
  cbn. f_equal. by eapply IH.
Qed.

Lemma singles_quiet ks : forall c xs c', singles c ks = (xs, c') -> Forall (fun k => 0 <= nominal c k)%Q ks ->
  forall j x, (Z.of_nat j < transientAmnesty c) -> xs !! j = Some x -> 0 <= x.
Proof.
  induction ks as [|k ks IH]; intros c xs c' E Hn j x Hj Hx; cbn [singles] in E; [injection E as <- _; done|].
  destruct (single c k) as [y c1] eqn:E1. destruct (singles c1 ks) as [ys c2] eqn:E2. injection E as <- _.
  apply Forall_cons_1 in Hn as [Hn1 Hn2].
  destruct (single_amnesty c k y c1 E1 Hn1) as [Ha _]. destruct (Ha ltac:(lia)) as [Hy Hd].
  destruct j as [|j]; [by injection Hx as <-|]. cbn in Hx. eapply (IH c1 ys c2 E2); [|rewrite Hd|exact Hx].
  - destruct (single_next _ _ _ _ E1) as (_ & Hi & _). eapply Forall_impl; [exact Hn2|].
    intros q Hq. unfold nominal in *. by rewrite Hi.
  - lia.
Qed.

Lemma singles_spaced ks : forall c xs c', singles c ks = (xs, c') ->
  1 <= sampleRate c -> Forall (fun k => (0 <= nominal c k)%Q /\ 1 <= inIncr k) ks ->
  forall i j k x y, (i < j)%nat -> ks !! i = Some k -> xs !! i = Some x -> xs !! j = Some y -> x < 0 -> y < 0 ->
  sampleRate c <= 20 * inIncr k * (Z.of_nat j - Z.of_nat i - 1).
Proof.
  induction ks as [|k ks IH]; intros c xs c' E Hrate Hn i j k0 x y Hij Hk Hx Hy Hxn Hyn; cbn [singles] in E;
    [injection E as <- _; done|].
  destruct (single c k) as [z c1] eqn:E1. destruct (singles c1 ks) as [zs c2] eqn:E2. injection E as <- _.
  apply Forall_cons_1 in Hn as [[Hn1 Hi1] Hn2]. destruct (single_next _ _ _ _ E1) as (Hr & Hi & _).
  assert (Hn3 : Forall (fun k => (0 <= nominal c1 k)%Q /\ 1 <= inIncr k) ks).
  { eapply Forall_impl; [exact Hn2|]. intros q [Hq Hq2]. split; [|done]. unfold nominal in *. by rewrite Hi. }
  destruct j as [|j]; [lia|]. cbn in Hy. destruct i as [|i]; cbn in Hk, Hx.
  - injection Hk as ->. injection Hx as ->. destruct (single_amnesty _ _ _ _ E1 Hn1) as [_ Ha]. specialize (Ha Hxn).
    destruct (Z.eqb_spec (inIncr k0) 0); [lia|].
    destruct (spacing_bounds (sampleRate c) (inIncr k0) Hrate Hi1) as [Hs1 Hs2].
    assert (Hge : transientAmnesty c1 <= Z.of_nat j).
    { destruct (Z_lt_ge_dec (Z.of_nat j) (transientAmnesty c1)) as [Hlt|]; [|lia].
      assert (0 <= y); [|lia]. eapply (singles_quiet ks c1 zs c2 E2); [|exact Hlt|exact Hy].
      eapply Forall_impl; [exact Hn3|]. intros q [Hq _]. exact Hq. }
    rewrite Ha in Hge. nia.
  - rewrite <- Hr. replace (Z.of_nat (S j) - Z.of_nat (S i) - 1) with (Z.of_nat j - Z.of_nat i - 1) by lia.
    eapply (IH c1 zs c2 E2); try done; [lia|lia].
Qed.

(** ** Reset *)
Lemma singles_keeps ks : forall c xs c', singles c ks = (xs, c') ->
  sampleRate c' = sampleRate c /\ increment c' = increment c /\ useHardPeaks c' = useHardPeaks c.
Proof.
  induction ks as [|k ks IH]; intros c xs c' E; cbn [singles] in E; [by injection E as _ <-|].
  destruct (single c k) as [x c1] eqn:E1. destruct (singles c1 ks) as [ys c2] eqn:E2. injection E as _ <-.
  destruct (single_next _ _ _ _ E1) as (H1 & H2 & H3 & _). destruct (IH _ _ _ E2) as (G1 & G2 & G3).
  by rewrite G1, G2, G3.
Qed.

(** ** Drift *)

(** One step of the feedback loop: projected position [P], intended one [E]. *)
Lemma recover b e T (I : Z) (P E : Q) :
  (0 < e)%Q -> (e <= 4)%Q -> 1 <= I -> (8 <= inject_Z I * (T / e))%Q -> (- b <= P - E)%Q -> (P - E <= b)%Q ->
  (0 <= b)%Q -> (b <= 27 # 2)%Q ->
  let dv := cround P - cround E in
  let y := (inject_Z I * (T / e))%Q in
  let i := rint (inject_Z (rint y) - inject_Z dv / 4) in
  far 1000 dv = false /\ far 100 dv = false /\ rint (y * (3 # 10)) <= i /\ i <= rint (y * 2) /\
  (- ((1 - e / 4) * b + (5 # 4) * e) <= P + inject_Z i * e - (E + inject_Z I * T))%Q /\
  (P + inject_Z i * e - (E + inject_Z I * T) <= (1 - e / 4) * b + (5 # 4) * e)%Q.
Proof.
  intros He He4 HI Hy HP1 HP2 Hb0 Hb dv y i.
  destruct (cround_near P) as [Pa Pb], (cround_near E) as [Ea Eb].
  assert (Hdiv : (inject_Z dv == inject_Z (cround P) - inject_Z (cround E))%Q).
  { unfold dv, Z.sub. rewrite inject_Z_plus, inject_Z_opp. ring. }
  assert (Hd1 : (- (29 # 2) <= inject_Z dv)%Q) by lra. assert (Hd2 : (inject_Z dv <= 29 # 2)%Q) by lra.
  assert (Hz : -15 < dv < 15).
  { split; apply inject_Z_inj_lt; change (inject_Z (-15)) with (-(15))%Q; change (inject_Z 15) with 15%Q; lra. }
  assert (Hf : forall n, 15 <= n -> far n dv = false) by (intros n Hn; unfold far; lia).
  fold y in Hy. destruct (rint_near y) as [Ya Yb].
  destruct (rint_near (inject_Z (rint y) - inject_Z dv / 4)) as [Ia Ib]. fold i in Ia, Ib.
  destruct (rint_near (y * (3 # 10))) as [La Lb], (rint_near (y * 2)) as [Ha Hb'].
  split; [by apply Hf|]. split; [by apply Hf|].
  assert (Hdq : (inject_Z dv / 4 == inject_Z dv * (1 # 4))%Q) by field.
  rewrite Hdq in Ia, Ib.
  split; [apply Q_lt_Z; lra|]. split; [apply Q_lt_Z; lra|].
  assert (HyT : (inject_Z I * T == y * e)%Q) by (unfold y; field; lra).
  set (yi := inject_Z (rint y)) in *. set (ii := inject_Z i) in *. set (d := inject_Z dv) in *.
  (* [ii = y + error - d/4], [d = P - E + error] *)
  assert (Hii1 : (y - 1 - d * (1 # 4) <= ii)%Q) by lra.
  assert (Hii2 : (ii <= y + 1 - d * (1 # 4))%Q) by lra.
  assert (Hdd1 : (P - E - 1 <= d)%Q) by lra. assert (Hdd2 : (d <= P - E + 1)%Q) by lra.
  assert (H1 : (y - (5 # 4) - (P - E) * (1 # 4) <= ii)%Q) by lra.
  assert (H2 : (ii <= y + (5 # 4) - (P - E) * (1 # 4))%Q) by lra.
  assert (He4q : (e / 4 == e * (1 # 4))%Q) by field. rewrite He4q.
  set (D := (P - E)%Q) in *.
  assert (HDe : (P + ii * e - (E + inject_Z I * T) == D + e * (ii - y))%Q) by (unfold D; rewrite HyT; ring).
  rewrite HDe.
  assert (Hl : (e * (- (5 # 4) - D * (1 # 4)) <= e * (ii - y))%Q) by (apply Qmult_le_l; lra).
  assert (Hu : (e * (ii - y) <= e * ((5 # 4) - D * (1 # 4)))%Q) by (apply Qmult_le_l; lra).
  assert (Hc : (0 <= 1 - e * (1 # 4))%Q) by lra.
  assert (Hm1 : (- ((1 - e * (1 # 4)) * b) <= (1 - e * (1 # 4)) * D)%Q) by nra.
  assert (Hm2 : ((1 - e * (1 # 4)) * D <= (1 - e * (1 # 4)) * b)%Q) by nra.
  split; lra.
Qed.

Definition quiet (c : calc) (k : call) : Prop := useHardPeaks c = false \/ (dfValue k <= 35 # 100)%Q.

(** The position a checkpoint predicts. *)
Definition predicted (cp : Z * Z) (inFrame : Z) (T : Q) : Q := inject_Z (snd cp) + inject_Z (inFrame - fst cp) * T.

Lemma predicted_same cp n T T' : (T == T')%Q -> (predicted cp n T == predicted cp n T')%Q.
Proof. intros E. unfold predicted. by rewrite E. Qed.

Lemma single_step c k b x c' : single c k = (x, c') -> quiet c k -> aligned k = true ->
  (0 < pitchRatio k)%Q -> (pitchRatio k <= 4)%Q -> 1 <= inIncr k -> (8 <= inject_Z (inIncr k) * overall k)%Q ->
  (0 <= b)%Q -> (b <= 27 # 2)%Q ->
  (- b <= outFrameCounter c - predicted (frameCheckpoint c') (inFrameCounter c) (timeRatio k))%Q ->
  (outFrameCounter c - predicted (frameCheckpoint c') (inFrameCounter c) (timeRatio k) <= b)%Q ->
  let b' := ((1 - pitchRatio k / 4) * b + (5 # 4) * pitchRatio k)%Q in
  0 <= x /\ inFrameCounter c' = inFrameCounter c + inIncr k /\
  (outFrameCounter c' == outFrameCounter c + inject_Z (Z.abs x) * pitchRatio k)%Q /\
  (- b' <= outFrameCounter c' - predicted (frameCheckpoint c') (inFrameCounter c') (timeRatio k))%Q /\
  (outFrameCounter c' - predicted (frameCheckpoint c') (inFrameCounter c') (timeRatio k) <= b')%Q.
Proof.
  intros E Hq Hal He He4 Hi Hy Hb0 Hb HP1 HP2 b'.
  unfold single, calculateSingle in E. rewrite Hal in E.
  destruct (Z.eqb_spec (inIncr k) 0); [lia|].
  cbv zeta in E.
  match type of E with context [if ?b then (inFrameCounter c, ?z) else frameCheckpoint c] =>
    set (cp := if b then (inFrameCounter c, z) else frameCheckpoint c) in E end.
  assert (Htr : useHardPeaks c && ltQ (prevDf c * (11 # 10)) (dfValue k) && ltQ (35 # 100) (dfValue k) = false).
  { destruct Hq as [->|Hd]; [done|]. apply ltQ_false in Hd. rewrite Hd. by rewrite andb_false_r. }
  rewrite Htr in E. cbn [andb] in E.
  assert (Hcp : frameCheckpoint c' = cp) by by injection E as _ <-. rewrite Hcp in HP1, HP2 |- *.
  unfold overall in Hy.
  destruct (recover b (pitchRatio k) (timeRatio k) (inIncr k) (outFrameCounter c) (predicted cp (inFrameCounter c) (timeRatio k))
    He He4 Hi Hy HP1 HP2 Hb0 Hb) as (F1 & F2 & Hlo & Hhi & Hd1 & Hd2).
  unfold expectedOutFrame in E. fold (predicted cp (inFrameCounter c) (timeRatio k)) in E.
  rewrite F1, F2 in E.
  set (i := rint (inject_Z (rint (inject_Z (inIncr k) * (timeRatio k / pitchRatio k))) -
    inject_Z (cround (outFrameCounter c) - cround (predicted cp (inFrameCounter c) (timeRatio k))) / 4)) in *.
  destruct (Z.ltb_spec i (rint (inject_Z (inIncr k) * (timeRatio k / pitchRatio k) * (3 # 10)))); [lia|].
  destruct (Z.ltb_spec (rint (inject_Z (inIncr k) * (timeRatio k / pitchRatio k) * 2)) i); [lia|].
  assert (0 <= rint (inject_Z (inIncr k) * (timeRatio k / pitchRatio k) * (3 # 10))) by (apply rint_nonneg; lra).
  destruct (Z.ltb_spec i 0); [lia|]. injection E as <- <-. cbn [outFrameCounter inFrameCounter].
  rewrite Z.abs_eq by lia. split; [lia|]. split; [done|]. split; [reflexivity|].
  assert (Hp : (predicted cp (inFrameCounter c + inIncr k) (timeRatio k) ==
    predicted cp (inFrameCounter c) (timeRatio k) + inject_Z (inIncr k) * timeRatio k)%Q).
  { unfold predicted. replace (inFrameCounter c + inIncr k - cp.1) with (inFrameCounter c - cp.1 + inIncr k) by lia.
    rewrite inject_Z_plus. ring. }
  rewrite Hp. split; [exact Hd1|exact Hd2].
Qed.

(** The checkpoint a call uses. *)
Lemma single_checkpoint c k x c' : single c k = (x, c') ->
  justReset c' = false /\ prevRatio c' = overall k /\ prevTimeRatio c' = timeRatio k /\
  frameCheckpoint c' = (if negb (justReset c) && negb (Qeq_bool (overall k) (prevRatio c))
     then (inFrameCounter c, cround (predicted (frameCheckpoint c) (inFrameCounter c) (prevTimeRatio c)))
     else frameCheckpoint c).
Proof.
  unfold single, calculateSingle. fold (overall k). set (tr := useHardPeaks c && _ && _ && _ && _).
  destruct tr; intros E; injection E as _ <-; done.
Qed.

Definition good_call (c : calc) (emin : Q) (k : call) : Prop :=
  quiet c k /\ aligned k = true /\ (emin <= pitchRatio k)%Q /\ (0 < pitchRatio k)%Q /\ (pitchRatio k <= 4)%Q /\
  1 <= inIncr k /\ (8 <= inject_Z (inIncr k) * overall k)%Q.

(** With the ratios constant. *)
Lemma steady ks : forall c xs c' T R, singles c ks = (xs, c') ->
  Forall (good_call c 0) ks -> Forall (fun k => timeRatio k == T /\ overall k == R)%Q ks ->
  (justReset c = true \/ (prevRatio c == R)%Q) ->
  (- (5) <= outFrameCounter c - predicted (frameCheckpoint c) (inFrameCounter c) T)%Q ->
  (outFrameCounter c - predicted (frameCheckpoint c) (inFrameCounter c) T <= 5)%Q ->
  frameCheckpoint c' = frameCheckpoint c /\ inFrameCounter c' = inFrameCounter c + sumZ (inIncr <$> ks) /\
  (outFrameCounter c' == outFrameCounter c + produced ks xs)%Q /\
  (- (5) <= outFrameCounter c' - predicted (frameCheckpoint c') (inFrameCounter c') T)%Q /\
  (outFrameCounter c' - predicted (frameCheckpoint c') (inFrameCounter c') T <= 5)%Q.
Proof.
  induction ks as [|k ks IH]; intros c xs c' T R E Hg Hc Hj H1 H2; cbn [singles] in E.
  { injection E as <- <-. cbn [produced]. change (sumZ (inIncr <$> [])) with 0. split; [done|]. split; [lia|].
    split; [ring|]. done. }
  destruct (single c k) as [x c1] eqn:E1. destruct (singles c1 ks) as [ys c2] eqn:E2. injection E as <- <-.
  apply Forall_cons_1 in Hg as [(Hq & Hal & _ & He & He4 & Hi & Hy) Hg]. apply Forall_cons_1 in Hc as [[HT HR] Hc].
  destruct (single_checkpoint _ _ _ _ E1) as (Hjr & Hpr & Hpt & Hcp).
  assert (Hcp' : frameCheckpoint c1 = frameCheckpoint c).
  { rewrite Hcp. destruct Hj as [->|Hj]; [done|]. assert (Qeq_bool (overall k) (prevRatio c) = true) as ->.
    { apply Qeq_bool_iff. by rewrite HR, Hj. } by rewrite andb_false_r. }
  pose proof (predicted_same (frameCheckpoint c) (inFrameCounter c) _ _ HT) as Hps.
  destruct (single_step c k 5 x c1 E1 Hq Hal He He4 Hi Hy) as (Hx & Hin & Hout & Hb1 & Hb2); [lra|lra|rewrite Hcp'; lra..|].
  assert (Hfive : ((1 - pitchRatio k / 4) * 5 + (5 # 4) * pitchRatio k == 5)%Q) by field.
  rewrite Hfive in Hb1, Hb2.
  pose proof (predicted_same (frameCheckpoint c1) (inFrameCounter c1) _ _ HT) as Hps1.
  destruct (single_next _ _ _ _ E1) as (_ & _ & Hh & _).
  destruct (IH c1 ys c2 T R E2) as (G1 & G2 & G3 & G4 & G5).
  - eapply Forall_impl; [exact Hg|]. intros q (Q1 & Q2). split; [|done]. unfold quiet in *. by rewrite Hh.
  - done.
  - right. by rewrite Hpr.
  - lra.
  - lra.
  - split; [congruence|]. split; [rewrite G2, Hin; change (sumZ (inIncr <$> k :: ks)) with (inIncr k + sumZ (inIncr <$> ks)); lia|].
    split; [cbn [produced]; rewrite G3, Hout; ring|]. done.
Qed.

(** With the ratios changing. *)
Fixpoint steps_ok (T : Q) (R : Q) (ks : list call) : Prop :=
  match ks with
  | [] => True
  | k :: ks' => (overall k == R -> timeRatio k == T)%Q /\ steps_ok (timeRatio k) (overall k) ks'
  end.
Fixpoint changes_from (R : Q) (ks : list call) : Z :=
  match ks with
  | [] => 0
  | k :: ks' => (if Qeq_bool (overall k) R then 0 else 1) + changes_from (overall k) ks'
  end.

Lemma changing ks : forall c xs c', singles c ks = (xs, c') ->
  Forall (good_call c (1 # 4)) ks -> justReset c = false -> steps_ok (prevTimeRatio c) (prevRatio c) ks ->
  (- (13) <= outFrameCounter c - predicted (frameCheckpoint c) (inFrameCounter c) (prevTimeRatio c))%Q ->
  (outFrameCounter c - predicted (frameCheckpoint c) (inFrameCounter c) (prevTimeRatio c) <= 13)%Q ->
  let p' := predicted (frameCheckpoint c') (inFrameCounter c') (prevTimeRatio c') in
  let n := inject_Z (changes_from (prevRatio c) ks) in
  let p := predicted (frameCheckpoint c) (inFrameCounter c) (prevTimeRatio c) in
  (outFrameCounter c' == outFrameCounter c + produced ks xs)%Q /\
  (- (13) <= outFrameCounter c' - p')%Q /\ (outFrameCounter c' - p' <= 13)%Q /\
  (- (n * (1 # 2)) <= p' - p - wanted ks)%Q /\ (p' - p - wanted ks <= n * (1 # 2))%Q.
Proof.
  induction ks as [|k ks IH]; intros c xs c' E Hg Hj Hv H1 H2; cbn [singles] in E.
  { injection E as <- <-. cbn [produced wanted changes_from]. change (inject_Z 0) with 0%Q. cbv zeta.
    split; [ring|]. split; [done|]. split; [done|]. split; lra. }
  destruct (single c k) as [x c1] eqn:E1. destruct (singles c1 ks) as [ys c2] eqn:E2. injection E as <- <-.
  apply Forall_cons_1 in Hg as [(Hq & Hal & Hem & He & He4 & Hi & Hy) Hg]. destruct Hv as [Hv1 Hv2].
  destruct (single_checkpoint _ _ _ _ E1) as (Hjr & Hpr & Hpt & Hcp). rewrite Hj in Hcp. cbn [negb andb] in Hcp.
  set (p := predicted (frameCheckpoint c) (inFrameCounter c) (prevTimeRatio c)) in *.
  set (q := predicted (frameCheckpoint c1) (inFrameCounter c) (timeRatio k)).
  set (m := inject_Z (if Qeq_bool (overall k) (prevRatio c) then 0 else 1)).
  assert (Hpq : (- (m * (1 # 2)) <= q - p)%Q /\ (q - p <= m * (1 # 2))%Q /\ (0 <= m)%Q /\ (m <= 1)%Q).
  { unfold m, q. rewrite Hcp. destruct (Qeq_bool (overall k) (prevRatio c)) eqn:Eb; cbn [negb].
    - apply Qeq_bool_iff in Eb. pose proof (predicted_same (frameCheckpoint c) (inFrameCounter c) _ _ (Hv1 Eb)).
      change (inject_Z 0) with 0%Q. unfold p. repeat split; lra.
    - unfold predicted. cbn [fst snd]. rewrite Z.sub_diag. change (inject_Z 0) with 0%Q. change (inject_Z 1) with 1%Q.
      destruct (cround_near p). repeat split; lra. }
  destruct Hpq as (Hpq1 & Hpq2 & Hm0 & Hm1).
  destruct (single_step c k (27 # 2) x c1 E1 Hq Hal He He4 Hi Hy) as (Hx & Hin & Hout & Hb1 & Hb2); [lra|lra|fold q; lra|fold q; lra|].
  assert (Hth : ((1 - pitchRatio k / 4) * (27 # 2) + (5 # 4) * pitchRatio k <= 13)%Q).
  { setoid_replace (pitchRatio k / 4)%Q with (pitchRatio k * (1 # 4))%Q by field. lra. }
  set (r := predicted (frameCheckpoint c1) (inFrameCounter c1) (timeRatio k)) in *.
  assert (Hrq : (r == q + inject_Z (inIncr k) * timeRatio k)%Q).
  { unfold r, q, predicted. rewrite Hin.
    replace (inFrameCounter c + inIncr k - (frameCheckpoint c1).1) with (inFrameCounter c - (frameCheckpoint c1).1 + inIncr k) by lia.
    rewrite inject_Z_plus. ring. }
  destruct (single_next _ _ _ _ E1) as (_ & _ & Hh & _).
  destruct (IH c1 ys c2 E2) as (G1 & G2 & G3 & G4 & G5).
  - eapply Forall_impl; [exact Hg|]. intros k' (Q1 & Q2). split; [|done]. unfold quiet in *. by rewrite Hh.
  - done.
  - by rewrite Hpt, Hpr.
  - rewrite Hpt. fold r. lra.
  - rewrite Hpt. fold r. lra.
  - cbv zeta. cbn [produced wanted changes_from]. rewrite inject_Z_plus. fold m. rewrite Hpr in G4, G5.
    rewrite Hpt in G4, G5. fold r in G4, G5. rewrite Hrq in G4, G5.
    split; [rewrite G1, Hout; ring|]. split; [exact G2|]. split; [exact G3|]. split; lra.
Qed.

(** From a fresh calculator. *)
Lemma wanted_const ks T : Forall (fun k => timeRatio k == T)%Q ks ->
  (wanted ks == inject_Z (sumZ (inIncr <$> ks)) * T)%Q.
Proof.
  induction 1 as [|k ks Hk Hks IH]; [cbn [wanted fmap list_fmap]; change (inject_Z (sumZ [])) with 0%Q; ring|].
  change (sumZ (inIncr <$> k :: ks)) with (inIncr k + sumZ (inIncr <$> ks)).
  cbn [wanted]. rewrite IH, Hk, inject_Z_plus. ring.
Qed.

Lemma drift_steady rate incr hp ks xs c' T R :
  singles (create rate incr hp) ks = (xs, c') ->
  Forall (good_call (create rate incr hp) 0) ks -> Forall (fun k => timeRatio k == T /\ overall k == R)%Q ks ->
  (- (5) <= produced ks xs - wanted ks)%Q /\ (produced ks xs - wanted ks <= 5)%Q.
Proof.
  intros E Hg Hc.
  assert (H0 : (predicted (0, 0)%Z 0%Z T == 0)%Q) by (unfold predicted; cbn [fst snd]; rewrite Z.sub_diag; change (inject_Z 0) with 0%Q; ring).
  destruct (steady ks _ xs c' T R E Hg Hc) as (G1 & G2 & G3 & G4 & G5);
    [by left|cbn [outFrameCounter create frameCheckpoint inFrameCounter]; lra..|].
  cbn [outFrameCounter create frameCheckpoint inFrameCounter] in *.
  assert (Hw : (predicted (frameCheckpoint c') (inFrameCounter c') T == wanted ks)%Q).
  { rewrite (wanted_const ks T) by (eapply Forall_impl; [exact Hc|]; intros k [Hk _]; exact Hk).
    rewrite G1, G2. unfold predicted. cbn [fst snd]. rewrite Z.sub_0_r, Z.add_0_l. change (inject_Z 0) with 0%Q. ring. }
  rewrite Hw in G4, G5. split; lra.
Qed.

Lemma visible_steps k ks : visible (k :: ks) -> steps_ok (timeRatio k) (overall k) ks.
Proof.
  revert k. induction ks as [|k' ks IH]; intros k H; [done|]. destruct H as [H1 H2]. split; [done|]. by apply IH.
Qed.
Lemma changes_steps k ks : changes (k :: ks) = changes_from (overall k) ks.
Proof.
  revert k. induction ks as [|k' ks IH]; intros k; [done|].
  change (changes (k :: k' :: ks)) with ((if Qeq_bool (overall k') (overall k) then 0 else 1) + changes (k' :: ks)).
  rewrite IH. done.
Qed.

Lemma drift_changing rate incr hp ks xs c' :
  singles (create rate incr hp) ks = (xs, c') ->
  Forall (good_call (create rate incr hp) (1 # 4)) ks -> visible ks ->
  let b := (13 + inject_Z (changes ks) * (1 # 2))%Q in
  (- b <= produced ks xs - wanted ks)%Q /\ (produced ks xs - wanted ks <= b)%Q.
Proof.
  intros E Hg Hv. destruct ks as [|k ks].
  { injection E as <- <-. cbn [produced wanted changes]. change (inject_Z 0) with 0%Q. cbv zeta. split; lra. }
  rewrite changes_steps. cbn [singles] in E.
  destruct (single _ k) as [x c1] eqn:E1. destruct (singles c1 ks) as [ys c2] eqn:E2. injection E as <- <-.
  apply Forall_cons_1 in Hg as [(Hq & Hal & Hem & He & He4 & Hi & Hy) Hg]. apply visible_steps in Hv.
  destruct (single_checkpoint _ _ _ _ E1) as (Hjr & Hpr & Hpt & Hcp).
  cbn [justReset create negb andb frameCheckpoint] in Hcp.
  assert (H0 : (predicted (0, 0)%Z 0%Z (timeRatio k) == 0)%Q) by (unfold predicted; cbn [fst snd]; rewrite Z.sub_diag; change (inject_Z 0) with 0%Q; ring).
  destruct (single_step _ k 5 x c1 E1 Hq Hal He He4 Hi Hy) as (Hx & Hin & Hout & Hb1 & Hb2);
    [lra|lra|rewrite Hcp; cbn [outFrameCounter create inFrameCounter]; lra..|].
  assert (Hfive : ((1 - pitchRatio k / 4) * 5 + (5 # 4) * pitchRatio k == 5)%Q) by field.
  rewrite Hfive in Hb1, Hb2. cbn [outFrameCounter create inFrameCounter] in Hin, Hout.
  destruct (single_next _ _ _ _ E1) as (_ & _ & Hh & _).
  destruct (changing ks c1 ys c2 E2) as (G1 & G2 & G3 & G4 & G5).
  - eapply Forall_impl; [exact Hg|]. intros k' (Q1 & Q2). split; [|done]. unfold quiet in *. by rewrite Hh.
  - done.
  - by rewrite Hpt, Hpr.
  - rewrite Hpt. lra.
  - rewrite Hpt. lra.
  - cbv zeta in *. rewrite Hpr, Hpt in G4, G5. cbn [produced wanted].
    assert (Hp1 : (predicted (frameCheckpoint c1) (inFrameCounter c1) (timeRatio k) == inject_Z (inIncr k) * timeRatio k)%Q).
    { unfold predicted. rewrite Hcp, Hin. cbn [fst snd]. rewrite Z.sub_0_r, Z.add_0_l. change (inject_Z 0) with 0%Q. ring. }
    rewrite Hp1 in G4, G5. rewrite Hout in G1. rewrite G1 in G2, G3. split; lra.
Qed.
