(** How many samples an offline run writes. *)
From stdpp Require Import prelude.
From Coq Require Import ZArith QArith Qround Lia Lqa.
From Verif Require Import Base.Arith Faster.Model Faster.Core Faster.Chunks Faster.Stream.
Local Open Scope Z_scope.

Section Count.
Context {A S R K : Type} (D : dsp A S R K).
Notation chan := (channel A S R).
Implicit Types (P : params) (c d e : chan).
Notation sane := (sane D).

Definition capped P (th tot : Z) : Z := if 0 <? th then Z.min tot (startSkip P + th) else tot.
(** [tot] samples have come out of the accumulator and [gone] have been retrieved. *)
Definition counted P (tot gone : Z) c : Prop :=
  outCount c = capped P (theo P c) tot /\ zlen (outbuf c) + gone = Z.max 0 (outCount c - startSkip P).

Lemma emit_count P oc (out : list A) th : 0 <= startSkip P ->
  zlen (fst (emit P oc out th)) = Z.max 0 (snd (emit P oc out th) - startSkip P) - Z.max 0 (oc - startSkip P).
Proof.
  intros Hs. unfold emit. pose proof (zlen_nonneg out).
  destruct (Z.ltb_spec (startSkip P) oc).
  - cbn [fst snd]. match goal with |- context [firstn_z ?x _] => set (q := x) end.
    assert (Hq : 0 <= q <= zlen out).
    { unfold q. destruct (_ && _) eqn:E; [|lia]. apply andb_true_iff in E as [E E3]. apply andb_true_iff in E as [E1 E2]. lia. }
    rewrite zlen_firstn. lia.
  - destruct (Z.leb_spec (oc + zlen out) (startSkip P)); cbn [fst snd].
    + rewrite zlen_nil. lia.
    + rewrite zlen_skipn. lia.
Qed.
Lemma count_write P c d n tot gone : after P = false -> 0 <= startSkip P -> 0 <= n -> inputSize d = inputSize c ->
  (0 < theo P c -> n <= theo P c) -> wrote P c d n -> counted P tot gone c -> counted P (tot + n) gone d.
Proof.
  intros Ha Hs Hn Hsz Hth (out & Hl & Eo & Ec) [H1 H2]. specialize (Hl Ha).
  assert (Et : theo P d = theo P c) by (unfold theo; by rewrite Hsz).
  split.
  - rewrite Ec, Et. unfold emit, capped in *. set (th := theo P c) in *. rewrite Hl.
    destruct (Z.ltb_spec 0 th); cbn [andb].
    + specialize (Hth ltac:(lia)).
      destruct (Z.ltb_spec (startSkip P) (outCount c)).
      * cbn [snd]. destruct (Z.leb_spec (outCount c - startSkip P) th); cbn [andb]; [|lia].
        destruct (Z.ltb_spec th (outCount c - startSkip P + n)); lia.
      * destruct (Z.leb_spec (outCount c + n) (startSkip P)); cbn [snd]; lia.
    + clear Eo Ec. destruct (startSkip P <? outCount c); [|destruct (outCount c + n <=? startSkip P)]; cbn [snd]; lia.
  - rewrite Eo, zlen_app, emit_count, <- Ec by done. lia.
Qed.
Lemma count_writes P ns : after P = false -> 0 <= startSkip P -> forall c d tot gone B, inputSize d = inputSize c ->
  Forall (fun n => 0 <= n <= B) ns -> (0 < theo P c -> B <= theo P c) -> wroteAll P c ns d ->
  counted P tot gone c -> counted P (tot + sumZ ns) gone d.
Proof.
  intros Ha Hs. induction ns as [|n ns IH]; intros c d tot gone B Hsz Hall Hth Hw Hc.
  - cbn in Hw. destruct Hw as [E1 E2], Hc as [C1 C2]. change (sumZ []) with 0. rewrite Z.add_0_r.
    unfold counted, theo in *. rewrite E1, E2, Hsz. done.
  - cbn in Hw. destruct Hw as (c1 & Hs1 & Hw1 & Hw). apply Forall_cons in Hall as [Hn Hall].
    change (sumZ (n :: ns)) with (n + sumZ ns). rewrite Z.add_assoc.
    assert (Et : theo P c1 = theo P c) by (unfold theo; by rewrite Hs1).
    apply (IH c1 d (tot + n) gone B); try done; [congruence|by rewrite Et|].
    apply (count_write P c c1); try done; [lia|]. intros H. specialize (Hth H). lia.
Qed.

(** ** The study profile *)
Definition absSum (l : list Z) : Z := sumZ (Z.abs <$> l).
Fixpoint shifts P (n : nat) : Z := match n with O => 0 | Datatypes.S k => shifts P k + shiftAt P (Z.of_nat k) end.

Lemma absSum_take_S (l : list Z) k x : l !! k = Some x -> absSum (take (Datatypes.S k) l) = absSum (take k l) + Z.abs x.
Proof. intros H. rewrite (take_S_r _ _ _ H). unfold absSum. rewrite fmap_app, sumZ_app. cbn. lia. Qed.
Lemma absSum_nonneg l : 0 <= absSum l.
Proof. unfold absSum. induction l as [|x l IH]; [done|]. cbn. change (0 <= Z.abs x + sumZ (Z.abs <$> l)). lia. Qed.
Lemma absSum_take_le l k : absSum (take k l) <= absSum l.
Proof.
  rewrite <- (take_drop k l) at 2. unfold absSum. rewrite fmap_app, sumZ_app. pose proof (absSum_nonneg (drop k l)). unfold absSum in *. lia.
Qed.
Lemma getZ_lookup {T} (l : list T) k : getZ l (Z.of_nat k) = l !! k.
Proof. unfold getZ. rewrite (proj2 (Z.leb_le _ _)) by lia. by rewrite Nat2Z.id. Qed.
Lemma getZ_none {T} k : getZ (@nil T) k = None.
Proof. unfold getZ. by destruct (_ <=? _). Qed.
Lemma elem_absSum l k x : l !! k = Some x -> Z.abs x <= absSum l.
Proof.
  intros H. pose proof (absSum_take_S l k x H). pose proof (absSum_take_le l (Datatypes.S k)). pose proof (absSum_nonneg (take k l)). lia.
Qed.

Lemma shifts_sum P x0 : head (increments P) = Some x0 -> forall k, (k < length (increments P))%nat ->
  shifts P k + Z.abs x0 = absSum (take (Datatypes.S k) (increments P)).
Proof.
  intros H0. induction k as [|k IH]; intros Hk.
  - destruct (increments P) as [|y l]; [done|]. injection H0 as ->. change (0 + Z.abs x0 = Z.abs x0 + 0). lia.
  - destruct (lookup_lt_is_Some_2 (increments P) (Datatypes.S k) Hk) as [y Hy].
    rewrite (absSum_take_S _ _ _ Hy), <- IH by lia. cbn [shifts].
    assert (shiftAt P (Z.of_nat k) = Z.abs y).
    { unfold shiftAt. replace (Z.of_nat k + 1) with (Z.of_nat (Datatypes.S k)) by lia. by rewrite getZ_lookup, Hy. }
    lia.
Qed.
Lemma shifts_all P x0 n : head (increments P) = Some x0 -> length (increments P) = Datatypes.S n ->
  shifts P (Datatypes.S n) = absSum (increments P) - Z.abs x0 + shiftAt P (Z.of_nat n).
Proof.
  intros H0 Hn. cbn [shifts]. pose proof (shifts_sum P x0 H0 n ltac:(lia)) as H.
  rewrite take_ge in H by lia. lia.
Qed.
Lemma shiftAt_le P k : (k < length (increments P))%nat -> shiftAt P (Z.of_nat k) <= absSum (increments P).
Proof.
  intros Hk. unfold shiftAt, phaseAt. replace (Z.of_nat k + 1) with (Z.of_nat (Datatypes.S k)) by lia.
  rewrite !getZ_lookup. destruct (increments P !! Datatypes.S k) eqn:E; [by eapply elem_absSum|].
  destruct (lookup_lt_is_Some_2 (increments P) k Hk) as [y Hy]. rewrite Hy. by eapply elem_absSum.
Qed.

(** ** The run *)
(** The increment used for the [j]-th chunk: past its end the profile repeats its last entry. *)
Definition entryOf P (j : Z) : Z := let n := zlen (increments P) in if n =? 0 then j else Z.min j (n - 1).
Definition stepAt P (j : Z) : Z := shiftAt P (entryOf P j).
Fixpoint steps P (n : nat) : Z := match n with O => 0 | Datatypes.S k => steps P k + stepAt P (Z.of_nat k) end.
(** Conditions for exactness, of a profile for [N] samples, i.e. [N / increment + 1] chunks:
    it has no more entries than that, no single step exceeds the expected output, what has come out
    when the end of the input is announced does not exceed it, and in the end it is reached. *)
Record exact P (N : Z) : Prop := Exact {
  ex_offline : realtime P = false; ex_pitch : Qeq (pitchScale P) 1; ex_after : after P = false; ex_before : before P = false;
  ex_even : window P mod 2 = 0; ex_N : 0 <= N;
  ex_len : zlen (increments P) <= N / increment P + 1;
  ex_pos : 0 < rint (inject_Z N * timeRatio P);
  ex_step : forall j, 0 <= j <= N / increment P -> stepAt P j <= rint (inject_Z N * timeRatio P);
  ex_early : forall k, 0 < k -> k * increment P + window P / 2 <= N + increment P ->
    steps P (Z.to_nat k) <= rint (inject_Z N * timeRatio P) + window P / 2;
  ex_enough : rint (inject_Z N * timeRatio P) + window P / 2 <= steps P (Z.to_nat (N / increment P)) + window P;
  ex_last : stepAt P (N / increment P) <> 0 \/ increment P <= rint (inject_Z N * timeRatio P)
}.

Lemma skip_exact P N : exact P N -> startSkip P = window P / 2.
Proof.
  intros []. unfold startSkip. rewrite ex_offline0.
  assert (E : (inject_Z (window P / 2) / pitchScale P == inject_Z (window P / 2))%Q).
  { rewrite ex_pitch0. field. }
  erewrite rint_comp by exact E. apply rint_Z.
Qed.

Lemma steps_full P x0 : head (increments P) = Some x0 -> forall k, (k < length (increments P))%nat ->
  steps P k + Z.abs x0 = absSum (take (Datatypes.S k) (increments P)).
Proof.
  intros H0 k Hk. rewrite <- (shifts_sum P x0 H0 k Hk). f_equal.
  assert (H : forall m, (m <= k)%nat -> steps P m = shifts P m).
  { induction m as [|m IH]; intros Hm; [done|]. cbn [steps shifts]. rewrite IH by lia. f_equal.
    unfold stepAt, entryOf. unfold zlen. rewrite (proj2 (Z.eqb_neq _ _)) by lia. f_equal. lia. }
  by apply H.
Qed.
(** The same from conditions on the profile as a list, when it has one entry for each chunk. *)
Lemma exact_profile P N x0 : realtime P = false -> Qeq (pitchScale P) 1 -> after P = false -> before P = false ->
  window P mod 2 = 0 -> 0 < window P -> 0 < increment P <= window P / 2 -> 0 <= N -> zlen (increments P) = N / increment P + 1 ->
  head (increments P) = Some x0 -> 2 * Z.abs x0 <= window P ->
  0 < rint (inject_Z N * timeRatio P) ->
  rint (inject_Z N * timeRatio P) <= absSum (increments P) <= rint (inject_Z N * timeRatio P) + window P / 2 ->
  Forall (fun x => Z.abs x <= rint (inject_Z N * timeRatio P)) (increments P) ->
  (stepAt P (N / increment P) <> 0 \/ increment P <= rint (inject_Z N * timeRatio P)) -> exact P N.
Proof.
  intros Hrt Hp Ha Hb Hev Hw Hi HN Hlen H0 Hx0 Hpos Hsum Hall Hlast.
  assert (Hq : 0 <= N / increment P) by (apply Z.div_pos; lia). pose proof (Z.div_mod (window P) 2) as Hdm.
  constructor; try done; try lia.
  - intros j Hj. unfold stepAt, shiftAt, phaseAt.
    assert (0 <= entryOf P j < zlen (increments P)) as He.
    { unfold entryOf. destruct (Z.eqb_spec (zlen (increments P)) 0); lia. }
    replace (entryOf P j) with (Z.of_nat (Z.to_nat (entryOf P j))) by lia.
    replace (Z.of_nat (Z.to_nat (entryOf P j)) + 1) with (Z.of_nat (Datatypes.S (Z.to_nat (entryOf P j)))) by lia.
    rewrite !getZ_lookup. rewrite Forall_lookup in Hall.
    destruct (increments P !! Datatypes.S _) eqn:E; [by eapply Hall|].
    unfold zlen in He. destruct (lookup_lt_is_Some_2 (increments P) (Z.to_nat (entryOf P j)) ltac:(lia)) as [y Hy]. rewrite Hy. by eapply Hall.
  - intros k Hk Hle. assert (k <= N / increment P) by (apply Z.div_le_lower_bound; lia).
    unfold zlen in Hlen. pose proof (steps_full P x0 H0 (Z.to_nat k) ltac:(lia)) as Hs.
    pose proof (absSum_take_le (increments P) (Datatypes.S (Z.to_nat k))). lia.
  - unfold zlen in Hlen. pose proof (steps_full P x0 H0 (Z.to_nat (N / increment P)) ltac:(lia)) as Hs.
    rewrite take_ge in Hs by lia. lia.
Qed.

(** Before the end, [k] chunks having been processed. *)
Record going P (N k tot gone : Z) c : Prop := Going {
  go_inv : inv P c; go_drain : draining c = false; go_oc : outputComplete c = false;
  go_size : inputSize c = None \/ (inputSize c = Some N /\ inCount c = N);
  go_le : inCount c <= N;
  go_k : 0 <= k;
  go_chunk : chunkCount c = if zlen (increments P) =? 0 then k else Z.min k (zlen (increments P));
  go_in : zlen (inbuf c) = window P / 2 + inCount c - k * increment P;
  go_min : window P / 2 - increment P <= zlen (inbuf c);
  go_pre : inputSize c = None -> 0 < k -> k * increment P + window P / 2 <= inCount c + increment P;
  go_tot : tot = steps P (Z.to_nat k);
  go_cnt : counted P tot gone c;
  go_fill : 0 < k -> (window P < stepAt P (k - 1) -> window P - window P / 4 <= fill c) /\
    (stepAt P (k - 1) <= window P -> fill c = window P - stepAt P (k - 1))
}.
(** After the end: everything has been drained. *)
Definition finished P (N gone : Z) c : Prop :=
  exists tot, counted P tot gone c /\ inputSize c = Some N /\
    rint (inject_Z N * timeRatio P) + window P / 2 <= tot /\
    (stepAt P (N / increment P) <> window P -> outputComplete c = true) /\
    inv P c /\ draining c = true /\ fill c = 0.

Lemma half_window P N : sane P -> exact P N -> 2 * (window P / 2) = window P.
Proof. intros HP [] . pose proof (Z.div_mod (window P) 2). lia. Qed.

Lemma go_round P N k tot gone c : sane P -> exact P N -> going P N k tot gone c -> window P / 2 <= zlen (inbuf c) ->
  (inputSize c = None -> window P <= zlen (inbuf c)) ->
  exists d, processChunk D P c = Some (false, d) /\ going P N (k + 1) (tot + stepAt P k) gone d /\ inputSize d = inputSize c.
Proof.
  intros HP HE HG Hrs Hrs2. pose proof (half_window P N HP HE) as Hhalf. destruct HG.
  pose proof (sane_incr _ _ HP) as Hinc. pose proof (sane_window _ _ HP) as Hwin.
  pose proof (inv_chunk _ _ go_inv0) as Hch.
  assert (Hcc : k * increment P <= N) by lia.
  assert (Hck : k <= N / increment P) by (apply Z.div_le_lower_bound; lia).
  pose proof (ex_N _ _ HE) as HN. pose proof (zlen_nonneg (increments P)) as Hn0.
  assert (Hof : chunkOf P c = entryOf P k).
  { unfold chunkOf, entryOf. rewrite go_chunk0. destruct (Z.eqb_spec (zlen (increments P)) 0); lia. }
  destruct (processChunk_ok D P c HP (inv_wf _ _ go_inv0) (inv_cap _ _ go_inv0) Hch) as
    (l & d & E & Hw & Hk & H1 & H2 & H3 & H4 & Hchd & _ & Hoc & Hnd & ns & Hns & Hall & Hsum).
  destruct (Hnd go_drain0) as (Hin & -> & Hfl). destruct (Hfl (inv_fill _ _ go_inv0)) as (F1 & F2 & F3).
  rewrite Hof, go_drain0 in *. cbn [andb] in *. fold (stepAt P k) in *.
  exists d. split; [done|]. split; [|done]. constructor.
  - by eapply shift_bound.
  - congruence.
  - by rewrite Hoc, go_oc0.
  - rewrite H3, H2. done.
  - lia.
  - lia.
  - rewrite Hchd. unfold entryOf. destruct (Z.eqb_spec (zlen (increments P)) 0); lia.
  - rewrite Hin, zlen_skipn, H2. lia.
  - rewrite Hin, zlen_skipn. lia.
  - intros Hn _. rewrite H3 in Hn. specialize (Hrs2 Hn). rewrite H2. lia.
  - rewrite go_tot0. replace (Z.to_nat (k + 1)) with (Datatypes.S (Z.to_nat k)) by lia. cbn [steps].
    by rewrite Z2Nat.id by lia.
  - rewrite <- Hsum. eapply (count_writes P ns (ex_after _ _ HE)); try done.
    + rewrite (skip_exact _ _ HE). lia.
    + unfold theo. destruct go_size0 as [->|[-> _]]; [lia|]. intros _. apply (ex_step _ _ HE). lia.
  - intros _. replace (k + 1 - 1) with k by lia. done.
Qed.

(** Draining. *)
Lemma drain_loop P N gone : sane P -> exact P N -> forall f c d tot, inv P c -> draining c = true -> inputSize c = Some N ->
  stepAt P (chunkCount c) = stepAt P (N / increment P) -> Z.min (zlen (increments P)) (N / increment P) <= chunkCount c ->
  counted P tot gone c -> rint (inject_Z N * timeRatio P) + window P / 2 <= tot + fill c ->
  (fill c <> 0 \/ outputComplete c = true \/ stepAt P (N / increment P) = window P) ->
  processChunks D f P c = Some d -> finished P N gone d.
Proof.
  intros HP HE. pose proof (sane_incr _ _ HP) as Hinc. pose proof (ex_len _ _ HE) as Hlen. pose proof (ex_N _ _ HE) as HN.
  assert (Hq : 0 <= N / increment P) by (apply Z.div_pos; lia). pose proof (zlen_nonneg (increments P)) as Hn0.
  induction f as [|f IH]; intros c d tot Hi Hd Hs Hst Hck Hc Hge Hfl E; [done|].
  cbn [processChunks] in E.
  assert (Et : testInbufReadSpace P c = (true, c)) by (unfold testInbufReadSpace; rewrite Hd, andb_false_r; done).
  rewrite Et in E.
  destruct (processChunk_ok D P c HP (inv_wf _ _ Hi) (inv_cap _ _ Hi) (inv_chunk _ _ Hi)) as
    (l & c1 & E1 & Hw & Hk & H1 & H2 & H3 & H4 & Hchd & Hdr & Hoc & _ & ns & Hns & Hall & Hsum).
  rewrite E1 in E. change (Some ?x ≫= ?f) with (f x) in *. cbv beta iota in *.
  assert (Hof : shiftAt P (chunkOf P c) = stepAt P (N / increment P)) by (rewrite <- Hst; done).
  destruct (Hdr Hd) as (_ & Hf1 & Hpr & Hz). rewrite Hd in *. cbn [andb] in *.
  assert (Hc1 : counted P (tot + (fill c - fill c1)) gone c1).
  { rewrite <- Hsum. eapply (count_writes P ns (ex_after _ _ HE)); try done.
    - rewrite (skip_exact _ _ HE). apply Z.div_pos; [pose proof (sane_window _ _ HP); lia|lia].
    - intros _. unfold theo. rewrite Hs, Hof. destruct (Z.eqb_spec (stepAt P (N / increment P)) 0) as [Ez|].
      + destruct (ex_last _ _ HE); [done|done].
      + apply (ex_step _ _ HE). lia. }
  assert (Hfl1 : fill c1 <> 0 \/ outputComplete c1 = true \/ stepAt P (N / increment P) = window P).
  { rewrite Hoc. destruct (Z.eqb_spec (fill c1) 0), (Z.eqb_spec (fill c) 0); auto; destruct Hfl as [?|[->|?]]; auto; try done.
    right; left. cbn. by rewrite orb_true_r. }
  destruct l.
  - injection E as <-. exists (tot + (fill c - fill c1)). split; [done|]. split; [congruence|].
    rewrite (Hz eq_refl) in *. split; [lia|]. split; [intros Hne; by destruct Hfl1 as [?|[?|?]]|].
    split; [by eapply shift_bound|]. split; [congruence|done].
  - assert (Hnx : stepAt P (chunkCount c1) = stepAt P (chunkCount c) /\ Z.min (zlen (increments P)) (N / increment P) <= chunkCount c1).
    { rewrite Hchd. unfold stepAt, entryOf, chunkOf. destruct (Z.eqb_spec (zlen (increments P)) 0) as [Ez|Ez].
      - split; [|lia]. assert (En : increments P = []) by (by apply zlen_0).
        unfold shiftAt, phaseAt. by rewrite En, !getZ_none.
      - split; [|lia]. f_equal. lia. }
    destruct Hnx as [Hx1 Hx2]. apply (IH c1 d (tot + (fill c - fill c1))); try done.
    + by eapply shift_bound.
    + congruence.
    + congruence.
    + lia.
Qed.

Lemma stepAt_tail P N j : exact P N -> N / increment P <= j -> stepAt P j = stepAt P (N / increment P).
Proof.
  intros HE Hj. pose proof (ex_len _ _ HE) as Hlen. unfold stepAt, entryOf. destruct (Z.eqb_spec (zlen (increments P)) 0) as [Ez|Ez].
  - assert (En : increments P = []) by (by apply zlen_0).
    unfold shiftAt, phaseAt. by rewrite En, !getZ_none.
  - f_equal. lia.
Qed.

Lemma go_loop P N gone : sane P -> exact P N -> forall f c d k tot, going P N k tot gone c ->
  processChunks D f P c = Some d ->
  (inputSize c = None -> exists k' tot', going P N k' tot' gone d /\ inputSize d = None /\ inCount d = inCount c /\ zlen (inbuf d) < window P) /\
  (inputSize c = Some N -> finished P N gone d).
Proof.
  intros HP HE. pose proof (sane_incr _ _ HP) as Hinc. pose proof (sane_window _ _ HP) as Hwin.
  pose proof (half_window P N HP HE) as Hhalf. pose proof (ex_len _ _ HE) as Hlen. pose proof (ex_N _ _ HE) as HN.
  assert (Hq : 0 <= N / increment P) by (apply Z.div_pos; lia).
  induction f as [|f IH]; intros c d k tot HG E; [done|].
  cbn [processChunks] in E.
  assert (Hround : window P / 2 <= zlen (inbuf c) -> (inputSize c = None -> window P <= zlen (inbuf c)) -> testInbufReadSpace P c = (true, c) ->
    (inputSize c = None -> exists k' tot', going P N k' tot' gone d /\ inputSize d = None /\ inCount d = inCount c /\ zlen (inbuf d) < window P) /\
    (inputSize c = Some N -> finished P N gone d)).
  { intros Hrs Hrs2 Et. rewrite Et in E.
    destruct (go_round P N k tot gone c HP HE HG Hrs Hrs2) as (c1 & E1 & HG1 & Hs1). rewrite E1 in E.
    change (Some ?x ≫= ?f) with (f x) in E. cbv beta iota in E.
    pose proof (go_inv _ _ _ _ _ _ HG) as Hgi.
    destruct (processChunk_ok D P c HP (inv_wf _ _ Hgi) (inv_cap _ _ Hgi) (inv_chunk _ _ Hgi))
      as (l0 & d0 & E0 & _ & _ & _ & Hic & _). rewrite E1 in E0. injection E0 as <- <-.
    destruct (IH c1 d _ _ HG1 E) as [I1 I2]. rewrite Hs1 in *. split; [|done]. intros Hn.
    destruct (I1 Hn) as (k' & tot' & ? & ? & ? & ?). exists k', tot'. split; [done|]. split; [done|]. split; [congruence|done]. }
  destruct (test_cases D P c HP) as [[Et Hc]|[(Et & Ed & Hs & Hl)|(Et & Ed & Hl & Hs)]].
  - apply Hround; [| |done]; destruct Hc as [Hc|[Hc|[[? ?] Hc]]]; [destruct HG; congruence|lia|lia|destruct HG; congruence|done|congruence].
  - rewrite Et in E. split; [intros Hn; rewrite Hn in Hs; by destruct Hs|]. intros Hn.
    destruct HG. destruct go_size0 as [?|[_ Hic]]; [congruence|].
    assert (Hck : k = N / increment P + 1).
    { assert (N / increment P < k) by (apply Z.div_lt_upper_bound; lia).
      assert (k - 1 <= N / increment P) by (apply Z.div_le_lower_bound; lia). lia. }
    replace (Z.to_nat k) with (Datatypes.S (Z.to_nat (N / increment P))) in go_tot0 by lia.
    cbn [steps] in go_tot0. rewrite Z2Nat.id in go_tot0 by lia. pose proof (ex_enough _ _ HE) as Hen.
    destruct (go_fill0 ltac:(lia)) as [F1 F2].
    replace (k - 1) with (N / increment P) in * by lia.
    assert (Hq4 : window P / 4 < window P) by (apply Z.div_lt; lia).
    assert (Hfill : window P - stepAt P (N / increment P) <= fill c /\ (fill c <> 0 \/ stepAt P (N / increment P) = window P)) by lia.
    apply (drain_loop P N gone HP HE (Datatypes.S f) (set_drain c true) d tot); try done.
    + by apply inv_set_drain.
    + cbn [chunkCount set_drain]. rewrite go_chunk0. destruct (Z.eqb_spec (zlen (increments P)) 0).
      * apply (stepAt_tail _ _ _ HE). lia.
      * unfold stepAt, entryOf. rewrite (proj2 (Z.eqb_neq _ _)) by done. f_equal. lia.
    + cbn [chunkCount set_drain]. rewrite go_chunk0. destruct (Z.eqb_spec (zlen (increments P)) 0); lia.
    + cbn [fill set_drain]. lia.
    + cbn [fill set_drain]. destruct Hfill as [_ [?|?]]; auto.
    + cbn [processChunks]. replace (testInbufReadSpace P (set_drain c true)) with (true, set_drain c true); [done|].
      unfold testInbufReadSpace. cbn [draining set_drain]. by rewrite andb_false_r.
  - rewrite Et in E. injection E as <-. split.
    + intros Hn. exists k, tot. split; [done|]. done.
    + intros Hn. exfalso. destruct HG. destruct Hs as [?|?]; [congruence|lia].
Qed.

(** One call of process. *)
Lemma go_feed P N gone mid : sane P -> exact P N -> forall f c k tot input final, ready P c -> going P N k tot gone c ->
  inCount c + zlen input <= N -> (final = true -> inCount c + zlen input = N) ->
  forall d, feed D f P c input mid final = Some d ->
  (final = false -> exists k' tot', going P N k' tot' gone d /\ inCount d = inCount c + zlen input) /\
  (final = true -> finished P N gone d).
Proof.
  intros HP HE. pose proof (sane_incr _ _ HP) as Hinc. pose proof (sane_window _ _ HP) as Hwin.
  pose proof (half_window P N HP HE) as Hhalf. pose proof (ex_N _ _ HE) as HN.
  induction f as [|f IH]; intros c k tot input final Hr HG Hle Hfin d E; [done|].
  cbn [feed] in E. unfold consumeChannel in E. rewrite (ex_before _ _ HE) in E.
  destruct Hr as [Hi Hn Hd Hcap Hlen].
  set (n := Z.min (inCap c - zlen (inbuf c)) (zlen input)) in *. pose proof (zlen_nonneg input) as Hli.
  assert (Hnn : 0 <= n <= zlen input) by lia.
  set (c1 := set_in c (inbuf c ++ firstn_z n input) (inCount c + n)) in *.
  assert (HG1 : going P N k tot gone c1).
  { destruct HG. constructor; try done; cbn [inbuf inCount chunkCount set_in c1 inputSize].
    - by apply inv_set_in.
    - by left.
    - lia.
    - rewrite zlen_app, zlen_firstn. lia.
    - rewrite zlen_app, zlen_firstn. lia.
    - intros _ Hk0. specialize (go_pre0 Hn Hk0). lia. }
  destruct ((zlen (skipn_z n input) =? 0) && final) eqn:Ef.
  - apply andb_true_iff in Ef as [Ez ->]. apply Z.eqb_eq in Ez. rewrite (proj2 (Z.eqb_eq _ _) Ez) in E.
    rewrite zlen_skipn in Ez. specialize (Hfin eq_refl).
    split; [done|]. intros _.
    set (c2 := set_size c1 (Some (inCount c1))) in *.
    destruct (processChunks D (enough P c2) P c2) as [e|] eqn:Ee; [|done].
    change (Some ?x ≫= ?f) with (f x) in E. cbv beta in E. injection E as <-.
    assert (HN2 : inCount c1 = N) by (cbn; lia).
    assert (HG2 : going P N k tot gone c2).
    { destruct HG1. constructor; try done.
      - by apply inv_set_size.
      - right. cbn [inputSize inCount set_size c2]. by rewrite HN2.
      - (* the expected length is now known *)
        destruct go_cnt0 as [C1 C2]. split; [|done].
        assert (Ht : theo P c1 = 0) by (unfold theo; cbn [inputSize set_in c1]; by rewrite Hn).
        assert (Ht2 : theo P c2 = rint (inject_Z N * timeRatio P)).
        { unfold theo. cbn [inputSize set_size c2]. by rewrite HN2. }
        change (outCount c2) with (outCount c1). rewrite Ht2. rewrite Ht in C1.
        assert (E1 : outCount c1 = tot) by exact C1. rewrite E1. unfold capped. clear Ht Ht2 C1.
        rewrite (skip_exact _ _ HE). pose proof (ex_pos _ _ HE) as Hpos.
        rewrite (proj2 (Z.ltb_lt _ _)) by lia.
        destruct (Z.eq_dec k 0) as [->|Hk0]; [change (tot = 0) in go_tot0; lia|].
        pose proof (ex_early _ _ HE k ltac:(lia)) as Hea. specialize (go_pre0 Hn ltac:(lia)). lia. }
    apply (proj2 (go_loop P N gone HP HE _ c2 e k tot HG2 Ee)). cbn [inputSize set_size c2]. by rewrite HN2.
  - destruct (processChunks D (enough P c1) P c1) as [e|] eqn:Ee; [|done].
    change (Some ?x ≫= ?f) with (f x) in E. cbv beta in E.
    destruct (proj1 (go_loop P N gone HP HE _ c1 e k tot HG1 Ee) Hn) as (k' & tot' & HGe & Hse & Hce & Hle').
    cbn [inCount set_in c1] in Hce.
    destruct (Z.eqb_spec (zlen (skipn_z n input)) 0) as [Ez|Ez]; rewrite zlen_skipn in Ez.
    + injection E as <-. cbn [andb] in Ef. subst final. split; [|done]. intros _. exists k', tot'. split; [done|lia].
    + destruct (processChunks_ok D P HP (enough P c1) c1 (go_inv _ _ _ _ _ _ HG1) (enough_rounds _ _ (go_inv _ _ _ _ _ _ HG1))) as (e' & Ee' & _ & Hcap' & _).
      rewrite Ee in Ee'. injection Ee' as <-.
      assert (Hre : ready P e).
      { destruct HGe. constructor; try done. rewrite Hcap'. done. }
      destruct (IH e k' tot' (skipn_z n input) final Hre HGe) with (d := d) as [I1 I2]; try done.
      * rewrite zlen_skipn. lia.
      * intros Hf. specialize (Hfin Hf). rewrite zlen_skipn. lia.
      * rewrite zlen_skipn in I1. split; [|done]. intros Hf. destruct (I1 Hf) as (k2 & t & ? & ?). exists k2, t. split; [done|lia].
Qed.
End Count.
