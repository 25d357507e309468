(** Chunk processing in the R2 core: safety, progress, counting, simulation. *)
From stdpp Require Import prelude.
From Coq Require Import ZArith QArith Qround Lia Lqa.
From Verif Require Import Base.Arith Faster.Model Faster.Core.
Local Open Scope Z_scope.

Section Chunks.
Context {A S R K : Type} (D : dsp A S R K).
Notation chan := (channel A S R).
Implicit Types (P : params) (c d e : chan).
Notation sane := (sane D). Notation wrote := (@wrote A S R).

(** A sequence of writes of the given sizes. *)
Fixpoint wroteAll P c (ns : list Z) d : Prop :=
  match ns with
  | [] => outbuf d = outbuf c /\ outCount d = outCount c
  | n :: ns => exists c1, inputSize c1 = inputSize c /\ wrote P c c1 n /\ wroteAll P c1 ns d
  end.
Lemma wroteAll_app P c c1 d ns ms : inputSize c1 = inputSize c -> wroteAll P c ns c1 -> wroteAll P c1 ms d -> wroteAll P c (ns ++ ms) d.
Proof.
  revert c. induction ns as [|n ns IH]; intros c Hs H1 H2; cbn in *.
  - destruct H1 as [H1 H1']. destruct ms as [|m ms]; cbn in *; [destruct H2; split; congruence|].
    destruct H2 as (c2 & Hc2 & (out & Hl & E1 & E2) & H2). exists c2. split; [congruence|]. split; [|done].
    exists out. unfold theo in *. rewrite <- Hs, <- H1, <- H1'. done.
  - destruct H1 as (c2 & Hc2 & Hw & H1). exists c2. split; [done|]. split; [done|]. apply IH; [congruence|done|done].
Qed.
(** Only the output fields and the input size matter. *)
Lemma wroteAll_ext P c c' d d' ns : inputSize c' = inputSize c -> outbuf c' = outbuf c -> outCount c' = outCount c ->
  outbuf d' = outbuf d -> outCount d' = outCount d -> wroteAll P c ns d -> wroteAll P c' ns d'.
Proof.
  revert c c'. induction ns as [|n ns IH]; intros c c' H1 H2 H3 H4 H5; cbn.
  - intros [? ?]. split; congruence.
  - intros (c1 & Hs & (out & Hl & E1 & E2) & H). exists c1. split; [congruence|]. split.
    + exists out. unfold theo in *. rewrite H1, H2, H3. done.
    + by apply (IH c1 c1).
Qed.

Definition sim_setflt g b c c' f s : sim g b c c' -> sim g b (set_flt c f s) (set_flt c' f s).
Proof. intros []. by constructor. Qed.
Definition sim_setchunk g b c c' n : sim g b c c' -> sim g b (set_chunk c n) (set_chunk c' n).
Proof. intros []. by constructor. Qed.

Lemma pieces_ok P flt p si bit : sane P -> window P <= zlen flt -> 0 < bit <= window P ->
  forall fuel c i reset last, wf P c -> capok P c -> 0 <= i -> (Z.to_nat (si - i) < fuel)%nat ->
  exists last' d, pieces D fuel P c flt p si i bit reset last = Some (last', d) /\ wf P d /\ capok P d /\ same c d /\
    chunkCount d = chunkCount c /\
    (si <= i -> last' = last /\ d = c) /\
    (draining c = true -> fill d <= fill c /\ (i < si -> last' = true \/ fill d < fill c) /\ (i < si -> last' = true -> fill d = 0)) /\
    outputComplete d = (outputComplete c || (draining c && (fill d =? 0) && negb (fill c =? 0))) /\
    (draining c = false -> (i < si -> last' = false) /\ (fill c <= window P -> fill d <= window P /\ (i < si -> window P - bit <= fill d))) /\
    exists ns, wroteAll P c ns d /\ Forall (fun n => 0 <= n <= bit) ns /\
      sumZ ns = (if draining c then fill c - fill d else Z.max 0 (si - i)).
Proof.
  intros HP Hflt Hbit. induction fuel as [|fuel IH]; intros c i reset last Hc Hk Hi Hfuel; [lia|].
  cbn [pieces]. destruct (Z.ltb_spec i si) as [Hlt|Hge].
  2: { exists last, c. split; [done|]. split; [done|]. split; [done|]. split; [done|]. split; [done|]. split; [done|].
       split; [intros _; lia|]. split; [destruct (fill c =? 0), (draining c), (outputComplete c); done|].
       split; [intros _; lia|]. exists []. split; [done|]. split; [done|].
       cbn. destruct (draining c); lia. }
  set (this := if si <? i + bit then si - i else bit).
  assert (Hthis : 1 <= this <= bit /\ this <= si - i /\ (si - i <= bit -> this = si - i) /\ (bit < si - i -> this = bit)).
  { unfold this. destruct (Z.ltb_spec si (i + bit)); lia. }
  set (c0 := set_flt c flt (spec c)).
  assert (Hc0 : wf P c0) by (destruct Hc; by constructor).
  assert (Hk0 : capok P c0) by done.
  destruct (pcfc_ok D P c0 (p + i) this reset HP Hc0 Hk0 ltac:(lia)) as
    (l1 & c1 & E1 & Hw1 & Hk1 & Hs1 & Hch1 & Hl1 & Hf1 & Hcm1 & Hwr1).
  rewrite E1. change (Some ?x ≫= ?f) with (f x). cbv beta iota.
  destruct (IH c1 (i + bit) false l1 Hw1 Hk1 ltac:(lia) ltac:(lia)) as
    (l2 & d & E2 & Hw2 & Hk2 & Hs2 & Hch2 & Hstop & Hdr & Hoc & Hnd & ns & Hns & Hall & Hsum).
  assert (Hs0 : same c c1) by (destruct Hs1; by constructor).
  exists l2, d. split; [exact E2|]. split; [done|]. split; [done|]. split; [eapply same_trans; done|].
  split; [rewrite Hch2, Hch1; done|]. split; [lia|].
  pose proof (same_drain _ _ Hs0) as Hdd. change (draining c0) with (draining c) in *. change (fill c0) with (fill c) in *.
  pose proof (wf_fill _ _ Hc) as Hfl. pose proof (sane_incr _ _ HP) as Hinc.
  unfold shiftOf in *. change (draining c0) with (draining c) in *. change (fill c0) with (fill c) in *.
  rewrite (proj2 (Z.eqb_neq this 0)) in * by lia.
  pose proof (wf_fill _ _ Hw2) as Hfd.
  split; [|split; [|split]].
  - intros Ed. rewrite Ed in *. destruct (Hdr Hdd) as (Hd1 & Hd2 & Hd3). split; [lia|].
    destruct (Z.lt_ge_cases (i + bit) si) as [H|H].
    + split; [|intros _; by apply Hd3]. intros _. destruct (Hd2 H); [by left|right; lia].
    + destruct (Hstop H) as [-> ->]. cbn [andb] in *. destruct (Z.leb_spec (fill c) (Z.min (fill c) this)); subst l1.
      * split; [by left|]. intros _ _. lia.
      * split; [right; lia|done].
  - rewrite Hoc, Hcm1, Hdd, Hl1. change (outputComplete c0) with (outputComplete c).
    destruct (draining c) eqn:Ed; cbn [andb]; [|by rewrite !orb_false_r].
    destruct (Hdr Hdd) as (Hd1 & _).
    destruct (outputComplete c), (Z.leb_spec (fill c) (Z.min (fill c) this)), (Z.eqb_spec (fill c) 0), (Z.eqb_spec (fill d) 0), (Z.eqb_spec (fill c1) 0); cbn [andb orb negb]; try done; lia.
  - intros Ed. rewrite Ed in *. destruct (Hnd Hdd) as [Hd1 Hd2]. split.
    + intros _. destruct (Z.lt_ge_cases (i + bit) si) as [H|H]; [by apply Hd1|]. destruct (Hstop H) as [-> ->]. done.
    + intros Hfw. destruct (Hd2 ltac:(lia)) as [Hd3 Hd4]. split; [done|]. intros _.
      destruct (Z.lt_ge_cases (i + bit) si) as [H|H]; [by apply Hd4|]. destruct (Hstop H) as [-> ->]. lia.
  - destruct (draining c && (fill c =? 0)) eqn:Ez.
    + apply andb_true_iff in Ez as [Ed Ez]. apply Z.eqb_eq in Ez. rewrite Ed in *.
      exists ns. split; [|split; [done|rewrite Hsum, Hdd; lia]].
      destruct Hwr1 as [Ho1 Hn1]. eapply wroteAll_ext; [| | | | |exact Hns]; try done. by rewrite (same_size _ _ Hs0).
    + exists ((if draining c then Z.min (fill c) this else this) :: ns). split; [|split].
      * cbn. exists c1. split; [by rewrite (same_size _ _ Hs0)|]. split; [|done]. exact Hwr1.
      * constructor; [|done]. destruct (draining c); lia.
      * change (sumZ (?n :: ?l)) with (n + sumZ l). rewrite Hsum, Hdd. destruct (draining c); lia.
Qed.

Lemma pieces_sim P flt p si bit : sane P -> window P <= zlen flt -> 0 < bit <= window P ->
  forall fuel c c' g b i reset last last' d, wf P c -> capok P c -> capok P c' -> 0 <= i ->
  wf P c' -> sim g b c c' ->
  pieces D fuel P c flt p si i bit reset last = Some (last', d) ->
  exists d', pieces D fuel P c' flt p si i bit reset last = Some (last', d') /\ sim g b d d'.
Proof.
  intros HP Hflt Hbit. induction fuel as [|fuel IH]; intros c c' g b i reset last last' d Hc Hk Hk' Hi Hc' Hs E; [done|].
  cbn [pieces] in *. destruct (Z.ltb_spec i si) as [Hlt|Hge]; [|injection E as <- <-; eauto].
  set (this := if si <? i + bit then si - i else bit) in *.
  assert (Hthis : 1 <= this <= bit) by (unfold this; destruct (Z.ltb_spec si (i + bit)); lia).
  rewrite (sim_spec _ _ _ _ Hs).
  set (c0 := set_flt c flt (spec c)) in *. set (c0' := set_flt c' flt (spec c)).
  assert (Hc0 : wf P c0) by (destruct Hc; by constructor).
  assert (Hc0' : wf P c0') by (destruct Hc'; by constructor).
  destruct (pcfc_ok D P c0 (p + i) this reset HP Hc0 Hk ltac:(lia)) as (l1 & c1 & E1 & Hw1 & Hk1 & _).
  destruct (pcfc_ok D P c0' (p + i) this reset HP Hc0' Hk' ltac:(lia)) as (l1' & c1' & E1' & Hw1' & Hk1' & _).
  destruct (pcfc_sim D P c0 c0' g b (p + i) this reset l1 c1) as (c1'' & E1'' & Hs1); try done; [lia|by apply sim_setflt|].
  assert (c1'' = c1') by congruence. subst c1''. assert (l1' = l1) by congruence. subst l1'.
  rewrite E1 in E. rewrite E1''. change (Some ?x ≫= ?f) with (f x) in *. cbv beta iota in *.
  apply (IH c1 c1' g b (i + bit) false l1 last' d); try done. lia.
Qed.

(** ** One round *)
Definition chunkOf P c : Z :=
  let n := zlen (increments P) in if n =? 0 then chunkCount c else Z.min (chunkCount c) (n - 1).
(** The increments of chunk [k]: of the phase and of the output. *)
Definition phaseAt P (k : Z) : Z := match getZ (increments P) k with Some x => Z.abs x | None => increment P end.
Definition shiftAt P (k : Z) : Z :=
  match getZ (increments P) (k + 1) with Some x => Z.abs x | None => phaseAt P k end.
Definition resetAt P (k : Z) : bool :=
  match getZ (increments P) k with Some x => (x <? 0) || (k =? 0) | None => false end.
Lemma getIncrements_all P (n : Z) : 0 <= n -> exists reset got, forall c, chunkCount c = n -> reset = resetAt P (chunkOf P c) /\
  getIncrements P c = Some (phaseAt P (chunkOf P c), shiftAt P (chunkOf P c), reset, got, set_chunk c (chunkOf P c)).
Proof.
  intros H. pose proof (zlen_nonneg (increments P)) as Hn.
  exists (resetAt P (if zlen (increments P) =? 0 then n else Z.min n (zlen (increments P) - 1))), (n <? zlen (increments P)).
  intros c Hc. rewrite <- Hc in *. clear n Hc. unfold getIncrements, chunkOf, shiftAt, phaseAt, resetAt. split; [done|].
  destruct (Z.eqb_spec (zlen (increments P)) 0) as [E|E].
  - rewrite (proj2 (Z.leb_le _ _)) by lia. cbn [andb].
    assert (En : increments P = []) by (by apply zlen_0). rewrite En.
    replace (getZ [] (chunkCount c)) with (@None Z) by (unfold getZ; by case_match).
    replace (getZ [] (chunkCount c + 1)) with (@None Z) by (unfold getZ; by case_match).
    rewrite (proj2 (Z.ltb_ge _ _)) by (rewrite zlen_nil; lia). destruct c; reflexivity.
  - rewrite andb_false_r.
    set (k := if chunkCount c <? _ then _ else _).
    assert (Ek : k = Z.min (chunkCount c) (zlen (increments P) - 1)).
    { unfold k. destruct (Z.ltb_spec (chunkCount c) (zlen (increments P))); lia. }
    rewrite <- Ek. clearbody k.
    destruct (getZ_is (increments P) k) as [x Hx]; [lia|]. rewrite Hx.
    change (Some x ≫= ?f) with (f x). cbv beta zeta.
    f_equal. f_equal. f_equal. f_equal. f_equal.
    destruct (Z.ltb_spec (k + 1) (zlen (increments P))).
    + destruct (getZ_is (increments P) (k + 1)) as [y Hy]; [lia|]. rewrite Hy. done.
    + destruct (getZ (increments P) (k + 1)) eqn:Ey; [apply getZ_some in Ey; lia|done].
Qed.
Lemma getIncrements_ok P c : 0 <= chunkCount c -> exists reset got,
  getIncrements P c = Some (phaseAt P (chunkOf P c), shiftAt P (chunkOf P c), reset, got, set_chunk c (chunkOf P c)).
Proof. intros H. destruct (getIncrements_all P _ H) as (r & g & Hg). exists r, g. by apply Hg. Qed.
Lemma getIncrements_get P c : 0 <= chunkCount c -> exists got,
  getIncrements P c = Some (phaseAt P (chunkOf P c), shiftAt P (chunkOf P c), resetAt P (chunkOf P c), got, set_chunk c (chunkOf P c)).
Proof. intros H. destruct (getIncrements_all P _ H) as (r & g & Hg). exists g. destruct (Hg c eq_refl) as [-> E]. exact E. Qed.
Lemma shiftAt_nonneg P k : 0 <= increment P -> 0 <= shiftAt P k.
Proof. intros H. unfold shiftAt, phaseAt. repeat case_match; lia. Qed.

Lemma peekChunk_ok P c : wf P c -> exists d f, peekChunk P c = Some d /\ d = set_flt (set_in c (skipn_z (increment P) (inbuf c)) (inCount c)) f (spec c) /\ zlen f = zlen (fltbuf c) /\
    f = firstn_z (Z.min (zlen (inbuf c)) (window P)) (inbuf c) ++ skipn_z (Z.min (zlen (inbuf c)) (window P)) (fltbuf c).
Proof.
  intros Hc. unfold peekChunk. pose proof (wf_flt _ _ Hc). pose proof (zlen_nonneg (inbuf c)).
  set (n := Z.min _ _). assert (Hn : n <= zlen (inbuf c) /\ n <= zlen (fltbuf c)) by lia. clearbody n.
  rewrite (proj2 (Z.leb_le _ _)) by lia. do 2 eexists. split; [reflexivity|]. split; [reflexivity|].
  split; [|done]. rewrite zlen_app, zlen_firstn, zlen_skipn.
  pose proof (zlen_nonneg (fltbuf c)). lia.
Qed.

Definition chunkStart P c : option chan := if draining c then Some c else peekChunk P c.

Lemma processChunk_ok P c : sane P -> wf P c -> capok P c -> 0 <= chunkCount c ->
  exists last d, processChunk D P c = Some (last, d) /\ wf P d /\ capok P d /\
    inCap d = inCap c /\ inCount d = inCount c /\ inputSize d = inputSize c /\ draining d = draining c /\
    chunkCount d = chunkOf P c + 1 /\
    (draining c = true -> inbuf d = inbuf c /\ fill d <= fill c /\ (last = true \/ fill d < fill c) /\ (last = true -> fill d = 0)) /\
    outputComplete d = (outputComplete c || (draining c && (fill d =? 0) && negb (fill c =? 0))) /\
    (draining c = false -> inbuf d = skipn_z (increment P) (inbuf c) /\ last = false /\
      (fill c <= window P -> fill d <= window P /\
        (window P < shiftAt P (chunkOf P c) -> window P - window P / 4 <= fill d) /\
        (shiftAt P (chunkOf P c) <= window P -> fill d = window P - shiftAt P (chunkOf P c)))) /\
    exists ns, wroteAll P c ns d /\
      Forall (fun n => 0 <= n <= (if draining c && (shiftAt P (chunkOf P c) =? 0) then increment P else shiftAt P (chunkOf P c))) ns /\
      sumZ ns = (if draining c then fill c - fill d else shiftAt P (chunkOf P c)).
Proof.
  intros HP Hc Hk Hch. unfold processChunk.
  pose proof (sane_incr _ _ HP) as Hinc. pose proof (sane_window _ _ HP) as Hwin.
  assert (H0 : exists c0, (if draining c then Some c else peekChunk P c) = Some c0 /\ wf P c0 /\ capok P c0 /\
    inCap c0 = inCap c /\ inCount c0 = inCount c /\ inputSize c0 = inputSize c /\ draining c0 = draining c /\ fill c0 = fill c /\
    chunkCount c0 = chunkCount c /\ outbuf c0 = outbuf c /\ outCount c0 = outCount c /\ outputComplete c0 = outputComplete c /\
    inbuf c0 = (if draining c then inbuf c else skipn_z (increment P) (inbuf c))).
  { destruct (draining c) eqn:Ed; [exists c; by rewrite Ed|].
    destruct (peekChunk_ok P c Hc) as (d & f & E & -> & Hf & _). eexists. split; [exact E|]. split; [|done].
    destruct Hc. constructor; cbn [fltbuf acc wacc fill set_flt set_in]; lia. }
  destruct H0 as (c0 & E0 & Hw0 & Hk0 & H1 & H2 & H3 & H4 & H5 & H6 & H7 & H8 & H10 & H9).
  rewrite E0. change (Some ?x ≫= ?f) with (f x). cbv beta.
  destruct (getIncrements_ok P c0 ltac:(lia)) as (reset & got & Eg). rewrite Eg. change (Some ?x ≫= ?f) with (f x). cbv beta iota.
  replace (chunkOf P c0) with (chunkOf P c) by (unfold chunkOf; by rewrite H6).
  set (k := chunkOf P c). set (p := phaseAt P k). set (si := shiftAt P k).
  assert (Hsi : 0 <= si) by (apply shiftAt_nonneg; lia).
  pose proof (sane_analyse _ _ HP (spec (set_chunk c0 k)) (fltbuf (set_chunk c0 k))) as Han.
  destruct (analyse D _ _) as [flt s]. cbn [fst] in Han.
  set (c1 := set_flt (set_chunk c0 k) flt s).
  assert (Hfl : window P <= zlen flt) by (rewrite Han; apply Hw0).
  assert (Hw1 : wf P c1) by (destruct Hw0; by constructor).
  assert (Hk1 : capok P c1) by done.
  destruct (Z.leb_spec si (window P)) as [Hle|Hgt].
  - destruct (pcfc_ok D P c1 p si reset HP Hw1 Hk1 ltac:(lia)) as (l & d & E & Hw & Hkd & Hs & Hcd & Hl & Hf & Hcm & Hwr).
    rewrite E. change (Some ?x ≫= ?f) with (f x). cbv beta iota.
    exists l, (set_chunk d (chunkCount d + 1)). destruct Hs as [S1 S2 S3 S4 S5].
    cbn [inbuf inCap inCount inputSize draining fill chunkCount outbuf outCap outCount outputComplete set_chunk] in *.
    change (inbuf c1) with (inbuf c0) in *. change (inCap c1) with (inCap c0) in *. change (inCount c1) with (inCount c0) in *.
    change (inputSize c1) with (inputSize c0) in *. change (draining c1) with (draining c0) in *. change (fill c1) with (fill c0) in *.
    change (chunkCount c1) with k in *. change (outbuf c1) with (outbuf c0) in *. change (outCount c1) with (outCount c0) in *.
    unfold shiftOf in *. change (draining c1) with (draining c0) in *. change (fill c1) with (fill c0) in *.
    rewrite H4, H5 in *. pose proof (wf_fill _ _ Hc) as Hfc.
    split; [done|]. split; [destruct Hw; by constructor|]. split; [done|].
    split; [congruence|]. split; [congruence|]. split; [congruence|]. split; [congruence|]. split; [lia|].
    pose proof (wf_fill _ _ Hw) as Hfd.
    change (outputComplete c1) with (outputComplete c0) in *.
    split; [|split; [|split]].
    + intros Ed. rewrite Ed in *. split; [congruence|]. cbn [andb] in *.
      set (x := if si =? 0 then increment P else si) in *. assert (1 <= x) by (unfold x; destruct (Z.eqb_spec si 0); lia).
      split; [lia|]. destruct (Z.leb_spec (fill c) (Z.min (fill c) x)); subst l; [split; [by left|lia]|split; [right; lia|done]].
    + rewrite Hcm, H10, Hl. destruct (draining c); cbn [andb]; [|by rewrite !orb_false_r].
      set (x := if si =? 0 then increment P else si) in *. assert (1 <= x) by (unfold x; destruct (Z.eqb_spec si 0); lia).
      destruct (outputComplete c), (Z.leb_spec (fill c) (Z.min (fill c) x)), (Z.eqb_spec (fill c) 0), (Z.eqb_spec (fill d) 0); cbn [andb orb negb]; try done; lia.
    + intros Ed. rewrite Ed in *. split; [congruence|]. split; [done|]. intros Hfw. lia.
    + destruct (draining c && (fill c =? 0)) eqn:Ez.
      * apply andb_true_iff in Ez as [Ed Ez]. apply Z.eqb_eq in Ez. rewrite Ed in *. exists []. split; [|split; [done|]].
        -- destruct Hwr. split; cbn; congruence.
        -- cbn. set (x := if si =? 0 then increment P else si) in *. assert (0 <= x) by (unfold x; destruct (Z.eqb_spec si 0); lia). lia.
      * eexists [_]. split; [|split].
        -- exists d. split; [congruence|]. split; [|done].
           destruct Hwr as (out & Hlen & Eo & Ec). exists out. split; [exact Hlen|]. unfold theo in *.
           change (inputSize c1) with (inputSize c0) in *. change (outbuf c1) with (outbuf c0) in *.
           change (outCount c1) with (outCount c0) in *. rewrite H3, H7, H8 in *. done.
        -- constructor; [|done]. destruct (draining c); cbn [andb]; [|lia]. destruct (Z.eqb_spec si 0); lia.
        -- cbn. rewrite Z.add_0_r. destruct (draining c); lia.
  - assert (Hbit : 0 < window P / 4 <= window P).
    { split; [apply Z.div_str_pos; lia|]. apply Z.div_le_upper_bound; lia. }
    destruct (pieces_ok P flt p si (window P / 4) HP Hfl Hbit (Datatypes.S (Z.to_nat si)) c1 0 reset false Hw1 Hk1 ltac:(lia) ltac:(lia))
      as (l & d & E & Hw & Hkd & Hs & Hcd & _ & Hdr & Hoc & Hnd & ns & Hns & Hall & Hsum).
    rewrite E. change (Some ?x ≫= ?f) with (f x). cbv beta iota.
    exists l, (set_chunk d (chunkCount d + 1)). destruct Hs as [S1 S2 S3 S4 S5].
    cbn [inbuf inCap inCount inputSize draining fill chunkCount outbuf outCap outCount outputComplete set_chunk] in *.
    change (inbuf c1) with (inbuf c0) in *. change (inCap c1) with (inCap c0) in *. change (inCount c1) with (inCount c0) in *.
    change (inputSize c1) with (inputSize c0) in *. change (draining c1) with (draining c0) in *. change (fill c1) with (fill c0) in *.
    change (chunkCount c1) with k in *. rewrite H4, H5 in *. pose proof (wf_fill _ _ Hc) as Hfc.
    split; [done|]. split; [destruct Hw; by constructor|]. split; [done|].
    split; [congruence|]. split; [congruence|]. split; [congruence|]. split; [congruence|]. split; [lia|].
    change (outputComplete c1) with (outputComplete c0) in *.
    split; [|split; [by rewrite Hoc, H10|split]].
    + intros Ed. rewrite Ed in *. destruct (Hdr eq_refl) as (Hd1 & Hd2 & Hd3). split; [congruence|]. split; [done|].
      split; [apply Hd2; lia|apply Hd3; lia].
    + intros Ed. rewrite Ed in *. destruct (Hnd eq_refl) as [Hd1 Hd2]. split; [congruence|]. split; [apply Hd1; lia|].
      intros Hfw. destruct (Hd2 Hfw) as [Hd3 Hd4]. split; [done|]. specialize (Hd4 ltac:(lia)). split; lia.
    + exists ns. split; [eapply wroteAll_ext; [| | | | |exact Hns]; cbn; congruence|]. split.
      * eapply Forall_impl; [exact Hall|]. cbn. intros x Hx. rewrite (proj2 (Z.eqb_neq si 0)) by lia. rewrite andb_false_r. lia.
      * rewrite Hsum. destruct (draining c); lia.
Qed.

Lemma processChunk_sim P c c' g b last d : sane P -> wf P c -> capok P c -> wf P c' -> capok P c' -> 0 <= chunkCount c ->
  (b = [] \/ draining c = true \/ window P <= zlen (inbuf c)) -> sim g b c c' ->
  processChunk D P c = Some (last, d) -> exists d', processChunk D P c' = Some (last, d') /\ sim g b d d'.
Proof.
  intros HP Hc Hk Hc' Hk' Hch Hb Hs E. unfold processChunk in *.
  pose proof (sane_incr _ _ HP) as Hinc. pose proof (sane_window _ _ HP) as Hwin.
  assert (H0 : exists c0 c0', (if draining c then Some c else peekChunk P c) = Some c0 /\
    (if draining c' then Some c' else peekChunk P c') = Some c0' /\ wf P c0 /\ capok P c0 /\ wf P c0' /\ capok P c0' /\
    chunkCount c0 = chunkCount c /\ sim g b c0 c0').
  { rewrite (sim_drain _ _ _ _ Hs). destruct (draining c) eqn:Ed; [by exists c, c'|].
    destruct (peekChunk_ok P c Hc) as (e & f & Ee & -> & Hf & Ef).
    destruct (peekChunk_ok P c' Hc') as (e' & f' & Ee' & -> & Hf' & Ef'). do 2 eexists.
    split; [exact Ee|]. split; [exact Ee'|].
    split; [destruct Hc; constructor; cbn [fltbuf acc wacc fill set_flt set_in]; lia|]. split; [done|].
    split; [destruct Hc'; constructor; cbn [fltbuf acc wacc fill set_flt set_in]; lia|]. split; [done|]. split; [done|].
    assert (f' = f).
    { subst f f'. rewrite (sim_in _ _ _ _ Hs), (sim_flt _ _ _ _ Hs). destruct Hb as [->|[?|Hb]]; [by rewrite app_nil_r|done|].
      pose proof (zlen_nonneg b).
      replace (Z.min (zlen (inbuf c ++ b)) (window P)) with (window P) by (rewrite zlen_app; lia).
      replace (Z.min (zlen (inbuf c)) (window P)) with (window P) by lia. by rewrite firstn_z_app by lia. }
    subst f'. destruct Hs. constructor; cbn; try done.
    rewrite sim_in. destruct Hb as [->|[?|Hb]]; [by rewrite !app_nil_r|done|]. apply skipn_z_app. lia. }
  destruct H0 as (c0 & c0' & E0 & E0' & Hw0 & Hk0 & Hw0' & Hk0' & Hch0 & Hs0).
  rewrite E0 in E. rewrite E0'. change (Some ?x ≫= ?f) with (f x) in *. cbv beta in *.
  destruct (getIncrements_all P (chunkCount c0) ltac:(lia)) as (reset & got & Eg).
  pose proof (proj2 (Eg c0' (sim_chunk _ _ _ _ Hs0))) as Eg'. pose proof (proj2 (Eg c0 eq_refl)) as Eg0. clear Eg. rename Eg0 into Eg.
  replace (chunkOf P c0') with (chunkOf P c0) in * by (unfold chunkOf; by rewrite (sim_chunk _ _ _ _ Hs0)).
  rewrite Eg in E. rewrite Eg'. change (Some ?x ≫= ?f) with (f x) in *. cbv beta iota in *.
  set (k := chunkOf P c0) in *. set (p := phaseAt P k) in *. set (si := shiftAt P k) in *.
  assert (Hsi : 0 <= si) by (apply shiftAt_nonneg; lia).
  cbn [spec fltbuf set_chunk] in *. rewrite (sim_spec _ _ _ _ Hs0), (sim_flt _ _ _ _ Hs0).
  pose proof (sane_analyse _ _ HP (spec c0) (fltbuf c0)) as Han.
  destruct (analyse D _ _) as [flt s]. cbn [fst] in Han.
  set (c1 := set_flt (set_chunk c0 k) flt s) in *. set (c1' := set_flt (set_chunk c0' k) flt s) in *.
  assert (Hfl : window P <= zlen flt) by (rewrite Han; apply Hw0).
  assert (Hw1 : wf P c1) by (destruct Hw0; by constructor).
  assert (Hw1' : wf P c1') by (destruct Hw0'; by constructor).
  assert (Hs1 : sim g b c1 c1') by (apply sim_setflt, sim_setchunk; done).
  destruct (Z.leb_spec si (window P)) as [Hle|Hgt].
  - destruct (processChunkForChannel D P c1 p si reset) as [[l e]|] eqn:Ee; [|done].
    change (Some ?x ≫= ?f) with (f x) in *. cbv beta iota in *. injection E as <- <-.
    destruct (pcfc_sim D P c1 c1' g b p si reset l e HP Hw1 Hk0 Hk0' ltac:(lia) Hs1 Ee) as (e' & Ee' & Hse).
    rewrite Ee'. change (Some ?x ≫= ?f) with (f x). cbv beta iota. eexists. split; [reflexivity|].
    rewrite (sim_chunk _ _ _ _ Hse). by apply sim_setchunk.
  - assert (Hbit : 0 < window P / 4 <= window P).
    { split; [apply Z.div_str_pos; lia|]. apply Z.div_le_upper_bound; lia. }
    destruct (pieces D _ P c1 flt p si 0 _ reset false) as [[l e]|] eqn:Ee; [|done].
    change (Some ?x ≫= ?f) with (f x) in *. cbv beta iota in *. injection E as <- <-.
    destruct (pieces_sim P flt p si (window P / 4) HP Hfl Hbit _ c1 c1' g b 0 reset false l e Hw1 Hk0 Hk0' ltac:(lia) Hw1' Hs1 Ee) as (e' & Ee' & Hse).
    rewrite Ee'. change (Some ?x ≫= ?f) with (f x). cbv beta iota. eexists. split; [reflexivity|].
    rewrite (sim_chunk _ _ _ _ Hse). by apply sim_setchunk.
Qed.
End Chunks.
