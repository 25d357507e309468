(** Several channels: interleaving, and the planar interface of D_BQResampler. *)
From stdpp Require Import prelude.
From Coq Require Import ZArith QArith Qround Qabs Lia.
From Verif.Resampler Require Import Model Spec Phases Core Loops Proofs.
Local Open Scope Z_scope.
Local Set Default Proof Using "Type*".

(** Channel [j] of an interleaved stream of [n] channels. *)
Definition chan {X} (z : X) (n j : Z) (xs : list X) : list X :=
  (fun i => stream_at z xs (i * n + j)) <$> seqZ 0 (zlen xs / n).

Lemma stream_at_fmap_seqZ {X} (z : X) (f : Z -> X) m i : 0 <= m ->
  stream_at z (f <$> seqZ 0 m) i = if (0 <=? i) && (i <? m) then f i else z.
Proof.
  intros Hm. destruct (Z.leb_spec 0 i), (Z.ltb_spec i m); cbn [andb].
  - apply getZ_stream_at, getZ_seqZ. lia.
  - apply stream_at_past. rewrite zlen_fmap, zlen_seqZ; lia.
  - apply stream_at_neg. lia.
  - apply stream_at_neg. lia.
Qed.
Lemma zlen_chan {X} (z : X) n j xs : 1 <= n -> zlen (chan z n j xs) = zlen xs / n.
Proof.
  intros Hn. unfold chan. rewrite zlen_fmap, zlen_seqZ; [done|]. apply Z.div_pos; [apply zlen_nonneg|lia].
Qed.
Lemma stream_at_chan {X} (z : X) n j xs i : 1 <= n -> 0 <= j < n -> (n | zlen xs) ->
  stream_at z (chan z n j xs) i = stream_at z xs (i * n + j).
Proof.
  intros Hn Hj [m Hm]. unfold chan. rewrite Hm, Z.div_mul by lia. pose proof (zlen_nonneg xs).
  rewrite stream_at_fmap_seqZ by nia.
  destruct (Z.leb_spec 0 i), (Z.ltb_spec i m); cbn [andb]; [done| | |].
  - symmetry. apply stream_at_past. nia.
  - symmetry. apply stream_at_neg. nia.
  - symmetry. apply stream_at_neg. nia.
Qed.
Lemma stream_at_app_r {X} (z : X) l k t : stream_at z (l ++ k) (zlen l + t) =
  if t <? 0 then stream_at z l (zlen l + t) else stream_at z k t.
Proof.
  destruct (Z.ltb_spec t 0); [apply stream_at_app_l; lia|]. unfold stream_at.
  pose proof (zlen_nonneg l).
  destruct (Z.ltb_spec (zlen l + t) 0), (Z.ltb_spec t 0); try lia.
  rewrite lookup_app_r by (unfold zlen in *; lia). do 2 f_equal. unfold zlen in *. lia.
Qed.
Lemma chan_app {X} (z : X) n j xs ys : 1 <= n -> 0 <= j < n -> (n | zlen xs) ->
  chan z n j (xs ++ ys) = chan z n j xs ++ chan z n j ys.
Proof.
  intros Hn Hj [m Hm]. unfold chan. pose proof (zlen_nonneg xs). pose proof (zlen_nonneg ys).
  rewrite zlen_app, Hm, Z.div_mul, Z.add_comm, Z.div_add by lia. rewrite (Z.add_comm _ m).
  assert (0 <= zlen ys / n) by (apply Z.div_pos; lia).
  rewrite seqZ_app, fmap_app by nia. f_equal.
  - apply list_fmap_ext. intros i k Hi. apply lookup_seqZ in Hi as [-> Hi].
    apply stream_at_app_l. nia.
  - rewrite seqZ_shift. apply list_fmap_ext. intros i k Hi. apply lookup_seqZ in Hi as [-> Hi].
    replace ((0 + m + (0 + Z.of_nat i)) * n + j) with (zlen xs + ((0 + Z.of_nat i) * n + j)) by lia.
    rewrite stream_at_app_r. destruct (Z.ltb_spec ((0 + Z.of_nat i) * n + j) 0); [nia|done].
Qed.
Lemma list_eq_stream {X} (z : X) (l k : list X) : zlen l = zlen k ->
  (forall i, 0 <= i < zlen l -> stream_at z l i = stream_at z k i) -> l = k.
Proof.
  intros Hl H. apply list_eq. intros i. destruct (decide (i < length l)%nat) as [Hi|Hi].
  - specialize (H (Z.of_nat i) ltac:(unfold zlen; lia)). unfold zlen in Hl.
    pose proof (getZ_stream z l (Z.of_nat i) ltac:(unfold zlen; lia)) as H1.
    pose proof (getZ_stream z k (Z.of_nat i) ltac:(unfold zlen; lia)) as H2.
    unfold getZ in H1, H2. destruct (Z.ltb_spec (Z.of_nat i) 0); [lia|]. rewrite Nat2Z.id in *. congruence.
  - unfold zlen in Hl. rewrite !lookup_ge_None_2 by lia. done.
Qed.

Lemma join_cons {X} (x : list X) l : mjoin (x :: l) = x ++ mjoin l.
Proof. done. Qed.
(** ** The two loops *)
Lemma join_rows {X} (z : X) n : 0 <= n -> forall (rows : list (list X)), Forall (fun r => zlen r = n) rows ->
  zlen (mjoin rows) = zlen rows * n /\
  forall i j, 0 <= j < n -> stream_at z (mjoin rows) (i * n + j) = stream_at z (stream_at [] rows i) j.
Proof.
  intros Hn. induction 1 as [|r rows Hr _ [IH1 IH2]].
  - split; [reflexivity|]. intros i j Hj. change (mjoin []) with (@nil X).
    assert (stream_at [] (@nil (list X)) i = []) as -> by (unfold stream_at; by destruct (_ <? _)).
    unfold stream_at. by destruct (_ <? _), (_ <? _).
  - rewrite join_cons, zlen_app, zlen_cons, IH1, Hr. split; [lia|]. intros i j Hj.
    destruct (Z.lt_trichotomy i 0) as [Hi|[->|Hi]].
    + rewrite (stream_at_neg _ _ (i * n + j)) by nia. rewrite (stream_at_neg _ _ i) by lia.
      unfold stream_at. by destruct (_ <? _).
    + rewrite Z.mul_0_l, Z.add_0_l. rewrite stream_at_app_l by lia. done.
    + replace (i * n + j) with (zlen r + ((i - 1) * n + j)) by lia. rewrite stream_at_app_r.
      destruct (Z.ltb_spec ((i - 1) * n + j) 0); [nia|]. rewrite IH2 by lia. f_equal.
      unfold stream_at. destruct (Z.ltb_spec (i - 1) 0), (Z.ltb_spec i 0); try lia.
      replace (Z.to_nat i) with (S (Z.to_nat (i - 1))) by lia. done.
Qed.

Lemma interleave_ok {X} (z : X) (src : list (list X)) count :
  1 <= zlen src -> 0 <= count -> Forall (fun c => count <= zlen c) src ->
  exists xs, v_interleave src count = Some xs /\ zlen xs = count * zlen src /\
    forall i j c, getZ src j = Some c -> 0 <= i < count -> getZ xs (i * zlen src + j) = getZ c i.
Proof.
  intros Hs Hc Hf. unfold v_interleave.
  set (row := fun i => (fun ch => stream_at z ch i) <$> src).
  assert (Hrow : forall i, 0 <= i < count -> mapM (fun ch => getZ ch i) src = Some (row i)).
  { intros i Hi. apply mapM_ext. intros ch Hch.
    rewrite list.Forall_forall in Hf. specialize (Hf ch Hch). apply getZ_stream. lia. }
  rewrite (mapM_ext _ row).
  2: { intros i Hi. apply Hrow. by apply elem_of_seqZ in Hi. }
  cbn. exists (mjoin (row <$> seqZ 0 count)). split; [done|].
  assert (Hr : Forall (fun r => zlen r = zlen src) (row <$> seqZ 0 count)).
  { apply Forall_fmap, list.Forall_forall. intros i _. cbn. apply zlen_fmap. }
  destruct (join_rows z (zlen src) ltac:(lia) _ Hr) as [H1 H2].
  rewrite H1, zlen_fmap, zlen_seqZ by lia. split; [done|].
  intros i j c Hj Hi. pose proof (getZ_Some _ _ _ Hj) as Hjr.
  rewrite (getZ_stream z) by (rewrite H1, zlen_fmap, zlen_seqZ; nia).
  rewrite H2 by lia. rewrite stream_at_fmap_seqZ by lia.
  destruct (Z.leb_spec 0 i), (Z.ltb_spec i count); try lia. cbn [andb].
  assert (Hrj : stream_at z (row i) j = stream_at z c i).
  { apply getZ_stream_at. unfold row, getZ in *. destruct (j <? 0); [done|].
    rewrite list_lookup_fmap, Hj. done. }
  rewrite Hrj. symmetry. apply getZ_stream.
  rewrite list.Forall_forall in Hf. assert (c ∈ src).
  { unfold getZ in Hj. destruct (j <? 0); [done|]. by eapply elem_of_list_lookup_2. }
  specialize (Hf c ltac:(done)). lia.
Qed.

Lemma deinterleave_ok {X} (z : X) (xs : list X) n count : 1 <= n -> 0 <= count -> count * n = zlen xs ->
  v_deinterleave xs n count = Some ((fun j => chan z n j xs) <$> seqZ 0 n).
Proof.
  intros Hn Hc Hl. unfold v_deinterleave.
  rewrite (mapM_ext _ (fun j => chan z n j xs)); [done|].
  intros j Hj. apply elem_of_seqZ in Hj. unfold chan. rewrite <- Hl, Z.div_mul by lia.
  apply mapM_ext. intros i Hi. apply elem_of_seqZ in Hi. apply getZ_stream. nia.
Qed.
(** Interleaving makes channel [j] from channel [j]. *)
Lemma interleave_chan {X} (z : X) (src : list (list X)) count :
  1 <= zlen src -> 0 <= count -> Forall (fun c => zlen c = count) src ->
  exists xs, v_interleave src count = Some xs /\ zlen xs = count * zlen src /\
    forall j c, getZ src j = Some c -> chan z (zlen src) j xs = c.
Proof.
  intros Hs Hc Hf. destruct (interleave_ok z src count Hs Hc) as (xs & H1 & H2 & H3).
  { eapply Forall_impl; [exact Hf|]. cbn. lia. }
  exists xs. split_and!; try done. intros j c Hj. pose proof (getZ_Some _ _ _ Hj) as Hjr.
  assert (Hcl : zlen c = count).
  { rewrite list.Forall_forall in Hf. apply Hf. unfold getZ in Hj. destruct (j <? 0); [done|].
    by eapply elem_of_list_lookup_2. }
  apply (list_eq_stream z).
  - rewrite zlen_chan by lia. rewrite H2, Z.div_mul by lia. done.
  - intros i Hi. rewrite zlen_chan, H2, Z.div_mul in Hi by lia.
    rewrite stream_at_chan; [|lia|lia|rewrite H2; apply Z.divide_factor_r].
    specialize (H3 i j c Hj Hi). pose proof (getZ_stream z c i ltac:(lia)) as Hg. rewrite Hg in H3.
    by apply getZ_stream_at.
Qed.
Lemma interleave_round_trip {X} (src : list (list X)) count :
  1 <= zlen src -> 0 <= count -> Forall (fun c => zlen c = count) src ->
  exists xs, v_interleave src count = Some xs /\ zlen xs = count * zlen src /\
    v_deinterleave xs (zlen src) count = Some src.
Proof.
  intros Hs Hc Hf. destruct src as [|[|x c] src].
  - rewrite zlen_nil in Hs. lia.
  - (* nothing to interleave *)
    assert (count = 0) as -> by (apply Forall_cons_1 in Hf as [Hf _]; rewrite <- Hf; done).
    exists []. assert (Hall : Forall (fun c => c = []) ([] :: src)).
    { eapply Forall_impl; [exact Hf|]. cbn. intros l Hl. destruct l; [done|]. rewrite zlen_cons in Hl.
      pose proof (zlen_nonneg l). lia. }
    set (s := [] :: src) in *. split_and!; [done|by rewrite zlen_nil|].
    unfold v_deinterleave. cbn [seqZ Z.to_nat seq fmap list_fmap].
    assert (Hm : forall l : list Z, mapM (fun _ => mapM (fun i => getZ (@nil X) (i * zlen s + 0)) []) l = Some (replicate (length l) [])).
    { induction l as [|a l IH]; [done|]. cbn in *. by rewrite IH. }
    transitivity (Some (replicate (length (seqZ 0 (zlen s))) (@nil X))).
    { exact (Hm (seqZ 0 (zlen s))). }
    rewrite seqZ_length. unfold zlen. rewrite Nat2Z.id. f_equal. symmetry. clear -Hall.
    induction Hall as [|y l -> _ IH]; [done|]. cbn. by f_equal.
  - destruct (interleave_chan x _ count Hs Hc Hf) as (xs & H1 & H2 & H3). exists xs. split_and!; try done.
    rewrite (deinterleave_ok x) by lia. f_equal. set (s := (x :: c) :: src) in *.
    apply list_eq. intros i. rewrite list_lookup_fmap. destruct (decide (i < length s)%nat) as [Hi|Hi].
    + rewrite lookup_seqZ_lt by (unfold zlen; lia). cbn.
      destruct (lookup_lt_is_Some_2 s i Hi) as [d Hd]. rewrite Hd. f_equal. apply H3.
      unfold getZ. destruct (Z.ltb_spec (0 + Z.of_nat i) 0); [lia|]. by replace (Z.to_nat (0 + Z.of_nat i)) with i by lia.
    + rewrite lookup_seqZ_ge by (unfold zlen; lia). cbn. symmetry. apply lookup_ge_None_2. lia.
Qed.

(** ** Planar calls *)
Section Planar.
Context (A : arith) (c : config) (Hch : 1 <= channels c).
Notation T := (T A).
Notation ch := (channels c).

(** The output for channel [j] depends on channel [j] only. *)
Lemma chan_converted tap mono scale v final xs j : 0 <= j < ch -> (ch | zlen xs) ->
  0 <= frames v final (zlen xs / ch) ->
  chan (zero A) ch j (converted A tap mono scale v ch final xs) =
  converted A tap mono scale v 1 final (chan (zero A) ch j xs).
Proof.
  intros Hj Hd Hf. unfold converted at 2. rewrite zlen_chan, Z.div_1_r, Z.mul_1_r by lia.
  unfold chan at 1. unfold converted. set (F := frames v final (zlen xs / ch)) in *.
  rewrite zlen_fmap, zlen_seqZ, Z.div_mul by nia.
  apply list_fmap_ext. intros i k Hi. apply lookup_seqZ in Hi as [-> Hi]. rewrite Z.add_0_l.
  rewrite stream_at_fmap_seqZ by nia.
  destruct (Z.leb_spec 0 (Z.of_nat i * ch + j)), (Z.ltb_spec (Z.of_nat i * ch + j) (F * ch)); try nia. cbn [andb].
  rewrite Z.div_add_l, (Z.div_small j), Z.add_0_r, Z.div_1_r, Z.mod_1_r by lia.
  rewrite Z.add_comm, Z.mod_add, Z.mod_small by lia.
  unfold sample. cbv zeta. f_equal. f_equal. apply list_fmap_ext. intros ii t _.
  rewrite stream_at_chan by (try done; lia). f_equal. lia.
Qed.

(** A planar call is an interleaved one in between. *)
Lemma planar_call b n src count ratio final : zlen src = ch -> 0 <= count -> Forall (fun x => zlen x = count) src ->
  exists xs, zlen xs = count * ch /\ (forall j x, getZ src j = Some x -> chan (zero A) ch j xs = x) /\
    forall ys b', resampleInterleaved A c b n xs ratio final = Some (ys, b') -> (ch | zlen ys) ->
    resample A c b n src count ratio final = Some ((fun j => chan (zero A) ch j ys) <$> seqZ 0 ch, b').
Proof.
  intros Hs Hc Hf. destruct (interleave_chan (zero A) src count ltac:(lia) Hc Hf) as (xs & H1 & H2 & H3).
  rewrite Hs in *. exists xs. split_and!; try done.
  intros ys b' Hr [m Hm]. unfold resample. pose proof (zlen_nonneg ys).
  destruct (Z.eqb_spec ch 1) as [E1|E1].
  - destruct src as [|x [|y src]]; [rewrite zlen_nil in Hs; lia| |rewrite !zlen_cons in Hs; pose proof (zlen_nonneg src); lia].
    change (getZ [x] 0) with (Some x). cbn [mbind option_bind].
    assert (Hx : take (Z.to_nat count) x = xs).
    { rewrite take_ge by (apply Forall_cons_1 in Hf as [Hf _]; unfold zlen in Hf; lia).
      rewrite <- (H3 0 x eq_refl). rewrite E1. unfold chan. rewrite Z.div_1_r.
      apply (list_eq_stream (zero A)); [by rewrite zlen_fmap, zlen_seqZ by apply zlen_nonneg|].
      intros i Hi. rewrite zlen_fmap, zlen_seqZ in Hi by apply zlen_nonneg.
      rewrite stream_at_fmap_seqZ by apply zlen_nonneg.
      destruct (Z.leb_spec 0 i), (Z.ltb_spec i (zlen xs)); try lia. cbn. f_equal. lia. }
    rewrite Hx, Hr. cbn [mbind option_bind]. do 2 f_equal. rewrite E1. change (seqZ 0 1) with [0]. cbn [fmap list_fmap]. f_equal.
    unfold chan. rewrite Z.div_1_r.
    apply (list_eq_stream (zero A)); [by rewrite zlen_fmap, zlen_seqZ by lia|].
    intros i Hi. rewrite stream_at_fmap_seqZ by lia.
    destruct (Z.leb_spec 0 i), (Z.ltb_spec i (zlen ys)); try lia. cbn. f_equal. lia.
  - rewrite H1. cbn [mbind option_bind]. rewrite Hr. cbn [mbind option_bind].
    rewrite Hm, Z.quot_mul by lia. rewrite (deinterleave_ok (zero A)) by nia. done.
Qed.

(** A sequence of planar calls at one ratio, the last one perhaps final. *)
Fixpoint run_planar (b : bq A) (ratio : Q) (final : bool) (bs : list (list (list T) * Z * Z))
    : option (list (list (list T)) * bq A) :=
  match bs with
  | [] => Some ([], b)
  | (src, count, n) :: bs =>
    '(ys, b1) ← resample A c b n src count ratio (final && match bs with [] => true | _ => false end);
    '(yss, b2) ← run_planar b1 ratio final bs;
    Some (ys :: yss, b2)
  end.
Definition planar_ok (bk : list (list T) * Z * Z) : Prop :=
  let '(src, count, n) := bk in
  zlen src = ch /\ 0 <= count /\ 0 <= n /\ Forall (fun x => zlen x = count) src.
(** The blocks of channel [j]. *)
Definition on_channel (j : Z) (xss : list (list (list T))) : list T :=
  mjoin ((fun xs => stream_at [] xs j) <$> xss).
Definition planar_room (bk : list (list T) * Z * Z) (ys : list (list T)) : Prop :=
  Forall (fun y => zlen y < snd bk) ys.

(** The interleaved calls in between. *)
Fixpoint icalls (ratio : Q) (final : bool) (bs : list (list T * Z)) : list (op A) :=
  match bs with
  | [] => []
  | (x, n) :: bs => Resample x n ratio (final && match bs with [] => true | _ => false end) :: icalls ratio final bs
  end.
Lemma icalls_snoc ratio final bs x n :
  icalls ratio final (bs ++ [(x, n)]) = calls A ratio bs ++ [Resample x n ratio final].
Proof.
  induction bs as [|[y k] bs IH]; cbn [icalls app].
  - by rewrite andb_true_r.
  - rewrite IH. cbn. f_equal. by destruct bs; cbn; rewrite andb_false_r.
Qed.
Definition same_block (bk : list (list T) * Z * Z) (ib : list T * Z) : Prop :=
  let '(src, count, n) := bk in
  snd ib = n /\ zlen (fst ib) = count * ch /\ forall j x, getZ src j = Some x -> chan (zero A) ch j (fst ib) = x.
Definition split_channels (ys : list T) : list (list T) := (fun j => chan (zero A) ch j ys) <$> seqZ 0 ch.

Lemma planar_run ratio final p : supported c ratio p -> (0 < ratio)%Q -> forall bs b,
  bq_ok A c b -> Forall planar_ok bs ->
  exists ibs, Forall2 same_block bs ibs /\
  exists yss b', run A c b (icalls ratio final ibs) = Some (yss, b') /\
    run_planar b ratio final bs = Some (split_channels <$> yss, b') /\
    Forall (fun ys => (ch | zlen ys)) yss.
Proof.
  intros Hs Hr. induction bs as [|[[src count] n] bs IH]; intros b Hb Hok.
  - exists []. split; [constructor|]. exists [], b. cbn. auto.
  - apply Forall_cons_1 in Hok as [(H1 & H2 & H3 & H4) Hok].
    set (f := final && match bs with [] => true | _ => false end).
    destruct (planar_call b n src count ratio f H1 H2 H4) as (xs & Hx1 & Hx2 & Hx3).
    assert (Hv : valid A c (Resample xs n ratio f)).
    { split_and!; try done; [rewrite Hx1; apply Z.divide_factor_r|]. by exists p. }
    destruct (resample_ok A c Hch b xs n ratio f Hb Hv) as (ys & b1 & Hc1 & Hb1 & _ & Hd).
    destruct (IH b1 Hb1 Hok) as (ibs & Hf2 & yss & b2 & Hr2 & Hp2 & Hd2).
    exists ((xs, n) :: ibs). split; [constructor; [by split_and!|done]|].
    exists (ys :: yss), b2. cbn [icalls run run_planar step].
    assert (Hlast : (match ibs with [] => true | _ => false end) = (match bs with [] => true | _ => false end)).
    { by destruct Hf2. }
    rewrite Hlast. fold f. rewrite Hc1. cbn [mbind option_bind]. rewrite Hr2. cbn [mbind option_bind].
    rewrite (Hx3 ys b1 Hc1 Hd). cbn [mbind option_bind]. rewrite Hp2. cbn [mbind option_bind].
    split_and!; try done. by constructor.
Qed.

Lemma stream_split ys j : 0 <= j < ch -> stream_at [] (split_channels ys) j = chan (zero A) ch j ys.
Proof.
  intros Hj. unfold split_channels. rewrite stream_at_fmap_seqZ by lia.
  destruct (Z.leb_spec 0 j), (Z.ltb_spec j ch); try lia. done.
Qed.
Lemma on_channel_split yss j : 0 <= j < ch -> Forall (fun ys => (ch | zlen ys)) yss ->
  on_channel j (split_channels <$> yss) = chan (zero A) ch j (mjoin yss).
Proof.
  intros Hj. unfold on_channel. induction 1 as [|ys yss Hy _ IH]; [done|].
  cbn [fmap list_fmap]. rewrite !join_cons, chan_app by (try done; lia).
  rewrite stream_split by done. f_equal. exact IH.
Qed.
Lemma on_channel_blocks bs ibs j : 0 <= j < ch -> Forall planar_ok bs -> Forall2 same_block bs ibs ->
  on_channel j (fst <$> (fst <$> bs)) = chan (zero A) ch j (mjoin (fst <$> ibs)) /\
  (ch | zlen (mjoin (fst <$> ibs))).
Proof.
  intros Hj Hok. induction 1 as [|[[src count] n] [x k] bs ibs (H1 & H2 & H3) HF IH].
  - split; [done|]. apply Z.divide_0_r.
  - apply Forall_cons_1 in Hok as [(Hs & Hc & Hn & Hf) Hok]. destruct (IH Hok) as [IH1 IH2].
    cbn [fst snd] in *. cbn [fmap list_fmap fst]. rewrite join_cons.
    assert (Hd : (ch | zlen x)) by (rewrite H2; apply Z.divide_factor_r).
    split; [|rewrite zlen_app; by apply Z.divide_add_r].
    unfold on_channel. cbn [fmap list_fmap fst]. rewrite join_cons, chan_app by (try done; lia). f_equal.
    + destruct (getZ_in src j ltac:(lia)) as [y Hy]. rewrite (H3 j y Hy). by apply getZ_stream_at.
    + exact IH1.
Qed.

(** Every channel of a planar stream is converted on its own. *)
Lemma planar_stream ratio p bs final : supported c ratio p -> (0 < ratio)%Q -> bs <> [] -> Forall planar_ok bs ->
  exists yss b', run_planar construct ratio final bs = Some (yss, b') /\
    (Forall2 planar_room bs yss -> forall j, 0 <= j < ch ->
     on_channel j yss =
       converted A (filter_tap A c p (filter_length_for c p)) (fixed c && (ch =? 1)) (p_scale p) (cv c p) 1 final
         (on_channel j (fst <$> (fst <$> bs)))).
Proof.
  intros Hs Hr Hne Hok.
  destruct (planar_run ratio final p Hs Hr bs construct (construct_ok A c Hch) Hok)
    as (ibs & Hf2 & yss & b' & Hrun & Hpl & Hd).
  exists (split_channels <$> yss), b'. split; [done|]. intros Hroom j Hj.
  destruct (on_channel_blocks bs ibs j Hj Hok Hf2) as [Hin Hdi].
  rewrite on_channel_split, Hin by done.
  assert (Hbl : blocks_ok A c ibs).
  { clear -Hok Hf2. induction Hf2 as [|[[src count] n] [x k] bs ibs (H1 & H2 & H3) HF IH]; [constructor|].
    apply Forall_cons_1 in Hok as [(Hs & Hc & Hn & Hf) Hok]. constructor; [|by apply IH].
    cbn in *. split; [rewrite H2; apply Z.divide_factor_r|lia]. }
  assert (Hrm : Forall2 (room A c) ibs yss).
  { assert (Hroom' : Forall2 (fun bk ys => planar_room bk (split_channels ys)) bs yss).
    { rewrite Forall2_fmap_r in Hroom. eapply Forall2_impl; [exact Hroom|]. by intros [[? ?] ?] ?. }
    clear -Hroom' Hf2 Hd Hch. revert yss Hroom' Hd.
    induction Hf2 as [|[[src count] n] [x k] bs ibs (H1 & H2 & H3) HF IH]; intros yss HR Hd.
    - apply Forall2_nil_inv_l in HR. subst. constructor.
    - apply Forall2_cons_inv_l in HR as (ys & yss' & Hy & HR & ->). apply Forall_cons_1 in Hd as [Hd1 Hd].
      constructor; [|by apply IH]. unfold room. cbn in *. subst k. unfold planar_room, split_channels in Hy.
      rewrite Forall_fmap, list.Forall_forall in Hy. cbn in Hy.
      specialize (Hy 0 ltac:(apply elem_of_seqZ; lia)). rewrite zlen_chan in Hy by lia.
      destruct Hd1 as [m Hm]. rewrite Hm, Z.div_mul in Hy by lia. nia. }
  destruct ibs as [|[x n] ibs' _] using rev_ind.
  { inversion Hf2. by subst. }
  rewrite icalls_snoc in Hrun.
  destruct (whole_stream A c Hch ratio p Hs Hr ibs' x n final Hbl) as (yss2 & b2 & Hrun2 & Hconv).
  rewrite Hrun in Hrun2. injection Hrun2 as <- <-. rewrite (Hconv Hrm).
  rewrite fmap_app, join_app in *. cbn [fmap list_fmap mjoin list_join fst app] in *.
  rewrite app_nil_r in *. rewrite chan_converted; try done.
  destruct Hdi as [N HN]. rewrite HN, Z.div_mul by lia.
  apply (frames_can c Hch ratio p Hs Hr final N). pose proof (zlen_nonneg (mjoin ibs'.*1 ++ x)). nia.
Qed.
End Planar.
