(** The accumulator holds the overlap-add of the frames so far. *)
From stdpp Require Import prelude.
From Coq Require Import ZArith QArith Qround Lia Lqa.
From Verif Require Import Base.Arith Faster.Model Faster.Core Faster.Chunks Faster.Stream Faster.Count Faster.OlaSpec.
Local Open Scope Z_scope.

Section Get.
Context {T : Type}.
Implicit Types l k : list T.
Lemma getZ_out l i : i < 0 \/ zlen l <= i -> getZ l i = None.
Proof.
  intros H. unfold getZ, zlen in *. destruct (Z.leb_spec 0 i); [|done]. apply lookup_ge_None. lia.
Qed.
Lemma getZ_app l k i : getZ (l ++ k) i = if i <? zlen l then getZ l i else getZ k (i - zlen l).
Proof.
  unfold getZ, zlen. destruct (Z.ltb_spec i (Z.of_nat (length l))), (Z.leb_spec 0 i); try lia.
  - apply lookup_app_l. lia.
  - done.
  - rewrite (proj2 (Z.leb_le _ _)) by lia. rewrite lookup_app_r by lia. f_equal. lia.
Qed.
Lemma getZ_firstn n l i : i < n -> getZ (firstn_z n l) i = getZ l i.
Proof.
  intros H. unfold getZ, firstn_z. destruct (Z.leb_spec 0 i); [|done]. apply lookup_take. lia.
Qed.
Lemma getZ_skipn n l i : 0 <= n -> 0 <= i -> getZ (skipn_z n l) i = getZ l (n + i).
Proof.
  intros Hn H. unfold getZ, skipn_z. rewrite !(proj2 (Z.leb_le _ _)) by lia. rewrite lookup_drop. f_equal. lia.
Qed.
Lemma getZ_replicate n (x : T) i : 0 <= i < Z.of_nat n -> getZ (replicate n x) i = Some x.
Proof. intros H. unfold getZ. rewrite (proj2 (Z.leb_le _ _)) by lia. apply lookup_replicate. split; [done|lia]. Qed.
Lemma getZ_ext l k : zlen l = zlen k -> (forall i, 0 <= i < zlen l -> getZ l i = getZ k i) -> l = k.
Proof.
  intros Hl H. apply list_eq_same_length with (n := length k); [done|unfold zlen in Hl; lia|].
  intros i x y Hi Hx Hy. specialize (H (Z.of_nat i)). rewrite !getZ_lookup, Hx, Hy in H. unfold zlen in *.
  specialize (H ltac:(lia)). congruence.
Qed.
End Get.
Lemma getZ_zip {T} (f : T -> T -> T) (l k : list T) i x y : getZ l i = Some x -> getZ k i = Some y -> getZ (zip_with f l k) i = Some (f x y).
Proof.
  unfold getZ. destruct (0 <=? i); [|done]. intros Hx Hy. by rewrite lookup_zip_with, Hx, Hy.
Qed.
Lemma getZ_fmap {T U} (f : T -> U) (l : list T) i : getZ (f <$> l) i = f <$> getZ l i.
Proof. unfold getZ. destruct (0 <=? i); [|done]. apply list_lookup_fmap. Qed.
Lemma zlen_upTo n : 0 <= n -> zlen (upTo n) = n.
Proof. intros H. unfold zlen, upTo. rewrite fmap_length, seq_length. lia. Qed.
Lemma getZ_upTo n i : 0 <= i < n -> getZ (upTo n) i = Some i.
Proof.
  intros H. unfold getZ, upTo. rewrite (proj2 (Z.leb_le _ _)) by lia. rewrite list_lookup_fmap, lookup_seq_lt by lia.
  cbn. f_equal. lia.
Qed.

Section Ola.
Context {A S R K : Type} (D : dsp A S R K).
Notation chan := (channel A S R).
Implicit Types (P : params) (c d e : chan) (F G : list (Z * list A)).
Notation sane := (sane D).

Lemma v_zip_get (f : A -> A -> A) a b n r i x : v_zip f a b n = Some r -> getZ a i = Some x ->
  getZ r i = if i <? n then (f x <$> getZ b i) else Some x.
Proof.
  intros E Hx. pose proof (v_zip_len _ _ _ _ _ E) as (Hr & Hn & Hb). rewrite v_zip_some in E by lia. injection E as <-.
  pose proof (getZ_some _ _ _ Hx) as Hi.
  assert (Hz : zlen (zip_with f (firstn_z n a) (firstn_z n b)) = n).
  { unfold zlen. rewrite zip_with_length. unfold firstn_z. rewrite !take_length. unfold zlen in *. lia. }
  rewrite getZ_app, Hz. destruct (Z.ltb_spec i n).
  - destruct (getZ_is b i) as [y Hy]; [lia|]. rewrite Hy. cbn.
    apply getZ_zip; by rewrite getZ_firstn by lia.
  - rewrite getZ_skipn by lia. replace (n + (i - n)) with i by lia. done.
Qed.
Lemma v_shift_get a sz si r i : v_shift D a sz si = Some r -> 0 <= i < zlen a ->
  getZ r i = if i <? sz - si then getZ a (i + si) else if i <? sz then Some (zero D) else getZ a i.
Proof.
  unfold v_shift. destruct (Z.leb_spec 0 si), (Z.leb_spec si sz), (Z.leb_spec sz (zlen a)); cbn [andb]; try done.
  intros E Hi. injection E as <-.
  assert (Hl : zlen (skipn_z si (firstn_z sz a)) = sz - si) by (rewrite zlen_skipn, zlen_firstn; lia).
  rewrite getZ_app, Hl. destruct (Z.ltb_spec i (sz - si)).
  - rewrite getZ_skipn by lia. rewrite getZ_firstn by lia. f_equal. lia.
  - rewrite getZ_app, zlen_replicate. destruct (Z.ltb_spec i sz).
    + rewrite (proj2 (Z.ltb_lt _ _)) by lia. apply getZ_replicate. lia.
    + rewrite (proj2 (Z.ltb_ge _ _)) by lia. rewrite getZ_skipn by lia. f_equal. lia.
Qed.

Lemma sumAt_app (init : A) F G i : sumAt (add D) init (F ++ G) i = sumAt (add D) (sumAt (add D) init F i) G i.
Proof. unfold sumAt. by rewrite foldl_app. Qed.
Lemma sumAt_outside (init : A) F i : Forall (fun '(o, f) => i < o \/ o + zlen f <= i) F -> sumAt (add D) init F i = init.
Proof.
  revert init. induction F as [|[o f] F IH]; intros init H; [done|]. apply Forall_cons in H as [H1 H2].
  unfold sumAt in *. cbn [foldl]. rewrite getZ_out by lia. by apply IH.
Qed.

(** The accumulator holds [F] summed up from position [pos], the window accumulator [G]. *)
Record accOK c (pos : Z) F G : Prop := AccOK {
  ao_pos : 0 <= pos;
  ao_acc : forall j, 0 <= j < zlen (acc c) -> getZ (acc c) j = Some (sumAt (add D) (zero D) F (pos + j));
  ao_wacc : forall j, 0 <= j < zlen (wacc c) ->
    getZ (wacc c) j = Some (sumAt (add D) (if pos + j =? 0 then one D else zero D) G (pos + j));
  ao_end : Forall (fun '(o, f) => 0 <= o <= pos /\ o + zlen f <= pos + fill c) F;
  ao_wend : Forall (fun '(o, f) => 0 <= o <= pos /\ o + zlen f <= pos + fill c) G
}.

Lemma synthesise_acc P c p si reset d pos F G : sane P -> wf P c -> accOK c pos F G ->
  synthesise D P c p si reset = Some d ->
  let f := firstn_z (window P) (fst (modify D (spec c) (fltbuf c) p reset si)) in
  let w := firstn_z (window P) (shape D si) in
  accOK d pos (F ++ [(pos, f)]) (G ++ [(pos, w)]).
Proof.
  intros HP Hc HO E f w. unfold synthesise in E.
  pose proof (sane_modify _ _ HP (spec c) (fltbuf c) p reset si) as Hm.
  pose proof (sane_shape _ _ HP si) as Hsh. pose proof (wf_flt _ _ Hc) as Hflt.
  pose proof (sane_incr _ _ HP) as Hinc. pose proof (sane_window _ _ HP) as Hwin.
  subst f. destruct (modify D _ _ _ _ _) as [f s]. cbn [fst] in Hm |- *. set (W := window P) in *.
  destruct (v_zip (add D) (acc c) f W) as [a|] eqn:Ea; [|done]. change (Some a ≫= ?f) with (f a) in *. cbv beta in *.
  destruct (v_zip (add D) (wacc c) (shape D si) W) as [w'|] eqn:Ew; [|done]. change (Some w' ≫= ?f) with (f w') in *. cbv beta in *.
  injection E as <-. destruct HO. pose proof (wf_fill _ _ Hc).
  pose proof (v_zip_len _ _ _ _ _ Ea) as (La & La1 & La2). pose proof (v_zip_len _ _ _ _ _ Ew) as (Lw & Lw1 & Lw2).
  assert (Hgen : forall (init : A) H (g : list A) j, W <= zlen g -> 0 <= j ->
    sumAt (add D) init (H ++ [(pos, firstn_z W g)]) (pos + j) =
      if j <? W then match getZ g j with Some y => add D (sumAt (add D) init H (pos + j)) y | None => sumAt (add D) init H (pos + j) end
      else sumAt (add D) init H (pos + j)).
  { intros init H0 g j Hg Hj. rewrite sumAt_app. unfold sumAt at 1. cbn [foldl]. replace (pos + j - pos) with j by lia.
    destruct (Z.ltb_spec j W); [by rewrite getZ_firstn by lia|]. rewrite getZ_out; [done|]. rewrite zlen_firstn. lia. }
  constructor; cbn [acc wacc fill set_acc set_flt]; try done.
  - intros j Hj. rewrite (v_zip_get _ _ _ _ _ j _ Ea (ao_acc0 j ltac:(lia))). rewrite Hgen by lia.
    destruct (Z.ltb_spec j W); [|done]. destruct (getZ_is f j) as [y Hy]; [lia|]. by rewrite Hy.
  - intros j Hj. rewrite (v_zip_get _ _ _ _ _ j _ Ew (ao_wacc0 j ltac:(lia))). unfold w. rewrite Hgen by lia.
    destruct (Z.ltb_spec j W); [|done]. destruct (getZ_is (shape D si) j) as [y Hy]; [lia|]. by rewrite Hy.
  - apply Forall_app. split.
    + eapply Forall_impl; [exact ao_end0|]. intros [o g]. lia.
    + apply Forall_singleton. rewrite zlen_firstn. lia.
  - apply Forall_app. split.
    + eapply Forall_impl; [exact ao_wend0|]. intros [o g]. lia.
    + apply Forall_singleton. unfold w. rewrite zlen_firstn. lia.
Qed.

(** The samples at positions [pos .. pos+n-1]. *)
Definition olaFrom F G (pos n : Z) : list A :=
  (fun i => quot D (sumAt (add D) (zero D) F i) (sumAt (add D) (if i =? 0 then one D else zero D) G i)) <$> ((Z.add pos) <$> upTo n).
Lemma zlen_olaFrom F G pos n : 0 <= n -> zlen (olaFrom F G pos n) = n.
Proof. intros H. unfold olaFrom. by rewrite !zlen_fmap, zlen_upTo. Qed.
Lemma getZ_olaFrom F G pos n j : 0 <= j < n -> getZ (olaFrom F G pos n) j =
  Some (quot D (sumAt (add D) (zero D) F (pos + j)) (sumAt (add D) (if pos + j =? 0 then one D else zero D) G (pos + j))).
Proof. intros H. unfold olaFrom. by rewrite !getZ_fmap, getZ_upTo by done. Qed.

Lemma writeChunk_out P c si last d pos F G : sane P -> wf P c -> after P = false -> 0 <= si <= fill c -> si <= window P ->
  need P si <= outCap c - zlen (outbuf c) -> accOK c pos F G -> writeChunk D P c si last = Some d ->
  accOK d (pos + si) F G /\
  outbuf d = outbuf c ++ fst (emit P (outCount c) (olaFrom F G pos si) (theo P c)) /\
  outCount d = snd (emit P (outCount c) (olaFrom F G pos si) (theo P c)).
Proof.
  intros HP Hc Haf Hsi Hw Hroom HO E. unfold writeChunk in E. rewrite Haf in E.
  pose proof (wf_fill _ _ Hc) as Hfill. pose proof (wf_wacc _ _ Hc) as Hwl.
  destruct (v_zip (quot D) (acc c) (wacc c) si) as [a|] eqn:Ea; [|done]. change (Some a ≫= ?f) with (f a) in *. cbv beta in *.
  pose proof (v_zip_len _ _ _ _ _ Ea) as (La & _). destruct HO.
  assert (Ha : forall j, 0 <= j < zlen (acc c) -> getZ a j =
    if j <? si then Some (quot D (sumAt (add D) (zero D) F (pos + j)) (sumAt (add D) (if pos + j =? 0 then one D else zero D) G (pos + j)))
    else Some (sumAt (add D) (zero D) F (pos + j))).
  { intros j Hj. rewrite (v_zip_get _ _ _ _ _ j _ Ea (ao_acc0 j Hj)), (ao_wacc0 j ltac:(lia)). done. }
  assert (Eout : firstn_z si a = olaFrom F G pos si).
  { apply getZ_ext; [rewrite zlen_olaFrom, zlen_firstn by lia; lia|]. rewrite zlen_firstn. intros i Hi.
    rewrite getZ_firstn, getZ_olaFrom, Ha by lia. by rewrite (proj2 (Z.ltb_lt _ _)) by lia. }
  rewrite Eout in E.
  rewrite writeOutput_emit in E.
  2: { rewrite zlen_olaFrom by lia. pose proof (need_ge P si (sane_pitch _ _ HP) (sane_plain _ _ HP Haf)). lia. }
  destruct (v_shift D a (fill c) si) as [a'|] eqn:Es; [|done]. change (Some a' ≫= ?f) with (f a') in *. cbv beta in *.
  destruct (v_shift D (wacc c) (fill c) si) as [w'|] eqn:Ews; [|done]. change (Some w' ≫= ?f) with (f w') in *. cbv beta in *.
  destruct (v_shift_some D a (fill c) si ltac:(lia) ltac:(lia)) as (x & Ex & Lx). rewrite Es in Ex. injection Ex as <-.
  destruct (v_shift_some D (wacc c) (fill c) si ltac:(lia) ltac:(lia)) as (x & Ex & Lxw). rewrite Ews in Ex. injection Ex as <-.
  set (d0 := set_out _ _ _) in E.
  assert (Hgone : forall (init : A) H i, Forall (fun '(o, f) => 0 <= o <= pos /\ o + zlen f <= pos + fill c) H -> pos + fill c <= i ->
    sumAt (add D) init H i = init).
  { intros init H i Hall Hi. apply sumAt_outside. eapply Forall_impl; [exact Hall|]. intros [o f]. lia. }
  assert (HO : accOK (set_acc d0 a' w' (fill c - si)) (pos + si) F G).
  { constructor; cbn [acc wacc fill set_acc]; try lia.
    - intros j Hj. rewrite (v_shift_get _ _ _ _ j Es) by lia.
      destruct (Z.ltb_spec j (fill c - si)).
      + rewrite Ha by lia. rewrite (proj2 (Z.ltb_ge _ _)) by lia. do 2 f_equal. lia.
      + rewrite Hgone by (done || lia). destruct (Z.ltb_spec j (fill c)); [done|].
        rewrite Ha by lia. rewrite (proj2 (Z.ltb_ge _ _)) by lia. by rewrite Hgone by (done || lia).
    - intros j Hj. rewrite (v_shift_get _ _ _ _ j Ews) by lia.
      destruct (Z.ltb_spec j (fill c - si)).
      + rewrite ao_wacc0 by lia. replace (pos + (j + si)) with (pos + si + j) by lia. done.
      + destruct (Z.eq_dec si 0) as [->|Hne].
        { rewrite (proj2 (Z.ltb_ge _ _)) by lia. rewrite ao_wacc0 by lia. replace (pos + 0 + j) with (pos + j) by lia. done. }
        rewrite Hgone by (done || lia). rewrite (proj2 (Z.eqb_neq _ _)) by lia.
        destruct (Z.ltb_spec j (fill c)); [done|]. rewrite ao_wacc0 by lia. rewrite Hgone by (done || lia).
        by rewrite (proj2 (Z.eqb_neq _ _)) by lia.
    - eapply Forall_impl; [exact ao_end0|]. intros [o f]. lia.
    - eapply Forall_impl; [exact ao_wend0|]. intros [o f]. lia. }
  injection E as <-. destruct (Z.ltb_spec si (fill c)); [by split|].
  replace (fill c - si) with 0 in HO by lia. destruct (draining c); [|by split]. split; [|by split]. by destruct HO.
Qed.

(** ** What has been written, as part of the whole stream *)
Definition streamed P (str gone : list A) c : Prop :=
  outCount c = capped P (theo P c) (zlen str) /\ gone ++ outbuf c = firstn_z (outCount c - startSkip P) (skipn_z (startSkip P) str).

Lemma firstn_firstn_z {T} n m (l : list T) : n <= m -> firstn_z n (firstn_z m l) = firstn_z n l.
Proof. intros H. unfold firstn_z. rewrite take_take. f_equal. lia. Qed.
Lemma stream_emit P c d str gone out : 0 <= startSkip P -> inputSize d = inputSize c ->
  (0 < theo P c -> zlen out <= theo P c) ->
  outbuf d = outbuf c ++ fst (emit P (outCount c) out (theo P c)) ->
  outCount d = snd (emit P (outCount c) out (theo P c)) -> streamed P str gone c -> streamed P (str ++ out) gone d.
Proof.
  intros Hs Hsz Hth Eo Ec [H1 H2].
  assert (Et : theo P d = theo P c) by (unfold theo; by rewrite Hsz).
  unfold streamed. rewrite Et, Eo, app_assoc, H2, Ec. unfold emit, capped in *. rewrite zlen_app. clear Eo Ec.
  set (th := theo P c) in *. set (k := startSkip P) in *. set (oc := outCount c) in *. clearbody th k oc.
  pose proof (zlen_nonneg out). pose proof (zlen_nonneg str).
  assert (Hlim : 0 < th -> oc = Z.min (zlen str) (k + th)) by (intros; by rewrite (proj2 (Z.ltb_lt _ _)) in H1 by lia).
  assert (Hlim2 : th <= 0 -> oc = zlen str) by (intros; by rewrite (proj2 (Z.ltb_ge _ _)) in H1 by lia).
  assert (Hsub : forall m, oc = zlen str -> k <= oc -> 0 <= m <= zlen out ->
    firstn_z (oc - k) (skipn_z k str) ++ firstn_z m out = firstn_z (oc + m - k) (skipn_z k (str ++ out))).
  { intros m Hoc Hk Hm. rewrite skipn_z_app by lia. rewrite firstn_z_all by (rewrite zlen_skipn; lia).
    unfold firstn_z at 2. rewrite take_app_ge; [|unfold zlen, skipn_z in *; rewrite drop_length; lia].
    f_equal. unfold firstn_z. f_equal. unfold zlen, skipn_z in *. rewrite drop_length. lia. }
  destruct (Z.ltb_spec k oc).
  - cbn [fst snd]. destruct (Z.ltb_spec 0 th); cbn [andb].
    + specialize (Hlim ltac:(lia)). destruct (Z.leb_spec (oc - k) th); cbn [andb]; [|lia].
      destruct (Z.ltb_spec th (oc - k + zlen out)).
      * split; [lia|]. destruct (Z.le_gt_cases (zlen str) (k + th)).
        -- rewrite Hsub by lia. done.
        -- assert (oc = k + th) as -> by lia. replace (th - (k + th - k)) with 0 by lia.
           replace (firstn_z 0 out) with (@nil A) by done. rewrite app_nil_r, Z.add_0_r.
           rewrite skipn_z_app by lia. rewrite firstn_z_app by (rewrite zlen_skipn; lia). done.
      * split; [lia|]. destruct (Z.le_gt_cases (zlen str) (k + th)); [rewrite <- Hsub by lia; done|].
        assert (out = []) as -> by (apply zlen_0; lia). rewrite app_nil_r, (@zlen_nil A), Z.add_0_r.
        replace (firstn_z 0 (@nil A)) with (@nil A) by done. by rewrite app_nil_r.
    + specialize (Hlim2 ltac:(lia)). split; [lia|]. rewrite <- Hsub by lia. done.
  - assert (Hoc : oc = zlen str).
    { destruct (Z.ltb_spec 0 th); [specialize (Hlim ltac:(lia)); lia|by apply Hlim2]. }
    assert (En : firstn_z (oc - k) (skipn_z k str) = []).
    { apply zlen_0. rewrite zlen_firstn. lia. }
    rewrite En. cbn [app].
    destruct (Z.leb_spec (oc + zlen out) k); cbn [fst snd].
    + split; [destruct (Z.ltb_spec 0 th); lia|]. symmetry. apply zlen_0. rewrite zlen_firstn. lia.
    + split; [destruct (Z.ltb_spec 0 th); [specialize (Hth ltac:(lia)); lia|lia]|].
      rewrite firstn_z_all by (rewrite zlen_skipn, zlen_app; lia).
      unfold skipn_z at 2. rewrite drop_app_ge; [|unfold zlen in *; lia]. unfold skipn_z. f_equal. unfold zlen in *. lia.
Qed.
End Ola.
