(** Whole offline runs: how much comes out. *)
From stdpp Require Import prelude.
From Coq Require Import ZArith QArith Qround Lia Lqa.
From Verif Require Import Base.Arith Faster.Sizes Faster.Spec Faster.SizesProofs Faster.SizesProps.
From Verif Require Import Faster.Model Faster.Core Faster.Chunks Faster.Stream Faster.Count Faster.Runs Faster.RunsProofs Faster.Level.
From Verif Require Import Offline.Model Offline.Spec Offline.Study Offline.Profile Offline.Fresh.
From Verif Require Calculator.Model.
Local Open Scope Z_scope.

Section Length.
Context {A S R K KS : Type} (D : dsp A S R K) (X : outside A S R KS).
Notation chan := (channel A S R).
Notation engine := (engine A S R KS).
Implicit Types (e : engine) (c d : chan).
Notation win e := (Sizes.window (sz e)).
Notation incr e := (Sizes.increment (sz e)).
Context (Hons : forall k a, zlen (fst (fst (fst (onset X k a)))) = zlen a).

(** The members a study pass leaves alone. *)
Record static e0 e : Prop := Static {
  sc_opts : opts e = opts e0; sc_rate : rate e = rate e0; sc_nch : nch e = nch e0; sc_base : baseFft e = baseFft e0;
  sc_time : time e = time e0; sc_pitch : pitch e = pitch e0; sc_sz : sz e = sz e0; sc_incs : incs e = incs e0; sc_calc : calc e = calc e0
}.

(** During a study pass, [T] frames in. *)
Record studied e0 c0 e (T : Z) : Prop := Studied {
  sd_static : static e0 e; sd_mode : emode e = JustCreated \/ emode e = Studying;
  sd_T : 0 <= T; sd_sil : zlen (dfs e) = zlen (silence e);
  sd_chans : exists c, chans e = c :: replicate (pred (nch e0)) c0 /\ kept c0 c /\
    zlen (inbuf c) < win e0 /\ zlen (inbuf c) = win e0 / 2 + T - zlen (dfs e) * incr e0 /\
    (0 < zlen (dfs e) -> win e0 / 2 - incr e0 <= zlen (inbuf c))
}.
Lemma fresh_studied e c : fresh D e c -> studied e c e 0.
Proof.
  intros HF. pose proof (fresh_fitting D e c HF) as []. destruct HF. constructor; try done.
  - by left.
  - by rewrite fr_dfs, fr_sil.
  - exists c. rewrite fr_chans, fr_dfs. destruct (nch e) eqn:En; [lia|]. split; [done|]. split; [apply kept_refl|].
    rewrite (st_in _ _ _ fr_start), zlen_replicate. cbn [paramsOf window]. rewrite (@zlen_nil Q).
    assert (win e / 2 < win e) by (apply Z.div_lt; lia). assert (0 <= win e / 2) by (apply Z.div_pos; lia). lia.
Qed.

Lemma columns_len n : forall bs : list (list A), zlen (columns n bs) = Z.of_nat n.
Proof. induction n as [|n IH]; intros bs; [done|]. cbn [columns]. rewrite zlen_cons, IH. lia. Qed.
Lemma mixdown_len e bs b final : (1 <= nch e)%nat -> block (nch e) b bs -> zlen (mixdown X e bs final) = b.
Proof.
  intros Hn [Hl Hall]. destruct bs as [|x bs]; [cbn in Hl; lia|]. apply Forall_cons in Hall as [Hx _].
  unfold mixdown. cbn [head default]. change (default [] (Some x)) with x. destruct (_ || _); [|done].
  unfold zlen at 1. rewrite fmap_length. change (zlen (columns (length x) (x :: bs)) = b). rewrite columns_len. exact Hx.
Qed.

Lemma study_more e0 c0 e T b bs : fresh D e0 c0 -> studied e0 c0 e T -> block (nch e0) b bs ->
  exists e', study X e bs false = Some e' /\ studied e0 c0 e' (T + b).
Proof using Hons.
  intros HF HS Hb. pose proof (fresh_fitting D e0 c0 HF) as HT. pose proof HS as [Hst Hm HT0 Hsil (c & Hch & Hk & Hlt & Hlen & Hge)].
  pose proof HT as []. pose proof (fr_shaped _ _ _ HF) as Hsh. pose proof (shaped_kept _ _ _ Hk Hsh) as [].
  assert (Hmix : zlen (mixdown X (with_mode e Studying) bs false) = b).
  { apply mixdown_len; cbn; rewrite (sc_nch _ _ Hst); [apply HF|done]. }
  assert (Hb0 : 0 <= b) by (rewrite <- Hmix; apply zlen_nonneg).
  unfold study. destruct Hst.
  assert (G : exists e', match chans (with_mode e Studying) with
      | [] => Some (with_mode e Studying)
      | c :: cs =>
        let m := mixdown X (with_mode e Studying) bs false in
        x ← studyLoop X (Datatypes.S (Z.to_nat (zlen m))) (with_mode e Studying) c m false (dfs e) (silence e) (inDuration e) (curves e);
        let '(c, df, sil, dur, k) := x in Some (with_study (with_mode e Studying) df sil dur k (c :: cs))
      end = Some e' /\ studied e0 c0 e' (T + b)).
  { change (chans (with_mode e Studying)) with (chans e). rewrite Hch. cbv zeta.
    destruct (loop_more X (with_mode e Studying)) with (f := Datatypes.S (Z.to_nat (zlen (mixdown X (with_mode e Studying) bs false))))
      (c := c) (m := mixdown X (with_mode e Studying) bs false) (df := dfs e) (sil := silence e) (dur := inDuration e) (k := curves e)
      as (d & df' & sil' & dur' & k' & n & E & Hk' & Hn & Hdf & Hsl & Hl & Hl2 & Hg & _); cbn [with_mode sz]; rewrite ?sc_sz0; try done; try lia.
    rewrite E. change (Some ?x ≫= ?f) with (f x). cbv beta iota. eexists. split; [reflexivity|]. cbn [with_mode sz] in *. rewrite ?sc_sz0 in *.
    constructor.
    - by constructor.
    - by right.
    - lia.
    - cbn. lia.
    - exists d. split; [done|]. split; [by eapply kept_trans|]. cbn [with_study dfs]. rewrite Hmix in Hl. split; [done|]. split; [lia|].
      intros _. assert (win e0 / 2 <= win e0) by (apply Z.div_le_upper_bound; lia).
      destruct (Z.eq_dec n 0) as [->|]; [|specialize (Hg ltac:(lia)); lia].
      destruct (Z.eq_dec (zlen (dfs e)) 0) as [E0|]; [rewrite E0 in *; lia|].
      specialize (Hge ltac:(pose proof (zlen_nonneg (dfs e)); lia)). lia. }
  destruct Hm as [-> | ->]; exact G.
Qed.
Lemma studies_ok e0 c0 T' l : fresh D e0 c0 -> studies (nch e0) T' l -> forall e T, studied e0 c0 e T ->
  exists e', steps D X e l = Some (replicate (length l) Done, e') /\ studied e0 c0 e' (T + T').
Proof using Hons.
  intros HF Hl. induction Hl as [|b bs len l Hb Hl IH]; intros e T HS.
  - exists e. rewrite Z.add_0_r. done.
  - destruct (study_more e0 c0 e T b bs HF HS Hb) as (e1 & E1 & HS1). destruct (IH e1 _ HS1) as (e2 & E2 & HS2).
    exists e2. cbn [steps step]. unfold quietly. rewrite E1. change (Some ?x ≫= ?f) with (f x). cbv beta iota.
    change (Some ?x ≫= ?f) with (f x). cbv beta iota. rewrite E2. change (Some ?x ≫= ?f) with (f x). cbv beta iota.
    split; [done|]. by rewrite Z.add_assoc.
Qed.

(** After it. *)
Record profiled e0 c0 e (N : Z) : Prop := Profiled {
  pf_static : static e0 e; pf_mode : emode e = Studying; pf_dfs : zlen (dfs e) = N / incr e0 + 1;
  pf_chans : exists c, chans e = c :: replicate (pred (nch e0)) c0 /\ kept c0 c
}.
Lemma study_last e0 c0 e T b bs : fresh D e0 c0 -> studied e0 c0 e T -> block (nch e0) b bs -> 0 < b ->
  exists e', study X e bs true = Some e' /\ profiled e0 c0 e' (T + b).
Proof using Hons.
  intros HF HS Hb Hb0. pose proof (fresh_fitting D e0 c0 HF) as HT. pose proof HS as [Hst Hm HT0 Hsil (c & Hch & Hk & Hlt & Hlen & Hge)].
  pose proof HT as []. pose proof (fr_shaped _ _ _ HF) as Hsh. pose proof (shaped_kept _ _ _ Hk Hsh) as [].
  assert (Hmix : zlen (mixdown X (with_mode e Studying) bs true) = b).
  { apply mixdown_len; cbn; rewrite (sc_nch _ _ Hst); [apply HF|done]. }
  unfold study. destruct Hst.
  assert (G : exists e', match chans (with_mode e Studying) with
      | [] => Some (with_mode e Studying)
      | c :: cs =>
        let m := mixdown X (with_mode e Studying) bs true in
        x ← studyLoop X (Datatypes.S (Z.to_nat (zlen m))) (with_mode e Studying) c m true (dfs e) (silence e) (inDuration e) (curves e);
        let '(c, df, sil, dur, k) := x in
        let dur := let dur := dur + zlen (inbuf c) in
                   if win (with_mode e Studying) / 2 <? dur then dur - win (with_mode e Studying) / 2 else dur in
        Some (with_study (with_mode e Studying) df sil dur k (c :: cs))
      end = Some e' /\ profiled e0 c0 e' (T + b)).
  { change (chans (with_mode e Studying)) with (chans e). rewrite Hch. cbv zeta.
    destruct (loop_final X (with_mode e Studying)) with (T := T) (f := Datatypes.S (Z.to_nat (zlen (mixdown X (with_mode e Studying) bs true))))
      (c := c) (m := mixdown X (with_mode e Studying) bs true) (df := dfs e) (sil := silence e) (dur := inDuration e) (k := curves e)
      as (d & df' & sil' & dur' & k' & E & Hk' & Hdf & Hsl); cbn [with_mode sz]; rewrite ?sc_sz0; try done; try lia.
    { intros En. rewrite En, (@zlen_nil A) in Hmix. lia. }
    rewrite E. change (Some ?x ≫= ?f) with (f x). cbv beta iota. eexists. split; [reflexivity|]. cbn [with_mode sz] in *. rewrite ?sc_sz0, ?Hmix in *.
    constructor.
    - by constructor.
    - done.
    - done.
    - exists d. split; [done|]. by eapply kept_trans. }
  destruct Hm as [-> | ->]; exact G.
Qed.

(** ** Processing *)
(** Processing has begun with parameters [P]; the first channel is [c], the others are level with it. *)
Definition ever (_ _ : R) : Prop := True.
Record running P e (n : nat) c : Prop := Running {
  ru_mode : emode e = Processing; ru_params : paramsOf e = P; ru_nch : nch e = n;
  ru_chans : exists cs, chans e = c :: cs /\ length cs = pred n /\ Forall (lev ever c) cs
}.
Context (P : params) (HP : sane D P) (Ha : after P = false) (Hb : before P = false).

Lemma no_resampling : after P = true \/ before P = true -> forall r r' x x' n q f, ever r r' -> zlen x = zlen x' ->
  zlen (fst (resample D r x n q f)) = zlen (fst (resample D r' x' n q f)) /\
  ever (snd (resample D r x n q f)) (snd (resample D r' x' n q f)).
Proof using Ha Hb. intros [?|?]; congruence. Qed.
Lemma process_ms c x ms final : process D P c x ms final = process D P c x false final.
Proof using Hb.
  unfold process. generalize (Datatypes.S (Z.to_nat (zlen x))) as f. intros f. revert c x. induction f as [|f IH]; intros c x; [done|].
  cbn [feed]. unfold consumeChannel. rewrite Hb. cbv zeta.
  match goal with |- ?a ≫= _ = ?a ≫= _ => destruct a as [c'|]; [|done] end.
  change (Some ?x ≫= ?f) with (f x). cbv beta. destruct (_ =? _); [done|apply IH].
Qed.

Lemma processAll_ok ms final c cs b bs c' : Forall (lev ever c) cs -> Forall (fun x => zlen x = zlen b) bs -> length bs = length cs ->
  process D P c b false final = Some c' ->
  exists cs', processAll D P ms (c :: cs) (b :: bs) final = Some (c' :: cs') /\ length cs' = length cs /\ Forall (lev ever c') cs'.
Proof using HP Ha Hb.
  intros Hc Hbs Hl E. cbn [processAll]. rewrite process_ms, E. change (Some ?x ≫= ?f) with (f x). cbv beta.
  assert (G : exists cs', processAll D P ms cs bs final = Some cs' /\ length cs' = length cs /\ Forall (lev ever c') cs').
  { clear -Hc Hbs Hl E HP Ha Hb. revert bs Hbs Hl. induction Hc as [|d cs Hd Hc IH]; intros [|x bs] Hbs Hl; try done.
    - by exists [].
    - apply Forall_cons in Hbs as [Hx Hbs]. cbn [processAll]. rewrite process_ms.
      pose proof (lev_process D P ever no_resampling c d b x false final HP Hd (eq_sym Hx)) as Hr. rewrite E in Hr.
      destruct (process D P d x false final) as [d'|]; [|done]. cbn in Hr. change (Some ?x ≫= ?f) with (f x). cbv beta.
      destruct (IH bs Hbs) as (cs' & E' & Hl' & Hc'); [cbn in Hl; lia|]. rewrite E'. change (Some ?x ≫= ?f) with (f x). cbv beta.
      exists (d' :: cs'). split; [done|]. split; [cbn; lia|]. by constructor. }
  destruct G as (cs' & E' & Hl' & Hc'). rewrite E'. change (Some ?x ≫= ?f) with (f x). cbv beta. by exists cs'.
Qed.
Lemma prepared_block e n len bs : block n len bs -> block n len (prepared D e bs).
Proof using Type. clear HP Ha Hb.
  intros [Hl Hall]. unfold prepared. destruct bs as [|l [|r bs]]; try done. destruct (usesMidSide e); [|done].
  apply Forall_cons in Hall as [H1 Hall]. apply Forall_cons in Hall as [H2 Hall]. split; [done|].
  assert (Hz : forall m, zlen (prepareMS D m l r) = len).
  { intros m. unfold prepareMS, zlen. rewrite zip_with_length. unfold zlen in *. lia. }
  constructor; [apply Hz|]. constructor; [apply Hz|done].
Qed.
Lemma process_running e n c len bs final : running P e n c -> (1 <= n)%nat -> block n len bs ->
  forall c', (exists b, zlen b = len /\ head (prepared D e bs) = Some b /\ process D P c b false final = Some c') ->
  exists e', processBlock D X e bs final = Some e' /\
    (final = false -> running P e' n c') /\ exists cs', chans e' = c' :: cs' /\ length cs' = pred n /\ Forall (lev ever c') cs' /\ opts e' = opts e /\ nch e' = nch e.
Proof using HP Ha Hb.
  intros [Hm Hpar Hnc (cs & Hch & Hlcs & Hlev)] Hn Hbl c' (b & Hlb & Hhd & E).
  pose proof (prepared_block e n len bs Hbl) as [Hpl Hpa].
  destruct (prepared D e bs) as [|b0 bs'] eqn:Ep; [done|]. injection Hhd as ->. apply Forall_cons in Hpa as [_ Hpa].
  unfold processBlock. rewrite Hm. change (Some ?x ≫= ?f) with (f x). cbv beta zeta.
  change (paramsOf (with_mode e Processing)) with (paramsOf e). change (chans (with_mode e Processing)) with (chans e).
  change (usesMidSide (with_mode e Processing)) with (usesMidSide e). change (prepared D (with_mode e Processing) bs) with (prepared D e bs).
  rewrite Hpar, Hch, Ep.
  destruct (processAll_ok (usesMidSide e) final c cs b bs' c' Hlev) as (cs' & E' & Hl' & Hc').
  { eapply Forall_impl; [exact Hpa|]. cbv beta. intros x Hx. congruence. }
  { cbn in Hpl. lia. }
  { done. }
  rewrite E'. change (Some ?x ≫= ?f) with (f x). cbv beta. eexists. split; [reflexivity|]. split.
  - intros ->. constructor; try done. exists cs'. split; [done|]. split; [lia|done].
  - exists cs'. split; [done|]. split; [lia|]. done.
Qed.

Lemma takeOut_level : forall cs c n, Forall (lev ever c) cs -> 0 <= n ->
  exists xs, takeOut (c :: cs) n =
    (firstn_z n (outbuf c) :: xs, zlen (firstn_z n (outbuf c)),
     set_out c (skipn_z n (outbuf c)) (outCount c) :: ((fun d => set_out d (skipn_z n (outbuf d)) (outCount d)) <$> cs)) /\
    length xs = length cs /\ Forall (fun x => zlen x = zlen (firstn_z n (outbuf c))) xs.
Proof using Type. clear HP Ha Hb.
  assert (G : forall cs c n k, Forall (lev ever c) cs -> 0 <= n -> k = zlen (firstn_z n (outbuf c)) ->
    exists xs, takeOut cs k = (xs, k, (fun d => set_out d (skipn_z n (outbuf d)) (outCount d)) <$> cs) /\
      length xs = length cs /\ Forall (fun x => zlen x = k) xs).
  { intros cs c n k Hc Hn Hk. induction Hc as [|d cs Hd Hc IH]; [by exists []|].
    cbn [takeOut]. destruct IH as (xs & E & Hl & Hx).
    assert (Ed : zlen (firstn_z k (outbuf d)) = k).
    { rewrite zlen_firstn in Hk |- *. rewrite <- (lv_out _ _ _ Hd). pose proof (zlen_nonneg (outbuf c)). lia. }
    rewrite Ed, E. exists (firstn_z k (outbuf d) :: xs). split.
    - rewrite fmap_cons. f_equal. f_equal. f_equal.
      assert (Es : skipn_z k (outbuf d) = skipn_z n (outbuf d)); [|by rewrite Es].
      rewrite zlen_firstn in Hk. pose proof (zlen_nonneg (outbuf c)). pose proof (lv_out _ _ _ Hd) as Ho.
      destruct (Z.le_gt_cases n (zlen (outbuf c))); [f_equal; lia|].
      unfold skipn_z. rewrite !drop_ge; [done|unfold zlen in *; lia|unfold zlen in *; lia].
    - split; [cbn; lia|]. by constructor. }
  intros cs c n Hc Hn. cbn [takeOut]. destruct (G cs c n _ Hc Hn eq_refl) as (xs & E & Hl & Hx). rewrite E.
  exists xs. done.
Qed.
Lemma decoded_block e n len xs : block n len xs -> block n len (decoded D e xs).
Proof using Type. clear HP Ha Hb.
  intros [Hl Hall]. unfold decoded. destruct xs as [|m [|s xs]]; try done. destruct (usesMidSide e); [|done].
  apply Forall_cons in Hall as [H1 Hall]. apply Forall_cons in Hall as [H2 Hall]. split; [done|].
  assert (Hz : forall f : A -> A -> A, zlen (zip_with f m s) = len).
  { intros f. unfold zlen. rewrite zip_with_length. unfold zlen in *. lia. }
  constructor; [apply Hz|]. constructor; [apply Hz|done].
Qed.
Lemma firstn_neg {T} n (l : list T) : n <= 0 -> firstn_z n l = [].
Proof using Type. clear HP Ha Hb. intros H. unfold firstn_z. by replace (Z.to_nat n) with 0%nat by lia. Qed.
Lemma skipn_neg {T} n (l : list T) : n <= 0 -> skipn_z n l = l.
Proof using Type. clear HP Ha Hb. intros H. unfold skipn_z. by replace (Z.to_nat n) with 0%nat by lia. Qed.
Lemma retrieve_level e c cs n k : chans e = c :: cs -> length cs = pred n -> (1 <= n)%nat -> Forall (lev ever c) cs -> 0 <= k ->
  exists xs e', retrieve D e k = (xs, e') /\ block n (zlen (firstn_z k (outbuf c))) xs /\
    e' = with_chans e (set_out c (skipn_z k (outbuf c)) (outCount c) :: ((fun d => set_out d (skipn_z k (outbuf d)) (outCount d)) <$> cs)).
Proof using Type. clear HP Ha Hb.
  intros Hch Hl Hn Hlev Hk. unfold retrieve. rewrite Hch. destruct (takeOut_level cs c k Hlev Hk) as (xs & E & Hlx & Hx). rewrite E.
  eexists _, _. split; [reflexivity|]. split; [|done]. apply decoded_block. split; [rewrite fmap_length; cbn; lia|].
  rewrite Forall_fmap. pose proof (zlen_nonneg (firstn_z k (outbuf c))).
  assert (Hz : forall x : list A, zlen x = zlen (firstn_z k (outbuf c)) -> zlen (firstn_z (zlen (firstn_z k (outbuf c))) x) = zlen (firstn_z k (outbuf c))).
  { intros x Ex. rewrite zlen_firstn. lia. }
  constructor; [by apply Hz|]. eapply Forall_impl; [exact Hx|]. intros x. apply Hz.
Qed.

Lemma available_quiet e c cs : chans e = c :: cs -> inputSize c = None -> exists k, available D e = Some (k, with_chans e (chans e)).
Proof using Type. clear HP Ha Hb. intros Hch Hs. unfold available. rewrite Hch, Hs. change (Some ?x ≫= ?f) with (f x). cbv beta. eauto. Qed.

(** Looking and fetching while processing. *)
Lemma step_fetch e n c a : running P e n c -> (1 <= n)%nat -> inputSize c = None -> fetch a ->
  exists r e' k, step D X e a = Some (r, e') /\ running P e' n (set_out c (skipn_z k (outbuf c)) (outCount c)) /\
    framesOf r = zlen (firstn_z k (outbuf c)) /\ levelAnswer n r.
Proof using HP Ha Hb.
  intros [Hm Hpar Hnc (cs & Hch & Hlcs & Hlev)] Hn Hs [k Hk|].
  - destruct (retrieve_level e c cs n k Hch Hlcs Hn Hlev Hk) as (xs & e' & E & Hbl & ->). cbn [step]. rewrite E.
    eexists _, _, k. split; [reflexivity|]. split; [|split].
    + constructor; try done. eexists. split; [done|]. split; [by rewrite fmap_length|]. rewrite Forall_fmap.
      eapply Forall_impl; [exact Hlev|]. intros d Hd. by apply lev_take.
    + destruct Hbl as [Hl Hall]. destruct xs as [|x xs]; [cbn in Hl; lia|]. apply Forall_cons in Hall as [Hx _]. exact Hx.
    + by eexists.
  - destruct (available_quiet e c cs Hch Hs) as (q & E). cbn [step]. rewrite E. change (Some ?x ≫= ?f) with (f x). cbv beta iota.
    eexists _, _, 0. split; [reflexivity|]. split; [|split; [done|done]].
    rewrite skipn_neg by lia. assert (Ec : set_out c (outbuf c) (outCount c) = c) by (by destruct c). rewrite Ec.
    constructor; try done. by exists cs.
Qed.

Lemma allFrames_cons (r : answer (A := A)) rs : allFrames (r :: rs) = framesOf r + allFrames rs.
Proof using Type. clear HP Ha Hb. unfold allFrames. rewrite fmap_cons. unfold sumZ. reflexivity. Qed.
Lemma head_len e n len bs : (1 <= n)%nat -> block n len bs -> exists b, head (prepared D e bs) = Some b /\ zlen b = len.
Proof using Type. clear HP Ha Hb.
  intros Hn Hbl. destruct (prepared_block e n len bs Hbl) as [Hl Hall]. destruct (prepared D e bs) as [|b bs']; [cbn in Hl; lia|].
  exists b. split; [done|]. by apply Forall_cons in Hall as [? _].
Qed.
(** The first channel's share of a run is a run of its own. *)
Lemma streams_ok n len l : (1 <= n)%nat -> streams n len l -> forall e c, running P e n c -> ready P c ->
  exists rs e' c' cl out, steps D X e l = Some (rs, e') /\ running P e' n c' /\ calls D P c cl = Some (out, c') /\
    zlen (inputs cl) = len /\ zlen out = allFrames rs /\ Forall (levelAnswer n) rs.
Proof using HP Ha Hb.
  intros Hn Hl. induction Hl as [|b bs len l Hbl Hl IH|a len l Hf Hl IH]; intros e c Hru Hrd.
  - exists [], e, c, [], []. split; [done|]. split; [done|]. split; [done|]. split; [done|]. split; [done|constructor].
  - destruct (head_len e n b bs Hn Hbl) as (x & Hx & Hxl).
    destruct (feed_ok D P false HP Hb (Datatypes.S (Z.to_nat (zlen x))) c x Hrd ltac:(lia)) as (d & E & Hrd' & _).
    destruct (process_running e n c b bs false Hru Hn Hbl d) as (e1 & E1 & Hru1 & _); [by exists x|].
    destruct (IH e1 d (Hru1 eq_refl) Hrd') as (rs & e2 & c2 & cl & out & E2 & Hru2 & Ec & Hin & Hout & Hlev).
    exists (Done :: rs), e2, c2, (Runs.Process x :: cl), out. split.
    { cbn [steps step]. unfold quietly. rewrite E1. change (Some ?x ≫= ?f) with (f x). cbv beta iota.
      change (Some ?x ≫= ?f) with (f x). cbv beta iota. rewrite E2. done. }
    split; [done|]. split. { cbn [calls]. unfold process. rewrite E. exact Ec. }
    split; [cbn [inputs]; rewrite zlen_app; lia|]. split; [rewrite allFrames_cons; cbn [framesOf]; lia|]. by constructor.
  - destruct (step_fetch e n c a Hru Hn (rdy_size _ _ Hrd) Hf) as (r & e1 & k & E1 & Hru1 & Hfr & Hla).
    destruct (IH e1 _ Hru1 (ready_take P c k Hrd)) as (rs & e2 & c2 & cl & out & E2 & Hru2 & Ec & Hin & Hout & Hlev).
    exists (r :: rs), e2, c2, (Runs.Retrieve k :: cl), (firstn_z k (outbuf c) ++ out). split.
    { cbn [steps]. rewrite E1. change (Some ?x ≫= ?f) with (f x). cbv beta iota. rewrite E2. done. }
    split; [done|]. split. { cbn [calls]. rewrite Ec. done. }
    split; [done|]. split; [rewrite allFrames_cons, zlen_app; lia|]. by constructor.
Qed.

(** ** After the end *)
Lemma idle_piece c p si r l d : draining c = true -> fill c = 0 -> processChunkForChannel D P c p si r = Some (l, d) -> l = true /\ d = c.
Proof using Type. clear HP Ha Hb. intros Hd Hf E. unfold processChunkForChannel, drainShift in E. rewrite Hd in E. change (Some ?x ≫= ?f) with (f x) in E. cbv beta in E. rewrite Hd, Hf in E. cbn in E. by injection E as <- <-. Qed.
Lemma idle_pieces p si bit : forall f c flt i r l l' d, draining c = true -> fill c = 0 -> pieces D f P c flt p si i bit r l = Some (l', d) ->
  outbuf d = outbuf c /\ draining d = true /\ fill d = 0 /\ outputComplete d = outputComplete c.
Proof using Type. clear HP Ha Hb.
  induction f as [|f IH]; intros c flt i r l l' d Hd Hf E; [done|]. cbn [pieces] in E. destruct (i <? si); [|by injection E as <- <-].
  cbv zeta in E. destruct (processChunkForChannel D P (set_flt c flt (spec c)) _ _ r) as [[b c1]|] eqn:E1; [|done].
  change (Some ?x ≫= ?f) with (f x) in E. cbv beta iota in E. apply idle_piece in E1 as [-> ->]; [|done|done].
  apply IH in E; [|done|done]. exact E.
Qed.
Lemma idle_chunk c l d : draining c = true -> fill c = 0 -> processChunk D P c = Some (l, d) ->
  outbuf d = outbuf c /\ draining d = true /\ fill d = 0 /\ outputComplete d = outputComplete c.
Proof using Type. clear HP Ha Hb.
  intros Hd Hf E. unfold processChunk in E. rewrite Hd in E. change (Some c ≫= ?f) with (f c) in E. cbv beta in E.
  unfold getIncrements in E.
  assert (G : forall k p si r flt s, (y ← (if si <=? window P then processChunkForChannel D P (set_flt (set_chunk c k) flt s) p si r
     else pieces D (Datatypes.S (Z.to_nat si)) P (set_flt (set_chunk c k) flt s) flt p si 0 (window P / 4) r false);
     let '(last, c) := (y : bool * chan) in Some (last, set_chunk c (chunkCount c + 1))) = Some (l, d) ->
     outbuf d = outbuf c /\ draining d = true /\ fill d = 0 /\ outputComplete d = outputComplete c).
  { intros k p si r flt s E'.
    match type of E' with (?x ≫= _) = _ => destruct x as [[b c1]|] eqn:E1; [|done] end.
    change (Some ?x ≫= ?f) with (f x) in E'. cbv beta iota in E'. injection E' as <- <-.
    destruct (si <=? window P).
    - apply idle_piece in E1 as [-> ->]; done.
    - apply idle_pieces in E1; done. }
  destruct (_ && _).
  - change (Some ?x ≫= ?f) with (f x) in E. cbv beta iota in E. destruct (analyse D _ _) as [flt s].
    apply (G (chunkCount c) (increment P) (increment P) false flt s).
    assert (Ec : set_chunk c (chunkCount c) = c) by (by destruct c). rewrite Ec. exact E.
  - cbv zeta in E. match type of E with ((?x ≫= _) ≫= _) = _ => destruct x as [p|]; [|discriminate] end. change (Some ?x ≫= ?f) with (f x) in E. cbv beta iota in E.
    change (Some ?x ≫= ?f) with (f x) in E. cbv beta iota in E. destruct (analyse D _ _) as [flt s]. by apply G in E.
Qed.
Lemma idle_chunks : forall f c d, draining c = true -> fill c = 0 -> processChunks D f P c = Some d ->
  outbuf d = outbuf c /\ draining d = true /\ fill d = 0 /\ outputComplete d = outputComplete c.
Proof using Type. clear HP Ha Hb.
  induction f as [|f IH]; intros c d Hd Hf E; [done|]. cbn [processChunks] in E.
  assert (Et : testInbufReadSpace P c = (true, c)) by (unfold testInbufReadSpace; rewrite Hd, andb_false_r; done). rewrite Et in E.
  destruct (processChunk D P c) as [[l c1]|] eqn:E1; [|done]. change (Some ?x ≫= ?f) with (f x) in E. cbv beta iota in E.
  apply idle_chunk in E1 as (H1 & H2 & H3 & H4); [|done|done]. destruct l; [injection E as <-; done|].
  apply IH in E as (G1 & G2 & G3 & G4); [|done|done]. split; [congruence|]. split; [done|]. split; [done|congruence].
Qed.

Lemma inv_taken c k : inv P c -> inv P (set_out c (skipn_z k (outbuf c)) (outCount c)).
Proof.
  intros [[] [Hk Hk2] ? ?]. constructor; [by constructor| |done|done]. split; cbn; [|done]. rewrite zlen_skipn. pose proof (zlen_nonneg (outbuf c)). lia.
Qed.
(** Everything has been written: only fetching is left to do. *)
Record ended e n c : Prop := Ended {
  en_params : paramsOf e = P; en_chans : exists cs, chans e = c :: cs /\ length cs = pred n /\ Forall (lev ever c) cs;
  en_inv : inv P c; en_drain : draining c = true; en_fill : fill c = 0
}.
Lemma catchUp_level cs c c' : Forall (lev ever c) cs ->
  (if 0 <? zlen (inbuf c) then processChunks D (enough P c) P c else Some c) = Some c' ->
  exists cs', catchUp D P cs = Some cs' /\ length cs' = length cs /\ Forall (lev ever c') cs'.
Proof using HP Ha Hb.
  intros Hc E. induction Hc as [|d cs Hd Hc IH]; [by exists []|]. cbn [catchUp]. destruct IH as (cs' & E' & Hl & Hc').
  rewrite <- (lv_in _ _ _ Hd), <- (lev_enough P ever c d Hd).
  assert (G : exists d', (if 0 <? zlen (inbuf c) then processChunks D (enough P c) P d else Some d) = Some d' /\ lev ever c' d').
  { destruct (0 <? zlen (inbuf c)); [|injection E as <-; by exists d].
    pose proof (lev_chunks D P ever no_resampling HP (enough P c) c d Hd) as Hr. rewrite E in Hr.
    destruct (processChunks D (enough P c) P d) as [d'|]; [|done]. by exists d'. }
  destruct G as (d' & -> & Hd'). change (Some ?x ≫= ?f) with (f x). cbv beta. rewrite E'. change (Some ?x ≫= ?f) with (f x). cbv beta.
  exists (d' :: cs'). split; [done|]. split; [cbn; lia|]. by constructor.
Qed.
Lemma ended_fetch e n c a : ended e n c -> (1 <= n)%nat -> fetch a ->
  exists r e' c', step D X e a = Some (r, e') /\ ended e' n c' /\ framesOf r = Z.min (askedOf a) (zlen (outbuf c)) /\
    zlen (outbuf c') = zlen (outbuf c) - framesOf r /\ levelAnswer n r.
Proof using HP Ha Hb.
  intros [Hpar (cs & Hch & Hlcs & Hlev) Hinv Hd Hf] Hn [k Hk|].
  - destruct (retrieve_level e c cs n k Hch Hlcs Hn Hlev Hk) as (xs & e' & E & Hbl & ->). cbn [step]. rewrite E.
    eexists _, _, (set_out c (skipn_z k (outbuf c)) (outCount c)). split; [reflexivity|].
    assert (Hfr : framesOf (Audio xs) = zlen (firstn_z k (outbuf c))).
    { destruct Hbl as [Hl Hall]. destruct xs as [|x xs]; [cbn in Hl; lia|]. apply Forall_cons in Hall as [Hx _]. exact Hx. }
    rewrite zlen_firstn in Hfr. cbn [askedOf]. pose proof (zlen_nonneg (outbuf c)). split; [|split; [lia|split]].
    + constructor; try done.
      * eexists. split; [done|]. split; [by rewrite fmap_length|]. rewrite Forall_fmap.
        eapply Forall_impl; [exact Hlev|]. intros d Hd'. by apply lev_take.
      * by apply inv_taken.
    + cbn [outbuf set_out]. rewrite zlen_skipn. lia.
    + by eexists.
  - cbn [step askedOf framesOf]. unfold available. rewrite Hch.
    assert (Hz : 0 = Z.min 0 (zlen (outbuf c))) by (pose proof (zlen_nonneg (outbuf c)); lia).
    destruct (inputSize c).
    + rewrite <- Hch. rewrite Hpar, Hch. cbn [catchUp].
      assert (G : exists c', (if 0 <? zlen (inbuf c) then processChunks D (enough P c) P c else Some c) = Some c' /\ inv P c' /\
        outbuf c' = outbuf c /\ draining c' = true /\ fill c' = 0).
      { destruct (0 <? zlen (inbuf c)); [|by exists c].
        destruct (processChunks_ok D P HP (enough P c) c Hinv (enough_rounds _ _ Hinv)) as (d & E & Hi & _).
        destruct (idle_chunks _ c d Hd Hf E) as (? & ? & ? & _). by exists d. }
      destruct G as (c' & E & Hi & Ho & Hd' & Hf'). destruct (catchUp_level cs c c' Hlev E) as (cs' & E' & Hl' & Hc').
      rewrite E. change (Some ?x ≫= ?f) with (f x). cbv beta. rewrite E'. change (Some ?x ≫= ?f) with (f x). cbv beta.
      change (Some ?x ≫= ?f) with (f x). cbv beta. change (Some ?x ≫= ?f) with (f x). cbv beta iota.
      eexists _, _, c'. split; [reflexivity|]. split.
      * constructor; try done. exists cs'. split; [done|]. split; [lia|done].
      * split; [done|]. split; [rewrite Ho; cbn [framesOf]; lia|done].
    + change (Some ?x ≫= ?f) with (f x). cbv beta. change (Some ?x ≫= ?f) with (f x). cbv beta iota.
      eexists _, _, c. split; [reflexivity|]. split; [|split; [done|]].
      * constructor; try done. by exists cs.
      * split; [cbn [framesOf]; lia|done].
Qed.
Lemma ended_fetches n l : (1 <= n)%nat -> Forall fetch l -> forall e c, ended e n c ->
  exists rs e' c', steps D X e l = Some (rs, e') /\ ended e' n c' /\ allFrames rs = Z.min (asked l) (zlen (outbuf c)) /\ Forall (levelAnswer n) rs.
Proof using HP Ha Hb.
  intros Hn Hl. induction Hl as [|a l Hf Hl IH]; intros e c He.
  - exists [], e, c. split; [done|]. split; [done|]. split; [|constructor]. pose proof (zlen_nonneg (outbuf c)). change (0 = Z.min 0 (zlen (outbuf c))). lia.
  - destruct (ended_fetch e n c a He Hn Hf) as (r & e1 & c1 & E1 & He1 & Hfr & Hlo & Hla).
    destruct (IH e1 c1 He1) as (rs & e2 & c2 & E2 & He2 & Hfr2 & Hlv). exists (r :: rs), e2, c2.
    cbn [steps]. rewrite E1. change (Some ?x ≫= ?f) with (f x). cbv beta iota. rewrite E2. split; [done|]. split; [done|].
    split; [|by constructor]. rewrite allFrames_cons.
    assert (Has : asked (a :: l) = askedOf a + asked l) by (unfold asked; rewrite fmap_cons; reflexivity).
    assert (0 <= askedOf a) by (destruct Hf; cbn; lia). pose proof (zlen_nonneg (outbuf c1)).
    assert (0 <= asked l). { clear -Hl. induction Hl as [|x l Hx Hl IH]; [unfold asked; cbn; lia|]. unfold asked in *. rewrite fmap_cons. change (0 <= askedOf x + sumZ (askedOf <$> l)). destruct Hx; cbn [askedOf]; lia. }
    lia.
Qed.
End Length.
