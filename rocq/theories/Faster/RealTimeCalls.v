(** Whole call histories of the real-time R2 engine. *)
From stdpp Require Import prelude.
From Coq Require Import ZArith QArith Qround Lia Lqa ZifyBool.
From Verif Require Import Base.Arith Faster.Model Faster.Core Faster.Chunks Faster.Stream Faster.RealTimeRuns Faster.RealTime.
Local Open Scope Z_scope.

Section Calls.
Context {A S R K : Type} (D : dsp A S R K).
Notation chan := (channel A S R).
Notation engine := (engine A S R K).
Implicit Types (P : params) (c d : chan) (e : engine) (s t : lev).
Notation sane := (sane D). Notation calm := (calm D).

(** ** The amount reported *)
Definition least (cs : list chan) : Z :=
  match cs with [] => 0 | c :: cs => foldr (fun c m => Z.min (zlen (outbuf c)) m) (zlen (outbuf c)) cs end.
Lemma least_spec cs : cs <> [] -> 0 <= least cs /\ Forall (fun c => least cs <= zlen (outbuf c)) cs /\ Exists (fun c => zlen (outbuf c) = least cs) cs.
Proof.
  destruct cs as [|c cs]; [done|]. intros _. unfold least. pose proof (zlen_nonneg (outbuf c)) as H0.
  induction cs as [|d cs IH]; cbn [foldr]; [split; [done|]; split; [repeat constructor; lia|by constructor]|].
  pose proof (zlen_nonneg (outbuf d)). destruct IH as (I1 & I2 & I3). set (m := foldr _ _ _) in *. clearbody m.
  apply Forall_cons in I2 as [I4 I2]. split; [lia|]. split.
  - constructor; [lia|]. constructor; [lia|]. eapply Forall_impl; [exact I2|]. cbn. intros; lia.
  - destruct (Z_le_dec (zlen (outbuf d)) m).
    + apply Exists_cons_tl. constructor. lia.
    + replace (Z.min (zlen (outbuf d)) m) with m by lia. inversion I3; subst; [by constructor|by apply Exists_cons_tl, Exists_cons_tl].
Qed.
Lemma report_least cs : report cs = if (least cs =? 0) && forallb outputComplete cs then -1 else least cs.
Proof. done. Qed.
Lemma all_complete P s (cs : list chan) xs : Forall2 (at_ P s) cs xs -> cs <> [] -> forallb outputComplete cs = loc s.
Proof.
  intros H Hne. induction H as [|c x cs xs Hc Hcs IH]; [done|]. cbn [forallb]. rewrite (at_oc _ _ _ _ Hc).
  destruct cs; [cbn; by rewrite andb_true_r|]. rewrite IH by done. by destruct (loc s).
Qed.

(** ** retrieve() *)
Lemma takeOut_ok P s : forall (cs : list chan) xs n, 0 <= n -> Forall2 (at_ P s) cs xs ->
  exists ys m ds, takeOut cs n = (ys, m, ds) /\ Forall2 (at_ P s) ds xs /\ 0 <= m <= n /\ Forall (fun c => m <= zlen (outbuf c)) cs /\
    (m = n \/ Exists (fun c => m = zlen (outbuf c)) cs) /\ Forall2 (fun c y => m <= zlen y /\ y = firstn_z (zlen y) (outbuf c)) cs ys /\
    Forall2 (fun c d => outbuf d = skipn_z n (outbuf c) \/ exists j, m <= j <= n /\ outbuf d = skipn_z j (outbuf c)) cs ds.
Proof.
  induction cs as [|c cs IH]; intros xs n Hn H; inversion H as [|? x ? xs' Hc Hcs]; subst.
  { exists [], n, []. cbn. split; [done|]. repeat split; try lia; auto. }
  cbn [takeOut]. pose proof (zlen_nonneg (outbuf c)) as H0.
  assert (Hl : zlen (firstn_z n (outbuf c)) = Z.min n (zlen (outbuf c))) by (rewrite zlen_firstn; lia).
  destruct (IH xs' (zlen (firstn_z n (outbuf c)))) as (ys & m & ds & E & Hd & Hm & Hall & Hex & Hys & Ho); [lia|done|].
  rewrite E. do 3 eexists. split; [reflexivity|]. split; [|split; [|split; [|split; [|split]]]].
  - constructor; [|done]. destruct Hc. constructor; try done. destruct at_inv as [Hw Hk Hch Hf]. constructor; [by destruct Hw| |done|done].
    destruct Hk as [Hk1 Hk2]. split; [|done]. change (outbuf (set_out c (skipn_z n (outbuf c)) (outCount c))) with (skipn_z n (outbuf c)).
    change (outCap (set_out _ _ _)) with (outCap c). rewrite zlen_skipn. lia.
  - lia.
  - constructor; [lia|]. done.
  - destruct Hex as [Hex|Hex]; [|right; by apply Exists_cons_tl]. destruct (Z_le_dec n (zlen (outbuf c))); [left; lia|right; constructor; lia].
  - constructor; [|done]. split; [lia|]. rewrite Hl. destruct (Z_le_dec n (zlen (outbuf c))); [by rewrite Z.min_l by lia|].
    rewrite Z.min_r by lia. by rewrite !firstn_z_all by lia.
  - constructor; [by left|]. eapply Forall2_impl; [exact Ho|]. cbn. intros c1 d1 [K1|(j & Hj & K1)]; right; [|exists j; split; [lia|done]].
    eexists. split; [|exact K1]. lia.
Qed.

(** ** Engines *)
Record live P B e (xs : list (list A)) t : Prop := Live {
  lv_at : Forall2 (at_ P t) (chans e) xs; lv_ne : chans e <> []; lv_good : good P t; lv_closing : B < window P -> closing t;
  lv_fin : lsz t = None <-> finished e = false
}.
Lemma blockLen_level n (bs : list (list A)) : level n bs -> bs <> [] ->
  Forall (fun b => zlen b = Z.of_nat (blockLen bs)) bs.
Proof.
  intros [_ [m H]] Hne. assert (E : blockLen bs = m).
  { induction H as [|b bs Hb Hbs IH]; [done|]. cbn. rewrite Hb. destruct bs; [cbn; lia|]. unfold blockLen in IH. rewrite IH by done. lia. }
  rewrite E. eapply Forall_impl; [exact H|]. intros b Hb. unfold zlen. by rewrite Hb.
Qed.
Lemma processRT_ok P B final : sane P -> calm B -> B <= window P -> before P = false -> forall e xs t bs,
  live P B e xs t -> level (length xs) bs ->
  exists e' u, processRT D P e bs final = Some e' /\ live P B e' (if finished e then xs else zip_with app xs bs) u /\ lsteps P B t u /\
    finished e' = (finished e || final) /\
    (finished e = false -> Forall2 (grown (final = false /\ brisk D P /\ window P <= lic t - lq t + Z.of_nat (blockLen bs))) (chans e) (chans e') /\
       (Z.of_nat (blockLen bs) <= increment P -> lic t - lq t < window P -> lic u - lq u < window P) /\
       (window P <= lic t - lq t + Z.of_nat (blockLen bs) -> lch t < lch u)) /\
    (finished e = true -> e' = e).
Proof.
  intros HP HC HB Hbef e xs t bs [Hat Hne Hg Hcl Hfin] Hlev. unfold processRT.
  destruct (finished e) eqn:Ef.
  { exists e, t. split; [done|]. split; [constructor; try done; by rewrite Ef|]. split; [apply ls_refl|]. done. }
  assert (Hlen : length (chans e) = length xs) by (by eapply Forall2_length).
  assert (Hbl : length bs = length xs) by apply Hlev.
  assert (Hbne : bs <> []) by (destruct bs, xs, (chans e); done).
  pose proof (blockLen_level _ _ Hlev Hbne) as Hbs. assert (Hz : lsz t = None) by (by apply Hfin).
  assert (Hd : ldr t = false) by (destruct (ldr t) eqn:E; [|done]; by destruct (g_drain _ _ Hg E)).
  destruct (feedRT_ok D P B (fun _ => false) final HP HC HB Hbef (Datatypes.S (blockLen bs)) t (calc e) (chans e) xs bs (Z.of_nat (blockLen bs)))
    as (k' & ds & u & E & Hu & Hst & H1 & H2 & H3 & H4 & H5 & _); try done; try lia.
  rewrite E. change (Some ?x ≫= ?f) with (f x). cbv beta iota.
  exists (Engine ds k' final), u. split; [done|]. split.
  - constructor; cbn [chans finished]; try done.
    + apply Forall2_length in H3. destruct ds, (chans e); done.
    + exact (lstep_good D P B t u HP HB Hst Hg).
    + intros HB'. exact (lstep_closing D P B t u HP HB' Hst Hg (Hcl HB')).
    + rewrite H2. by destruct final.
  - done.
Qed.

(** What an engine that has reported the end answers from then on. *)
Definition over P e xs t : Prop := live P (window P) e xs t /\ finished e = true /\ ldr t = true /\ lf t = 0 /\ loc t = true /\ Exists (fun c => outbuf c = []) (chans e).
Lemma rtRounds_enough P t (cs : list chan) xs : Forall2 (at_ P t) cs xs -> cs <> [] -> good P t -> measure P t <= Z.of_nat (rtRounds P cs).
Proof.
  intros H Hne Hg. destruct H as [|c x cs xs Hc _]; [done|]. unfold rtRounds, measure. rewrite (at_rs _ _ _ _ Hc), (at_f _ _ _ _ Hc).
  destruct Hg. destruct (ldr t); lia.
Qed.
Lemma available_ok P B : sane P -> calm B -> B <= window P -> forall e xs t, live P B e xs t ->
  exists n k ds u, availableRT D (rtRounds P (chans e)) P (calc e) (chans e) = Some (n, k, ds) /\
    n = report ds /\ live P B (Engine ds k (finished e)) xs u /\ lsteps P B t u /\
    (finished e = false -> ds = chans e /\ k = calc e /\ u = t) /\
    (finished e = true -> (lic u - lq u = 0 /\ ldr u = false /\ u = t /\ ds = chans e /\ k = calc e) \/ (ldr u = true /\ lf u = 0)) /\
    (ldr t = true -> lf t = 0 -> Forall2 (fun c d => outbuf d = outbuf c) (chans e) ds).
Proof.
  intros HP HC HB e xs t [Hat Hne Hg Hcl Hfin]. unfold availableRT.
  pose proof (rtRounds_enough P t (chans e) xs Hat Hne Hg) as Hr.
  assert (Hi : match chans e with [] => True | c :: _ => inputSize c = lsz t end) by (destruct Hat as [|c x ? ? Hc]; [done|]; apply Hc).
  destruct (chans e) as [|c cs] eqn:Ee; [done|]. rewrite Hi. destruct (lsz t) as [z|] eqn:Ez.
  - destruct (drainRT_ok D P B HP HC HB (rtRounds P (c :: cs)) t (calc e) (c :: cs) xs Hat Hne Hg) as (k' & ds & u & E & Hu & Hst & H1 & H2); [congruence|done|].
    rewrite E. change (Some ?x ≫= ?f) with (f x). cbv beta iota.
    exists (report ds), k', ds, u. split; [done|]. split; [done|]. split; [|split; [done|]].
    + constructor; cbn [chans finished].
      * done.
      * apply Forall2_length in Hu. apply Forall2_length in Hat. destruct ds, xs; done.
      * exact (lstep_good D P B t u HP HB Hst Hg).
      * intros HB'. exact (lstep_closing D P B t u HP HB' Hst Hg (Hcl HB')).
      * destruct (lsteps_ic P B t u Hst) as [_ ->]; [congruence|]. by rewrite Ez.
    + split; [|split; [done|done]]. intros Ef. by apply Hfin in Ef.
  - change (Some ?x ≫= ?f) with (f x). cbv beta iota. exists (report (c :: cs)), (calc e), (c :: cs), t.
    split; [done|]. split; [done|]. split; [constructor; cbn [chans finished]; try done; by rewrite Ez|]. split; [apply ls_refl|]. split; [done|].
    split; [intros Ef; destruct Hfin as [Hf1 _]; by rewrite Hf1 in Ef|]. intros _ _. clear. induction (c :: cs); by constructor.
Qed.

Lemma call_ok P B : sane P -> calm B -> B <= window P -> before P = false -> forall e xs t a,
  live P B e xs t -> (match a with Feed b | Finish b => level (length xs) b | Take n => 0 <= n | Available => True end) ->
  exists r e' u, rtCall D P e a = Some (r, e') /\ lsteps P B t u /\
    live P B e' (match a with Feed b | Finish b => if finished e then xs else zip_with app xs b | _ => xs end) u /\
    finished e' = (finished e || match a with Finish _ => true | _ => false end).
Proof.
  intros HP HC HB Hbef e xs t a Hl Ha. destruct a as [b|b| |n].
  - destruct (processRT_ok P B false HP HC HB Hbef e xs t b Hl Ha) as (e' & u & E & Hl' & Hst & Hf & _).
    cbn [rtCall]. rewrite E. change (Some ?x ≫= ?f) with (f x). cbv beta. eauto 10.
  - destruct (processRT_ok P B true HP HC HB Hbef e xs t b Hl Ha) as (e' & u & E & Hl' & Hst & Hf & _).
    cbn [rtCall]. rewrite E. change (Some ?x ≫= ?f) with (f x). cbv beta. eauto 10.
  - destruct (available_ok P B HP HC HB e xs t Hl) as (n & k & ds & u & E & _ & Hl' & Hst & _).
    cbn [rtCall]. rewrite E. change (Some ?x ≫= ?f) with (f x). cbv beta iota. do 3 eexists. split; [done|]. split; [done|]. split; [done|].
    cbn. by rewrite orb_false_r.
  - destruct Hl as [Hat Hne Hg Hcl Hfin]. destruct (takeOut_ok P t (chans e) xs n Ha Hat) as (ys & m & ds & E & Hd & _).
    cbn [rtCall]. rewrite E. do 3 eexists. split; [done|]. split; [apply ls_refl|]. cbn [finished]. split; [|by rewrite orb_false_r].
    constructor; cbn [chans finished]; try done. apply Forall2_length in Hd, Hat. destruct ds, xs, (chans e); done.
Qed.

Lemma calls_ok P B : sane P -> calm B -> B <= window P -> before P = false -> forall cs e xs t,
  live P B e xs t -> Forall (fits (length xs)) cs ->
  exists rs e' ys u, rtCalls D P e cs = Some (rs, e') /\ live P B e' ys u /\ lsteps P B t u /\ length ys = length xs /\
    finished e' = (finished e || ended cs) /\
    forall i x, xs !! i = Some x -> ys !! i = Some (if finished e then x else x ++ given cs i).
Proof.
  intros HP HC HB Hbef. induction cs as [|a cs IH]; intros e xs t Hl Hcs.
  { exists [], e, xs, t. split; [done|]. split; [done|]. split; [apply ls_refl|]. split; [done|]. cbn. split; [by rewrite orb_false_r|].
    intros i x Hx. rewrite app_nil_r. by destruct (finished e). }
  apply Forall_cons in Hcs as [Ha Hcs].
  destruct (call_ok P B HP HC HB Hbef e xs t a Hl Ha) as (r & e1 & u & E & Hst & Hl1 & Hf1).
  set (xs1 := match a with Feed b | Finish b => if finished e then xs else zip_with app xs b | _ => xs end) in *.
  assert (Hlen : length xs1 = length xs).
  { unfold xs1. destruct a as [b|b| |]; try done; (destruct (finished e); [done|]); rewrite zip_with_length_l; try done; by rewrite (proj1 Ha). }
  destruct (IH e1 xs1 u Hl1 ltac:(by rewrite Hlen)) as (rs & e2 & ys & w & E2 & Hl2 & Hst2 & Hlen2 & Hf2 & Hx2).
  cbn [rtCalls]. rewrite E. change (Some ?x ≫= ?f) with (f x). cbv beta iota. rewrite E2. change (Some ?x ≫= ?f) with (f x). cbv beta iota.
  exists (r :: rs), e2, ys, w. split; [done|]. split; [done|]. split; [by eapply lsteps_trans|]. split; [congruence|].
  split. { rewrite Hf2, Hf1. destruct a; cbn [ended]; by rewrite ?orb_false_r, ?orb_true_r. }
  intros i x Hx. destruct (finished e) eqn:Ef.
  - rewrite (Hx2 i x); [rewrite Hf1; cbn [orb]; done|]. unfold xs1. by destruct a.
  - assert (Hb : forall b : list (list A), level (length xs) b -> exists y, b !! i = Some y).
    { intros b [Hb _]. apply lookup_lt_is_Some. rewrite Hb. by eapply lookup_lt_Some. }
    destruct a as [b|b| |n]; cbn [given]; unfold xs1 in Hx2.
    + destruct (Hb b Ha) as [y Hy]. rewrite (Hx2 i (x ++ y)); [|by rewrite lookup_zip_with, Hx; cbn; rewrite Hy].
      rewrite Hf1. cbn [orb]. rewrite Hy. cbn [default]. by rewrite app_assoc.
    + destruct (Hb b Ha) as [y Hy]. rewrite (Hx2 i (x ++ y)); [|by rewrite lookup_zip_with, Hx; cbn; rewrite Hy].
      rewrite Hf1. cbn [orb]. by rewrite Hy.
    + rewrite (Hx2 i x Hx), Hf1. done.
    + rewrite (Hx2 i x Hx), Hf1. done.
Qed.

(** After the end has been reported. *)
Definition endAnswer (n : nat) (a : rcall A) : answer A :=
  match a with Feed _ | Finish _ => Done | Available => Count (-1) | Take _ => Frames (replicate n []) end.
Lemma over_call P e xs t a : sane P -> calm (window P) -> before P = false -> over P e xs t -> fits (length xs) a ->
  exists e' t', rtCall D P e a = Some (endAnswer (length xs) a, e') /\ over P e' xs t'.
Proof.
  intros HP HC Hbef (Hl & Hf & Hd & Hf0 & Ho & Hex) Ha.
  assert (Hlen : length (chans e) = length xs) by (eapply Forall2_length, Hl).
  destruct a as [b|b| |n].
  - exists e, t. cbn [rtCall]. unfold processRT. rewrite Hf. change (Some ?x ≫= ?f) with (f x). cbv beta. split; [done|]. split_and!; done.
  - exists e, t. cbn [rtCall]. unfold processRT. rewrite Hf. change (Some ?x ≫= ?f) with (f x). cbv beta. split; [done|]. split_and!; done.
  - destruct (available_ok P _ HP HC (Z.le_refl _) e xs t Hl) as (n & k & ds & u & E & En & Hl' & Hst & _ & H1 & H2).
    cbn [rtCall]. rewrite E. change (Some ?x ≫= ?f) with (f x). cbv beta iota. exists (Engine ds k (finished e)), u.
    specialize (H2 Hd Hf0).
    assert (Hu : ldr u = true /\ lf u = 0). { destruct (H1 Hf) as [(_ & _ & -> & _)|?]; done. }
    assert (Hou : loc u = true).
    { clear -Hst Ho HP. induction Hst as [|s t si u Et Hsi Hst IH|s n fin u Hz Hn Hc Hst IH]; [done| |by apply IH].
      apply IH. cbn [run loc]. assert (loc t = loc s) as ->; [|by rewrite Ho].
      unfold take in Et. destruct (_ && _); [destruct (lsz s) eqn:E; [|done]; destruct (_ =? _); [done|]; destruct (_ <? _); by injection Et as <-|].
      destruct (ldr s); by injection Et as <-. }
    assert (Hex' : Exists (fun c => outbuf c = []) ds).
    { clear -Hex H2. induction H2 as [|c d cs ds H2 _ IH]; inversion Hex; subst; [by constructor; rewrite H2|by apply Exists_cons_tl, IH]. }
    split; [|split; [done|]; split; [done|]; split; [apply Hu|]; split; [apply Hu|]; split; [done|done]].
    f_equal. f_equal. cbn [endAnswer]. f_equal. rewrite En, report_least, (all_complete P u ds xs), Hou; [|apply Hl'|apply Hl'].
    destruct (least_spec ds (lv_ne _ _ _ _ _ Hl')) as (L1 & L2 & _).
    assert (least ds = 0) as ->; [|done]. clear -Hex' L1 L2. apply Exists_exists in Hex' as (c & Hc & Hc0). rewrite Forall_forall in L2.
    specialize (L2 c Hc). rewrite Hc0, (@zlen_nil A) in L2. lia.
  - destruct Hl as [Hat Hne Hg Hcl Hfin]. destruct (takeOut_ok P t (chans e) xs n Ha Hat) as (ys & m & ds & E & Hds & Hm & Hall & _ & Hys & Hod).
    cbn [rtCall]. rewrite E. exists (Engine ds (calc e) (finished e)), t.
    assert (m = 0) as ->.
    { apply Exists_exists in Hex as (c & Hc & Hc0). rewrite Forall_forall in Hall. specialize (Hall c Hc). rewrite Hc0, (@zlen_nil A) in Hall. lia. }
    split.
    + do 3 f_equal. cbn [endAnswer]. f_equal. rewrite <- Hlen. clear -Hys. induction Hys as [|c y cs ys _ _ IH]; [done|]. cbn. by f_equal.
    + split; [|split; [done|]; split; [done|]; split; [done|]; split; [done|]].
      * constructor; cbn [chans finished]; try done. apply Forall2_length in Hod. destruct ds, (chans e); done.
      * cbn [chans]. clear -Hex Hod. induction Hod as [|c d cs ds Hc _ IH]; inversion Hex as [? ? H0|]; subst; [|by apply Exists_cons_tl, IH].
        constructor. rewrite H0 in Hc. destruct Hc as [->|(j & _ & ->)]; unfold skipn_z; by rewrite drop_nil.
Qed.
Lemma over_calls P : sane P -> calm (window P) -> before P = false -> forall cs e xs t, over P e xs t -> Forall (fits (length xs)) cs ->
  exists e', rtCalls D P e cs = Some (endAnswer (length xs) <$> cs, e').
Proof.
  intros HP HC Hbef. induction cs as [|a cs IH]; intros e xs t Ho Hcs; [by exists e|].
  apply Forall_cons in Hcs as [Ha Hcs]. destruct (over_call P e xs t a HP HC Hbef Ho Ha) as (e1 & t1 & E & Ho1).
  destruct (IH e1 xs t1 Ho1 Hcs) as (e2 & E2). exists e2. cbn [rtCalls]. rewrite E. change (Some ?x ≫= ?f) with (f x). cbv beta iota.
  rewrite E2. done.
Qed.

Lemma rtCalls_app P : forall cs cs' e, rtCalls D P e (cs ++ cs') =
  (x ← rtCalls D P e cs; let '(rs, e1) := (x : list (answer A) * engine) in
   y ← rtCalls D P e1 cs'; let '(rs', e2) := (y : list (answer A) * engine) in Some (rs ++ rs', e2)).
Proof.
  induction cs as [|a cs IH]; intros cs' e.
  - cbn [app]. change (rtCalls D P e []) with (Some ([] : list (answer A), e)). change (Some ?x ≫= ?f) with (f x). cbv beta iota.
    destruct (rtCalls D P e cs') as [[rs e2]|]; reflexivity.
  - cbn [rtCalls app]. destruct (rtCall D P e a) as [[r e1]|]; [|reflexivity]. change (Some ?x ≫= ?f) with (f x). cbv beta iota. rewrite IH.
    destruct (rtCalls D P e1 cs) as [[rs e2]|]; [|reflexivity]. change (Some ?x ≫= ?f) with (f x). cbv beta iota.
    change (Some (r :: rs, e2) ≫= ?f) with (f (r :: rs, e2)). cbv beta iota. destruct (rtCalls D P e2 cs') as [[rs' e3]|]; reflexivity.
Qed.
Lemma rtCalls_one P e a r e' : rtCall D P e a = Some (r, e') -> rtCalls D P e [a] = Some ([r], e').
Proof. intros E. cbn [rtCalls]. by rewrite E. Qed.

(** ** Fresh engines *)
Definition opened P cap e : Prop := Forall (fun c => idle cap c /\ wf P c /\ need P (window P) <= outCap c) (chans e) /\ chans e <> [] /\ finished e = false.
Lemma opened_live P B cap e : sane P -> window P <= cap -> opened P cap e ->
  live P B e (replicate (length (chans e)) []) (Lev 0 0 false None cap 0 false 0).
Proof.
  intros HP Hcap (Hall & Hne & Hf). pose proof (sane_incr _ _ HP). pose proof (sane_window _ _ HP). constructor; try done.
  - clear -HP Hall H H0. induction Hall as [|c cs (Hi & Hw & Hk) _ IH]; [constructor|]. cbn. constructor; [|done].
    destruct Hi. constructor; cbn; try done; try lia; try congruence.
    constructor; try done; try lia. split; [rewrite idle_out, (@zlen_nil A); destruct (wf_fill _ _ Hw)|done].
    pose proof (need_mono P 0 (window P) (sane_pitch _ _ HP) ltac:(lia)) as Hm.
    enough (0 <= need P 0) by lia. unfold need. destruct (Qeq_bool _ _); [done|].
    assert (Qfloor (inject_Z 0 / pitchScale P) = 0) as ->; [|done]. unfold Qdiv. change (inject_Z 0) with 0%Q.
    rewrite (Qfloor_comp _ 0%Q); [done|]. ring.
  - constructor; cbn; try done; try lia. exists 0. lia.
Qed.
End Calls.
