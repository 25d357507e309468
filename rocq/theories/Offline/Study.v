(** Proofs about the study pass. *)
From stdpp Require Import prelude.
From Coq Require Import ZArith QArith Qround Lia Lqa.
From Verif Require Import Base.Arith Faster.Sizes Faster.Model Faster.Core Offline.Model.
Local Open Scope Z_scope.

Section Study.
Context {A S R KS : Type} (X : outside A S R KS).
Notation chan := (channel A S R).
Notation engine := (engine A S R KS).
Implicit Types (e : engine) (c d : chan).
Context (e : engine).
Notation w := (Sizes.window (sz e)).
Notation i := (Sizes.increment (sz e)).
Context (Hi : 1 <= i) (Hw : 4 * i <= w).
(** Cutting and folding keep the accumulator's length. *)
Context (Hons : forall k a, zlen (fst (fst (fst (onset X k a)))) = zlen a).

Notation result := (chan * list Q * list bool * Z * KS)%type.
Definition rest_ (x : result) : chan := let '(c, _, _, _, _) := x in c.
Definition plus c (m : list A) : chan := set_in c (inbuf c ++ m) (inCount c).

(** Everything but the input buffer and the contents of the accumulator. *)
Record kept c d : Prop := Kept {
  kp_inCap : inCap d = inCap c; kp_out : outbuf d = outbuf c; kp_outCap : outCap d = outCap c; kp_flt : fltbuf d = fltbuf c;
  kp_acc : zlen (acc d) = zlen (acc c); kp_wacc : wacc d = wacc c; kp_fill : fill d = fill c;
  kp_spec : spec d = spec c; kp_rsm : rsm d = rsm c; kp_rb : rbSize d = rbSize c; kp_size : inputSize d = inputSize c
}.
Lemma kept_refl c : kept c c.
Proof. by constructor. Qed.
Lemma kept_trans a b c : kept a b -> kept b c -> kept a c.
Proof. intros [] []. constructor; congruence. Qed.

Lemma half_ok : 2 * i <= w / 2.
Proof using Hw. apply Z.div_le_lower_bound; lia. Qed.

(** One round of the analysis. *)
Definition round c (k : KS) : chan * Q * bool * KS :=
  let n := Z.min (zlen (inbuf c)) w in
  let '(a, x, s, k) := onset X k (firstn_z n (inbuf c) ++ skipn_z n (acc c)) in
  (set_acc (set_in c (skipn_z i (inbuf c)) (inCount c)) a (wacc c) (fill c), x, s, k).
Lemma chunks_round f c final df sil dur k : w <= zlen (acc c) ->
  studyChunks X (Datatypes.S f) e c final df sil dur k =
  if (w <=? zlen (inbuf c)) || (final && (w / 2 <=? zlen (inbuf c)))
  then let '(c', x, s, k') := round c k in studyChunks X f e c' final (df ++ [x]) (sil ++ [s]) (dur + i) k'
  else Some (c, df, sil, dur, k).
Proof.
  intros Ha. cbn [studyChunks]. unfold round. destruct (_ || _); [|done]. cbv zeta.
  rewrite (proj2 (Z.leb_le _ _)) by lia. by destruct (onset X k _) as [[[a x] s] k'].
Qed.
Lemma round_kept c k : w <= zlen (acc c) -> let '(c', _, _, _) := round c k in
  kept c c' /\ inbuf c' = skipn_z i (inbuf c).
Proof using Hi Hw Hons.
  intros Ha. unfold round. set (n := Z.min _ _). pose proof (Hons k (firstn_z n (inbuf c) ++ skipn_z n (acc c))) as H.
  destruct (onset X k _) as [[[a x] s] k']. cbn [fst] in H. split; [|done]. constructor; cbn; try done.
  rewrite H, zlen_app, zlen_firstn, zlen_skipn. pose proof (zlen_nonneg (inbuf c)). lia.
Qed.

Lemma chunks_ok final : forall f c df sil dur k, (Z.to_nat (zlen (inbuf c)) < f)%nat -> w <= zlen (acc c) ->
  exists d df' sil' dur' k' m, studyChunks X f e c final df sil dur k = Some (d, df', sil', dur', k') /\
    kept c d /\ 0 <= m /\ zlen df' = zlen df + m /\ zlen sil' = zlen sil + m /\
    inbuf d = skipn_z (m * i) (inbuf c) /\ zlen (inbuf d) = zlen (inbuf c) - m * i /\
    (if final then zlen (inbuf d) < w / 2 /\ (0 < m -> w / 2 - i <= zlen (inbuf d))
     else zlen (inbuf d) < w /\ (0 < m -> w - i <= zlen (inbuf d))).
Proof using Hi Hw Hons.
  pose proof half_ok as Hh.
  assert (Hdm : w / 2 < w) by (apply Z.div_lt; lia).
  induction f as [|f IH]; intros c df sil dur k Hf Ha; [lia|]. rewrite chunks_round by done.
  destruct (_ || _) eqn:E.
  - pose proof (round_kept c k Ha) as Hr. destruct (round c k) as [[[c' x] s] k']. destruct Hr as [Hk Hin].
    assert (Hlen : w / 2 <= zlen (inbuf c)).
    { apply orb_true_iff in E as [E|E]; [lia|]. apply andb_true_iff in E as [_ E]. lia. }
    destruct (IH c' (df ++ [x]) (sil ++ [s]) (dur + i) k') as (d & df' & sil' & dur' & k2 & m & E1 & K & M & Hdf & Hsil & Hin' & Hl & Hfin).
    { rewrite Hin, zlen_skipn. lia. }
    { rewrite (kp_acc _ _ Hk). lia. }
    rewrite zlen_app, zlen_cons, (@zlen_nil Q) in Hdf. rewrite zlen_app, zlen_cons, (@zlen_nil bool) in Hsil.
    rewrite Hin, zlen_skipn in Hl.
    exists d, df', sil', dur', k2, (m + 1). split; [done|]. split; [by eapply kept_trans|]. split; [lia|]. split; [lia|]. split; [lia|].
    split.
    { rewrite Hin', Hin, skipn_z_add by nia. f_equal. lia. }
    split; [lia|]. destruct final.
    + split; [apply Hfin|]. intros _. destruct (Z.eq_dec m 0) as [->|]; [lia|]. apply Hfin. lia.
    + split; [apply Hfin|]. intros _. destruct (Z.eq_dec m 0) as [->|]; [|apply Hfin; lia]. cbn in E. rewrite orb_false_r in E. lia.
  - exists c, df, sil, dur, k, 0. split; [done|]. split; [apply kept_refl|]. split; [lia|]. split; [lia|]. split; [lia|].
    split; [done|]. split; [lia|]. apply orb_false_iff in E as [E1 E2]. destruct final; [|lia]. cbn in E2. lia.
Qed.

(** More rounds do no harm. *)
Lemma chunks_more final : forall f g c df sil dur k r, w <= zlen (acc c) -> (f <= g)%nat ->
  studyChunks X f e c final df sil dur k = Some r -> studyChunks X g e c final df sil dur k = Some r.
Proof using Hi Hw Hons.
  induction f as [|f IH]; intros g c df sil dur k r Ha Hg E; [done|]. destruct g as [|g]; [lia|].
  rewrite chunks_round in E |- * by done. destruct (_ || _); [|done].
  pose proof (round_kept c k Ha) as Hr. destruct (round c k) as [[[c' x] s] k']. destruct Hr as [Hk Hin].
  apply IH; [rewrite (kp_acc _ _ Hk); lia|lia|done].
Qed.
(** Whole windows may be analysed as soon as they are there. *)
Lemma chunks_early m : forall f c df sil dur k d df' sil' dur' k', w <= zlen (acc c) ->
  studyChunks X f e c false df sil dur k = Some (d, df', sil', dur', k') ->
  forall final g r, studyChunks X g e (plus d m) final df' sil' dur' k' = Some r ->
  exists g', studyChunks X g' e (plus c m) final df sil dur k = Some r.
Proof using Hi Hw Hons.
  induction f as [|f IH]; intros c df sil dur k d df' sil' dur' k' Ha E final g r Eg; [done|].
  rewrite chunks_round in E by done. cbn [andb] in E. rewrite orb_false_r in E. destruct (Z.leb_spec w (zlen (inbuf c))) as [Hle|Hle].
  - pose proof (round_kept c k Ha) as Hr.
    assert (Hp : round (plus c m) k = let '(c', x, s, k2) := round c k in (plus c' m, x, s, k2)).
    { pose proof (zlen_nonneg m). unfold round, plus. cbn [inbuf acc set_in]. rewrite zlen_app.
      replace (Z.min (zlen (inbuf c) + zlen m) w) with w by lia. replace (Z.min (zlen (inbuf c)) w) with w by lia.
      assert (E1 : firstn_z w (inbuf c ++ m) = firstn_z w (inbuf c)).
      { unfold firstn_z. apply take_app_le. unfold zlen in Hle. lia. }
      assert (E2 : skipn_z i (inbuf c ++ m) = skipn_z i (inbuf c) ++ m).
      { unfold skipn_z. apply drop_app_le. unfold zlen in Hle. lia. }
      rewrite E1, E2. by destruct (onset X k _) as [[[a x] s] k2]. }
    destruct (round c k) as [[[c' x] s] k2] eqn:Er. destruct Hr as [Hk Hin].
    destruct (IH c' _ _ _ _ _ _ _ _ _ ltac:(rewrite (kp_acc _ _ Hk); lia) E final g r Eg) as [g' E'].
    exists (Datatypes.S g'). rewrite chunks_round by done. rewrite Hp.
    rewrite (proj2 (Z.leb_le _ _)); [exact E'|]. unfold plus. cbn. rewrite zlen_app. pose proof (zlen_nonneg m). lia.
  - injection E as <- <- <- <- <-. by exists g.
Qed.

(** ** Calls without the end *)
Lemma loop_more : forall f c m df sil dur k, (Z.to_nat (zlen m) < f)%nat -> w <= zlen (acc c) -> zlen (inbuf c) < w < inCap c ->
  exists d df' sil' dur' k' n, studyLoop X f e c m false df sil dur k = Some (d, df', sil', dur', k') /\
    kept c d /\ 0 <= n /\ zlen df' = zlen df + n /\ zlen sil' = zlen sil + n /\
    zlen (inbuf d) = zlen (inbuf c) + zlen m - n * i /\ zlen (inbuf d) < w /\ (0 < n -> w - i <= zlen (inbuf d)) /\
    forall m' final g r, studyChunks X g e (plus d m') final df' sil' dur' k' = Some r ->
      exists g', studyChunks X g' e (plus c (m ++ m')) final df sil dur k = Some r.
Proof using Hi Hw Hons.
  induction f as [|f IH]; intros c m df sil dur k Hf Ha Hin; [lia|]. cbn [studyLoop].
  destruct (Z.eqb_spec (zlen m) 0) as [E|E].
  - apply zlen_0 in E as ->. exists c, df, sil, dur, k, 0. rewrite (@zlen_nil A). split; [done|]. split; [apply kept_refl|].
    split; [lia|]. split; [lia|]. split; [lia|]. split; [lia|]. split; [lia|]. split; [lia|]. intros m' final g r Eg. exists g. done.
  - pose proof (zlen_nonneg m). cbv zeta. set (n := Z.min (inCap c - zlen (inbuf c)) (zlen m)).
    change (set_in c (inbuf c ++ firstn_z n m) (inCount c)) with (plus c (firstn_z n m)).
    destruct (chunks_ok false (Datatypes.S (Z.to_nat (zlen (inbuf (plus c (firstn_z n m)))))) (plus c (firstn_z n m)) df sil dur k ltac:(lia) Ha)
      as (d & df' & sil' & dur' & k' & q & Ec & K & Q0 & Hdf & Hsil & Hind & Hl & Hlt & Hge).
    rewrite Ec. change (Some ?x ≫= ?f) with (f x). cbv beta iota.
    assert (El : zlen (inbuf (plus c (firstn_z n m))) = zlen (inbuf c) + n).
    { unfold plus. cbn. rewrite zlen_app, zlen_firstn. lia. }
    assert (K' : kept c d) by (destruct K; by constructor).
    destruct (IH d (skipn_z n m) df' sil' dur' k') as (d2 & df2 & sil2 & dur2 & k2 & q2 & E2 & K2 & Q2 & Hdf2 & Hsil2 & Hl2 & Hlt2 & Hge2 & Hres).
    { rewrite zlen_skipn. lia. }
    { rewrite (kp_acc _ _ K'). lia. }
    { rewrite (kp_inCap _ _ K'). lia. }
    rewrite zlen_skipn in Hl2.
    exists d2, df2, sil2, dur2, k2, (q + q2). split; [done|]. split; [by eapply kept_trans|]. split; [lia|]. split; [lia|]. split; [lia|].
    split; [lia|]. split; [done|]. split.
    + intros Hq. destruct (Z.eq_dec q2 0) as [->|]; [|apply Hge2; lia]. specialize (Hge ltac:(lia)). lia.
    + intros m' final g r Eg. destruct (Hres m' final g r Eg) as [g1 E1].
      destruct (chunks_early (skipn_z n m ++ m') _ (plus c (firstn_z n m)) _ _ _ _ _ _ _ _ _ Ha Ec final g1 r E1) as [g2 E3].
      exists g2. rewrite <- E3. f_equal. unfold plus. cbn [inbuf set_in inCount]. by rewrite <- app_assoc, (app_assoc (firstn_z n m)), firstn_skipn_z.
Qed.

(** ** The last call *)
(** However long the last block, the number of chunks is right. *)
Lemma loop_final T : forall f c m df sil dur k, (Z.to_nat (zlen m) < f)%nat -> w <= zlen (acc c) -> zlen (inbuf c) < w < inCap c ->
  0 <= T -> zlen df = zlen sil ->
  zlen (inbuf c) = w / 2 + T - zlen df * i -> (0 < zlen df -> w / 2 - i <= zlen (inbuf c)) ->
  (m = [] -> zlen (inbuf c) < w / 2) ->
  exists d df' sil' dur' k', studyLoop X f e c m true df sil dur k = Some (d, df', sil', dur', k') /\
    kept c d /\ zlen df' = (T + zlen m) / i + 1 /\ zlen sil' = zlen df'.
Proof using Hi Hw Hons.
  pose proof half_ok as Hh. assert (Hdm : w / 2 < w) by (apply Z.div_lt; lia).
  revert T. intros T f. revert T. induction f as [|f IH]; intros T c m df sil dur k Hf Ha Hin HT Hsl Hlen Hpos Hnil; [lia|]. cbn [studyLoop].
  destruct (Z.eqb_spec (zlen m) 0) as [E|E].
  - apply zlen_0 in E. specialize (Hnil E). subst m. exists c, df, sil, dur, k. rewrite (@zlen_nil A), Z.add_0_r. split; [done|]. split; [apply kept_refl|].
    split; [|done]. pose proof (zlen_nonneg df).
    assert (T < zlen df * i) by lia. assert (0 < zlen df) by nia. specialize (Hpos ltac:(lia)).
    assert (T / i < zlen df) by (apply Z.div_lt_upper_bound; lia).
    assert (zlen df - 1 <= T / i) by (apply Z.div_le_lower_bound; lia). lia.
  - pose proof (zlen_nonneg m). cbv zeta. set (n := Z.min (inCap c - zlen (inbuf c)) (zlen m)).
    change (set_in c (inbuf c ++ firstn_z n m) (inCount c)) with (plus c (firstn_z n m)).
    destruct (chunks_ok true (Datatypes.S (Z.to_nat (zlen (inbuf (plus c (firstn_z n m)))))) (plus c (firstn_z n m)) df sil dur k ltac:(lia) Ha)
      as (d & df' & sil' & dur' & k' & q & Ec & K & Q0 & Hdf & Hsil & Hind & Hl & Hlt & Hge).
    rewrite Ec. change (Some ?x ≫= ?f) with (f x). cbv beta iota.
    assert (El : zlen (inbuf (plus c (firstn_z n m))) = zlen (inbuf c) + n).
    { unfold plus. cbn. rewrite zlen_app, zlen_firstn. lia. }
    assert (K' : kept c d) by (destruct K; by constructor).
    destruct (IH (T + n) d (skipn_z n m) df' sil' dur' k') as (d2 & df2 & sil2 & dur2 & k2 & E2 & K2 & Hdf2 & Hsil2).
    { rewrite zlen_skipn. lia. }
    { rewrite (kp_acc _ _ K'). lia. }
    { rewrite (kp_inCap _ _ K'). lia. }
    { lia. }
    { lia. }
    { rewrite Hl, El, Hdf. lia. }
    { intros _. destruct (Z.eq_dec q 0) as [->|]; [|apply Hge; lia]. destruct (Z.eq_dec (zlen df) 0) as [E0|]; [|specialize (Hpos ltac:(pose proof (zlen_nonneg df); lia)); lia].
      rewrite E0 in *. lia. }
    { done. }
    exists d2, df2, sil2, dur2, k2. split; [done|]. split; [by eapply kept_trans|]. split; [|done].
    rewrite Hdf2, zlen_skipn. f_equal. f_equal. lia.
Qed.
(** A last block that fits is analysed like everything before it. *)
Lemma loop_last f c m df sil dur k : w <= zlen (acc c) -> m <> [] -> zlen (inbuf c) + zlen m <= inCap c -> (1 < f)%nat ->
  exists r, studyLoop X f e c m true df sil dur k = Some r /\ exists g, studyChunks X g e (plus c m) true df sil dur k = Some r.
Proof using Hi Hw Hons.
  intros Ha Hm Hfit Hf. destruct f as [|[|f]]; [lia|lia|]. cbn [studyLoop].
  assert (zlen m <> 0) by (intros E; by apply zlen_0 in E). rewrite (proj2 (Z.eqb_neq _ _)) by done. cbv zeta.
  replace (Z.min (inCap c - zlen (inbuf c)) (zlen m)) with (zlen m) by lia.
  assert (E1 : firstn_z (zlen m) m = m) by (unfold firstn_z, zlen; rewrite Nat2Z.id; by apply take_ge).
  assert (E2 : zlen (skipn_z (zlen m) m) = 0) by (rewrite zlen_skipn; pose proof (zlen_nonneg m); lia).
  rewrite E1. change (set_in c (inbuf c ++ m) (inCount c)) with (plus c m).
  destruct (chunks_ok true (Datatypes.S (Z.to_nat (zlen (inbuf (plus c m))))) (plus c m) df sil dur k ltac:(lia) Ha)
    as (d & df' & sil' & dur' & k' & q & Ec & _).
  rewrite Ec. change (Some ?x ≫= ?f) with (f x). cbv beta iota. rewrite E2, (proj2 (Z.eqb_eq _ _)) by done.
  exists (d, df', sil', dur', k'). split; [done|]. by eexists.
Qed.
End Study.
