(** How the signal is divided over the calls of study. *)
From stdpp Require Import prelude.
From Coq Require Import ZArith QArith Qround Lia Lqa.
From Verif Require Import Base.Arith MathMisc.Model Faster.Sizes Faster.Spec Faster.SizesProofs Faster.Model Faster.Core.
From Verif Require Import Offline.Model Offline.Spec Offline.Study Offline.Fresh Offline.Length Offline.Whole.
Local Open Scope Z_scope.

(** The signal of each of [n] channels in a list of study calls. *)
Fixpoint heard {A} (n : nat) (l : list (call (A := A))) : list (list A) :=
  match l with
  | [] => replicate n []
  | Study bs _ :: l => zip_with (++) bs (heard n l)
  | _ :: l => heard n l
  end.

(** ** No window is shorter than 256 samples *)
Lemma while_up (f : nat) : forall x y, 0 <= x -> while_loop f (fun w => w <? 8192) (fun w => w * 2) x = Some y -> x <= y.
Proof.
  induction f as [|f IH]; intros x y Hx E; [done|]. cbn [while_loop] in E. destruct (x <? 8192); [|injection E as <-; lia].
  apply IH in E; lia.
Qed.
Lemma while_down (f : nat) : forall x y, 64 <= x -> while_loop f (fun i => 512 <=? i) (fun i => i / 2) x = Some y -> 64 <= y.
Proof.
  induction f as [|f IH]; intros x y Hx E; [done|]. cbn [while_loop] in E. destruct (Z.leb_spec 512 x); [|injection E as <-; lia].
  apply IH in E; [done|]. apply Z.div_le_lower_bound; lia.
Qed.
Lemma window_floor (c : config) s : Sizes.realtime c = false -> 256 <= base c -> (1 <= inject_Z (2 ^ 40) * Sizes.timeRatio c)%Q -> Sizes.pitchScale c = 1%Q ->
  calculateSizes c = Some s -> 256 <= Sizes.window s.
Proof.
  intros Hrt Hb Hlow Hp E. unfold calculateSizes in E. rewrite Hrt, Hp in E. change (ltQ 0 1) with true in E. cbv iota in E.
  assert (Ht : (0 < Sizes.timeRatio c)%Q).
  { destruct (Qlt_le_dec 0 (Sizes.timeRatio c)) as [|H]; [done|]. exfalso. change (inject_Z (2 ^ 40)) with (1099511627776 # 1)%Q in *. lra. }
  rewrite (proj2 (ltQ_true _ _) Ht) in E. cbv zeta in E. cbn [Sizes.realtime Sizes.threaded Sizes.highQuality Sizes.highConsistency Sizes.smoothing
    Sizes.base Sizes.rateMultiple Sizes.timeRatio Sizes.pitchScale Sizes.expected Sizes.maxProcess] in E.
  set (r := (Sizes.timeRatio c * 1)%Q) in *. assert (Hr : (r == Sizes.timeRatio c)%Q) by (unfold r; ring).
  match type of E with (?x ≫= _) = _ => destruct x as [[inc win]|] eqn:E1; [|discriminate] end.
  change (Some ?x ≫= ?f) with (f x) in E. cbv beta iota in E.
  match type of E with (?x ≫= _) = _ => destruct x as [inc'|] eqn:E2; [|discriminate] end.
  change (Some ?x ≫= ?f) with (f x) in E. cbv beta zeta in E. injection E as <-. cbn [Sizes.window].
  assert (Hw : 256 <= win); [|destruct (Sizes.smoothing c); lia]. clear E2 inc'.
  destruct (ltQ r 1) eqn:Er.
  - apply ltQ_true in Er. unfold sizes_off_below in E1. cbn [Sizes.base] in E1.
    match type of E1 with (?x ≫= _) = _ => destruct x as [i|] eqn:E2; [|discriminate] end.
    change (Some ?x ≫= ?f) with (f x) in E1. cbv beta zeta in E1.
    assert (Hi : 64 <= i) by (eapply while_down; [|exact E2]; apply Z.div_le_lower_bound; lia).
    destruct (Z.ltb_spec (Qfloor (inject_Z i * r)) 1) as [Hf|Hf]; [|injection E1 as <- <-; lia].
    assert (Hir : (inject_Z i * r < 1)%Q).
    { pose proof (Qlt_floor (inject_Z i * r)) as H. eapply Qlt_le_trans; [exact H|]. change 1%Q with (inject_Z 1). rewrite <- Zle_Qle. lia. }
    assert (H1r : (inject_Z i <= 1 / r)%Q) by (apply Qle_shift_div_l; [rewrite Hr; done|lra]).
    destruct (ceil_bounds (1 / r)) as [H1 H2].
    assert (Hc : 64 <= cceil (1 / r)).
    { rewrite Zle_Qle. eapply Qle_trans; [|exact H1]. eapply Qle_trans; [|exact H1r]. rewrite <- Zle_Qle. done. }
    destruct (roundUp_pow2 (cceil (1 / r))) as (w & Ew & _ & Hvw).
    { assert (1 / r <= inject_Z (2 ^ 40))%Q by (apply Qle_shift_div_r; [rewrite Hr; done|rewrite Hr; lra]).
      split; [lia|]. assert (cceil (1 / r) <= 2 ^ 40) by (apply Q_lt_Z; lra). etransitivity; [eassumption|]. vm_compute. discriminate. }
    rewrite Ew in E1. injection E1 as <- <-. lia.
  - unfold sizes_off_above in E1. cbn [Sizes.base] in E1.
    match type of E1 with (?x ≫= _) = _ => destruct x as [[o1 i1]|] eqn:E2; [|discriminate] end.
    change (Some ?x ≫= ?f) with (f x) in E1. cbv beta iota in E1.
    match type of E1 with (?x ≫= _) = _ => destruct x as [[o2 i2]|] eqn:E3; [|discriminate] end.
    change (Some ?x ≫= ?f) with (f x) in E1. cbv beta iota in E1.
    match type of E1 with (?x ≫= _) = _ => destruct x as [w|] eqn:E4; [|discriminate] end.
    change (Some ?x ≫= ?f) with (f x) in E1. cbv beta zeta in E1.
    match type of E1 with (?x ≫= _) = _ => destruct x as [w2|] eqn:E5; [|discriminate] end.
    change (Some ?x ≫= ?f) with (f x) in E1. cbv beta in E1. injection E1 as <- <-.
    destruct (ltQ 5 r); [|injection E5 as <-; lia]. apply while_up in E5; lia.
Qed.
Lemma fresh_window {A S R K KS} (D : dsp A S R K) (e : engine A S R KS) c : fresh D e c -> 256 <= Sizes.window (sz e).
Proof.
  intros []. destruct (baseSize_valid (rate e) (short (opts e)) (long (opts e)) fr_rate) as (b & Eb & _ & Hb & _).
  rewrite fr_base in Eb. injection Eb as <-.
  apply (window_floor (configOf e) (sz e)); try done. cbn. lia.
Qed.

Section Partition.
Context {A S R K KS : Type} (D : dsp A S R K) (X : outside A S R KS).
Notation chan := (channel A S R).
Notation engine := (engine A S R KS).
Implicit Types (e : engine) (c d : chan).
Notation win e := (Sizes.window (sz e)).
Notation incr e := (Sizes.increment (sz e)).
Context (Hons : forall k a, zlen (fst (fst (fst (onset X k a)))) = zlen a).
Context (Hmix : forall x, mix X [x] = x).

(** ** The mixdown *)
Lemma heads_cons (bs ts : list (list A)) : Forall (fun b => b <> []) bs -> omap head (zip_with (++) bs ts) = take (length ts) (omap head bs).
Proof.
  revert ts. induction bs as [|b bs IH]; intros ts H; [by destruct (length ts)|].
  apply Forall_cons in H as [Hb H]. destruct ts as [|t ts]; [done|]. destruct b as [|x b]; [done|]. cbn [zip_with app omap list_omap head length take].
  f_equal. by apply IH.
Qed.
Lemma tails_app (bs ts : list (list A)) : Forall (fun b => b <> []) bs -> tail <$> zip_with (++) bs ts = zip_with (++) (tail <$> bs) ts.
Proof.
  revert ts. induction bs as [|b bs IH]; intros ts H; [done|]. apply Forall_cons in H as [Hb H]. destruct ts as [|t ts]; [done|].
  destruct b as [|x b]; [done|]. cbn. f_equal. by apply IH.
Qed.
Lemma columns_app (bs ts : list (list A)) : length bs = length ts -> forall n, Forall (fun b => length b = n) bs -> forall m,
  columns (n + m) (zip_with (++) bs ts) = columns n bs ++ columns m ts.
Proof.
  intros Hl n. revert bs Hl. induction n as [|n IH]; intros bs Hl H m.
  - cbn [Nat.add columns app]. f_equal. revert ts Hl. induction H as [|b bs Hb H IH]; intros ts Hl; [by destruct ts|].
    destruct ts as [|t ts]; [done|]. destruct b; [|done]. cbn. f_equal. apply IH. by injection Hl.
  - assert (Hne : Forall (fun b => b <> []) bs) by (eapply Forall_impl; [exact H|]; intros [|] ?; done).
    cbn [Nat.add columns app]. f_equal.
    + rewrite heads_cons by done. apply take_ge. rewrite <- Hl.
      clear -Hne. induction Hne as [|b bs Hb H IH]; [done|]. destruct b; [done|]. cbn in *. lia.
    + rewrite tails_app by done. rewrite IH; [done|by rewrite fmap_length|].
      rewrite Forall_fmap. eapply Forall_impl; [exact H|]. intros [|x b] Hb; [done|]. cbn in *. lia.
Qed.
(** The mixdown as the last call makes it. *)
Definition mixed (bs : list (list A)) : list A := mix X <$> columns (length (default [] (head bs))) bs.
Lemma single (b : list A) : mix X <$> columns (length b) [b] = b.
Proof using Hmix. induction b as [|x b IH]; [done|]. cbn [length columns omap list_omap head fmap list_fmap tail]. f_equal; [apply Hmix|exact IH]. Qed.
Lemma mixdown_mixed e bs b final : block (nch e) b bs -> (1 <= nch e)%nat -> mixdown X e bs final = mixed bs.
Proof using Hmix.
  intros [Hl Hall] Hn. unfold mixdown, mixed. destruct (_ || final) eqn:E; [done|]. apply orb_false_iff in E as [E _].
  assert (En : nch e = 1%nat) by lia. rewrite En in Hl. destruct bs as [|x [|]]; try done. cbn [head default]. change (default [] (Some x)) with x. by rewrite single.
Qed.
Lemma mixed_app n b b' bs ts : block n b bs -> block n b' ts -> (1 <= n)%nat -> mixed (zip_with (++) bs ts) = mixed bs ++ mixed ts.
Proof.
  intros [Hl Hall] [Hl' Hall'] Hn. unfold mixed. destruct bs as [|x bs]; [cbn in Hl; lia|]. destruct ts as [|y ts]; [cbn in Hl'; lia|].
  change (default [] (head (zip_with app (x :: bs) (y :: ts)))) with (x ++ y). rewrite app_length, columns_app, fmap_app; [done|congruence|].
  change (default [] (head (x :: bs))) with x. apply Forall_cons in Hall as [Hx Hall].
  constructor; [done|]. eapply Forall_impl; [exact Hall|]. intros z Hz. unfold zlen in *. lia.
Qed.
Lemma heard_block n len l : studies n len l -> block n len (heard (A := A) n l).
Proof.
  induction 1 as [|b bs len l [Hl Hall] Hs [IHl IHall]].
  - split; [apply replicate_length|]. by apply Forall_replicate.
  - split; [cbn; rewrite zip_with_length; lia|]. cbn [heard]. clear Hs. revert IHall. generalize (heard n l) as ts. intros ts Ht.
    clear Hl IHl. revert ts Ht. induction Hall as [|x bs Hx Hall IH]; intros ts Ht; [constructor|]. destruct ts as [|y ts]; [constructor|].
    apply Forall_cons in Ht as [Hy Ht]. cbn [zip_with]. constructor; [rewrite zlen_app; lia|]. by apply IH.
Qed.

(** ** The study pass *)
Lemma chunks_sz e e' : sz e = sz e' -> forall f c final df sil dur k, studyChunks X f e c final df sil dur k = studyChunks X f e' c final df sil dur k.
Proof.
  intros Hs. induction f as [|f IH]; intros c final df sil dur k; [done|]. cbn [studyChunks]. rewrite Hs. destruct (_ || _); [|done]. cbv zeta.
  destruct (_ <=? _); [|done]. destruct (onset X k _) as [[[a x] s] k']. apply IH.
Qed.
Definition same_but_study e0 e : Prop := forall df sil n k cs,
  with_study (with_mode e Studying) df sil n k cs = with_study (with_mode e0 Studying) df sil n k cs.

(** Having heard [M], it is as if all of that were still to be analysed. *)
Record resumes e0 c0 e (M : list A) : Prop := Resumes {
  re_same : same_but_study e0 e;
  re_resume : exists c, chans e = c :: replicate (pred (nch e0)) c0 /\ forall m' final g r,
    studyChunks X g e0 (plus c m') final (dfs e) (silence e) (inDuration e) (curves e) = Some r ->
    exists g', studyChunks X g' e0 (plus c0 (M ++ m')) final (dfs e0) (silence e0) (inDuration e0) (curves e0) = Some r
}.

Lemma study_resumes e0 c0 e T M b bs e' : fresh D e0 c0 -> studied e0 c0 e T -> resumes e0 c0 e M -> block (nch e0) b bs ->
  study X e bs false = Some e' -> resumes e0 c0 e' (M ++ mixed bs).
Proof using Hons Hmix.
  intros HF HS [Hsame (c & Hch & Hres)] Hb E. pose proof (fresh_fitting D e0 c0 HF) as HT. pose proof HS as [Hst Hm HT0 Hsil (c1 & Hch1 & Hk & Hlt & Hlen & Hge)].
  rewrite Hch in Hch1. injection Hch1 as <-.
  pose proof HT as []. pose proof (fr_shaped _ _ _ HF) as Hsh. pose proof (shaped_kept _ _ _ Hk Hsh) as [].
  assert (Hmd : mixdown X (with_mode e Studying) bs false = mixed bs).
  { apply mixdown_mixed with (b := b); cbn; rewrite (sc_nch _ _ Hst); [done|apply HF]. }
  unfold study in E. destruct Hst.
  assert (G : match chans (with_mode e Studying) with
      | [] => Some (with_mode e Studying)
      | c :: cs =>
        let m := mixdown X (with_mode e Studying) bs false in
        x ← studyLoop X (Datatypes.S (Z.to_nat (zlen m))) (with_mode e Studying) c m false (dfs e) (silence e) (inDuration e) (curves e);
        let '(c, df, sil, dur, k) := x in Some (with_study (with_mode e Studying) df sil dur k (c :: cs))
      end = Some e').
  { destruct Hm as [Em|Em]; rewrite Em in E; exact E. }
  clear E. change (chans (with_mode e Studying)) with (chans e) in G. rewrite Hch, Hmd in G. cbv zeta in G.
  destruct (loop_more X (with_mode e Studying)) with (f := Datatypes.S (Z.to_nat (zlen (mixed bs))))
      (c := c) (m := mixed bs) (df := dfs e) (sil := silence e) (dur := inDuration e) (k := curves e)
      as (d & df' & sil' & dur' & k' & n & E & Hk' & Hn & Hdf & Hsl & Hl & Hl2 & Hg & Hre); cbn [with_mode sz]; rewrite ?sc_sz; try done; try lia.
  rewrite E in G. change (Some ?x ≫= ?f) with (f x) in G. cbv beta iota in G. injection G as <-.
  constructor.
  - intros ? ? ? ? ?. apply (Hsame df sil n0 k cs).
  - exists d. split; [done|]. cbn [with_study dfs silence inDuration curves]. intros m' final g r Eg.
    rewrite (chunks_sz e0 (with_mode e Studying)) in Eg by done.
    destruct (Hre m' final g r Eg) as [g1 E1]. rewrite (chunks_sz (with_mode e Studying) e0) in E1 by done.
    destruct (Hres (mixed bs ++ m') final g1 r E1) as [g2 E2]. exists g2. by rewrite <- app_assoc.
Qed.
Lemma studies_resume e0 c0 T' l : fresh D e0 c0 -> studies (nch e0) T' l -> forall e T M rs e', studied e0 c0 e T -> resumes e0 c0 e M ->
  steps D X e l = Some (rs, e') -> resumes e0 c0 e' (M ++ mixed (heard (nch e0) l)).
Proof using Hons Hmix.
  intros HF Hl. induction Hl as [|b bs len l Hb Hl IH]; intros e T M rs e' HS HR E.
  - injection E as <- <-. assert (Em : mixed (heard (nch e0) []) = []).
    { cbn [heard]. unfold mixed. by destruct (nch e0). }
    by rewrite Em, app_nil_r.
  - destruct (study_more D X Hons e0 c0 e T b bs HF HS Hb) as (e1 & E1 & HS1). cbn [steps step] in E. unfold quietly in E. rewrite E1 in E.
    change (Some ?x ≫= ?f) with (f x) in E. cbv beta iota in E. change (Some ?x ≫= ?f) with (f x) in E. cbv beta iota in E.
    destruct (steps D X e1 l) as [[rs1 e2]|] eqn:E2; [|discriminate]. change (Some ?x ≫= ?f) with (f x) in E. cbv beta iota in E. injection E as <- <-.
    pose proof (study_resumes e0 c0 e T M b bs e1 HF HS HR Hb E1) as HR1.
    pose proof (IH e1 _ _ _ _ HS1 HR1 E2) as H. cbn [heard]. rewrite (mixed_app (nch e0) b len _ _ Hb (heard_block _ _ _ Hl) (fr_nch _ _ _ HF)).
    by rewrite app_assoc.
Qed.
(** The last call, and what is known then. *)
Lemma last_resumes e0 c0 e T M b bs e' : fresh D e0 c0 -> studied e0 c0 e T -> resumes e0 c0 e M -> block (nch e0) b bs -> 0 < b <= win e0 ->
  study X e bs true = Some e' ->
  exists d df sil dur k g, studyChunks X g e0 (plus c0 (M ++ mixed bs)) true (dfs e0) (silence e0) (inDuration e0) (curves e0) = Some (d, df, sil, dur, k) /\
    e' = with_study (with_mode e0 Studying) df sil
      (if win e0 / 2 <? dur + zlen (inbuf d) then dur + zlen (inbuf d) - win e0 / 2 else dur + zlen (inbuf d)) k (d :: replicate (pred (nch e0)) c0).
Proof using Hons Hmix.
  intros HF HS [Hsame (c & Hch & Hres)] Hb Hb0 E. pose proof (fresh_fitting D e0 c0 HF) as HT. pose proof HS as [Hst Hm HT0 Hsil (c1 & Hch1 & Hk & Hlt & Hlen & Hge)].
  rewrite Hch in Hch1. injection Hch1 as <-.
  pose proof HT as []. pose proof (fr_shaped _ _ _ HF) as Hsh. pose proof (shaped_kept _ _ _ Hk Hsh) as [].
  assert (Hml : zlen (mixdown X (with_mode e Studying) bs true) = b).
  { apply mixdown_len; cbn; rewrite (sc_nch _ _ Hst); [apply HF|done]. }
  assert (Hmd : mixdown X (with_mode e Studying) bs true = mixed bs).
  { apply mixdown_mixed with (b := b); cbn; rewrite (sc_nch _ _ Hst); [done|apply HF]. }
  unfold study in E. destruct Hst.
  assert (G : match chans (with_mode e Studying) with
      | [] => Some (with_mode e Studying)
      | c :: cs =>
        let m := mixdown X (with_mode e Studying) bs true in
        x ← studyLoop X (Datatypes.S (Z.to_nat (zlen m))) (with_mode e Studying) c m true (dfs e) (silence e) (inDuration e) (curves e);
        let '(c, df, sil, dur, k) := x in
        let dur := let dur := dur + zlen (inbuf c) in
                   if win (with_mode e Studying) / 2 <? dur then dur - win (with_mode e Studying) / 2 else dur in
        Some (with_study (with_mode e Studying) df sil dur k (c :: cs))
      end = Some e').
  { destruct Hm as [Em|Em]; rewrite Em in E; exact E. }
  clear E. change (chans (with_mode e Studying)) with (chans e) in G. rewrite Hch, Hmd in G. cbv zeta in G. rewrite Hmd in Hml.
  destruct (loop_last X (with_mode e Studying)) with (f := Datatypes.S (Z.to_nat (zlen (mixed bs))))
      (c := c) (m := mixed bs) (df := dfs e) (sil := silence e) (dur := inDuration e) (k := curves e)
      as ([[[[d df'] sil'] dur'] k'] & E & g & Eg); cbn [with_mode sz]; rewrite ?sc_sz; try done; try lia.
  { intros En. rewrite En, (@zlen_nil A) in Hml. lia. }
  rewrite E in G. change (Some ?x ≫= ?f) with (f x) in G. cbv beta iota in G. injection G as <-.
  rewrite (chunks_sz (with_mode e Studying) e0) in Eg by done.
  destruct (Hres (mixed bs) true g _ Eg) as [g2 E2].
  exists d, df', sil', dur', k', g2. split; [done|]. cbn [with_mode sz]. rewrite sc_sz. apply Hsame.
Qed.

(** Two ways to divide a signal leave the stretcher in the same state. *)
Lemma study_partition e0 c0 l b bs l' b' bs' T T' : fresh D e0 c0 ->
  studies (nch e0) T l -> block (nch e0) b bs -> 0 < b <= win e0 ->
  studies (nch e0) T' l' -> block (nch e0) b' bs' -> 0 < b' <= win e0 ->
  heard (nch e0) (l ++ [Study bs true]) = heard (nch e0) (l' ++ [Study bs' true]) ->
  exists e', steps D X e0 (l ++ [Study bs true]) = Some (replicate (length l) Done ++ [Done], e') /\
    steps D X e0 (l' ++ [Study bs' true]) = Some (replicate (length l') Done ++ [Done], e').
Proof using Hons Hmix.
  intros HF Hl Hb Hb0 Hl' Hb' Hb0' Heq.
  assert (HR0 : resumes e0 c0 e0 []).
  { constructor; [done|]. exists c0. rewrite (fr_chans _ _ _ HF). pose proof (fr_nch _ _ _ HF). destruct (nch e0) eqn:En; [lia|]. split; [done|].
    intros m' final g r Eg. by exists g. }
  assert (Hend : forall l b bs T, studies (nch e0) T l -> block (nch e0) b bs -> mixed (heard (nch e0) (l ++ [Study bs true])) = mixed (heard (nch e0) l) ++ mixed bs).
  { clear -HF. intros l b bs T Hl Hb. pose proof (fr_nch _ _ _ HF) as Hn.
    induction Hl as [|b1 bs1 len l Hb1 Hl IH].
    - cbn [app heard]. assert (Hnil : block (nch e0) 0 (replicate (nch e0) ([] : list A))).
      { split; [apply replicate_length|]. by apply Forall_replicate. }
      rewrite (mixed_app (nch e0) b 0) by done. assert (Em : mixed (replicate (nch e0) []) = []) by (unfold mixed; by destruct (nch e0)).
      by rewrite Em, app_nil_r.
    - cbn [app heard]. assert (Hbl : forall l T, studies (nch e0) T l -> block (nch e0) (T + b) (heard (nch e0) (l ++ [Study bs true]))).
      { clear -Hb. intros l T Hl. induction Hl as [|b1 bs1 len l Hb1 Hl IH].
        - cbn [app heard]. rewrite Z.add_0_l. replace b with (b + 0) by lia. apply (heard_block (nch e0) (b + 0) [Study bs false]). constructor; [done|constructor].
        - cbn [app heard]. destruct Hb1 as [Hl1 Ha1], IH as [Hl2 Ha2]. split; [rewrite zip_with_length; lia|].
          revert Ha2. generalize (heard (nch e0) (l ++ [Study bs true])) as ts. intros ts Ht.
          clear -Ha1 Ht. revert ts Ht. induction Ha1 as [|x ys Hx Hall IH]; intros ts Ht; [constructor|]. destruct ts as [|y ts]; [constructor|].
          apply Forall_cons in Ht as [Hy Ht]. cbn [zip_with]. constructor; [rewrite zlen_app; lia|]. by apply IH. }
      rewrite (mixed_app (nch e0) b1 (len + b)), (mixed_app (nch e0) b1 len), IH, app_assoc; try done; [by apply heard_block|]. by apply Hbl. }
  assert (Hgo : forall l b bs T, studies (nch e0) T l -> block (nch e0) b bs -> 0 < b <= win e0 ->
    exists e' d df sil dur k g, steps D X e0 (l ++ [Study bs true]) = Some (replicate (length l) Done ++ [Done], e') /\
      studyChunks X g e0 (plus c0 (mixed (heard (nch e0) (l ++ [Study bs true])))) true (dfs e0) (silence e0) (inDuration e0) (curves e0) = Some (d, df, sil, dur, k) /\
      e' = with_study (with_mode e0 Studying) df sil
        (if win e0 / 2 <? dur + zlen (inbuf d) then dur + zlen (inbuf d) - win e0 / 2 else dur + zlen (inbuf d)) k (d :: replicate (pred (nch e0)) c0)).
  { clear - HF HR0 Hend Hons Hmix. intros l b bs T Hl Hb Hb0.
    destruct (studies_ok D X Hons e0 c0 T l HF Hl e0 0 (fresh_studied D e0 c0 HF)) as (e1 & E1 & HS1).
    pose proof (studies_resume e0 c0 T l HF Hl e0 0 [] _ _ (fresh_studied D e0 c0 HF) HR0 E1) as HR1. cbn [app] in HR1.
    destruct (study_last D X Hons e0 c0 e1 _ b bs HF HS1 Hb ltac:(lia)) as (e2 & E2 & _).
    destruct (last_resumes e0 c0 e1 _ _ b bs e2 HF HS1 HR1 Hb Hb0 E2) as (d & df & sil & dur & k & g & Eg & He).
    rewrite <- (Hend l b bs T Hl Hb) in Eg. do 7 eexists. split; [|split; [exact Eg|exact He]].
    eapply steps_app; [exact E1|]. cbn [steps step]. unfold quietly. rewrite E2. done. }
  destruct (Hgo l b bs T Hl Hb Hb0) as (e1 & d & df & sil & dur & k & g & E1 & Eg & He).
  destruct (Hgo l' b' bs' T' Hl' Hb' Hb0') as (e1' & d' & df' & sil' & dur' & k' & g' & E1' & Eg' & He').
  rewrite <- Heq in Eg'.
  pose proof (fresh_fitting D e0 c0 HF) as []. pose proof (fr_shaped _ _ _ HF) as [].
  assert (Hacc : forall M, win e0 <= zlen (acc (plus c0 M))) by done.
  apply (chunks_more X e0 ltac:(lia) ltac:(lia) Hons true g (g + g')) in Eg; [|done|lia].
  apply (chunks_more X e0 ltac:(lia) ltac:(lia) Hons true g' (g + g')) in Eg'; [|done|lia].
  rewrite Eg in Eg'. injection Eg' as <- <- <- <- <-. subst e1 e1'. by eexists.
Qed.
End Partition.
