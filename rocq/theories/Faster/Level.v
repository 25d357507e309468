(** Channels in step: what the streaming core of the R2 engine does to the amounts in its
    buffers depends on amounts only, never on the samples. *)
From stdpp Require Import prelude.
From Coq Require Import ZArith QArith Qround Lia Lqa.
From Verif Require Import Base.Arith Faster.Model Faster.Core Faster.Runs.
Local Open Scope Z_scope.

Section Level.
Context {A S R K : Type} (D : dsp A S R K).
Notation chan := (channel A S R).
Implicit Types (c d e : chan).
Context (P : params).
(** Two resamplers that will give equally much for equally much, if any are used. *)
Context (levR : R -> R -> Prop).
Context (HlevR : after P = true \/ before P = true -> forall r r' x x' n q f, levR r r' -> zlen x = zlen x' ->
  zlen (fst (resample D r x n q f)) = zlen (fst (resample D r' x' n q f)) /\
  levR (snd (resample D r x n q f)) (snd (resample D r' x' n q f))).

Record lev c c' : Prop := Lev {
  lv_in : zlen (inbuf c) = zlen (inbuf c'); lv_inCap : inCap c = inCap c';
  lv_out : zlen (outbuf c) = zlen (outbuf c'); lv_outCap : outCap c = outCap c';
  lv_flt : zlen (fltbuf c) = zlen (fltbuf c'); lv_acc : zlen (acc c) = zlen (acc c'); lv_wacc : zlen (wacc c) = zlen (wacc c');
  lv_fill : fill c = fill c'; lv_rsm : levR (rsm c) (rsm c'); lv_rb : rbSize c = rbSize c';
  lv_chunk : chunkCount c = chunkCount c'; lv_inCount : inCount c = inCount c'; lv_size : inputSize c = inputSize c';
  lv_outCount : outCount c = outCount c'; lv_drain : draining c = draining c'; lv_compl : outputComplete c = outputComplete c'
}.

(** Both undefined, or both defined and related. *)
Definition rel {T} (Q : T -> T -> Prop) (x y : option T) : Prop :=
  match x, y with Some a, Some b => Q a b | None, None => True | _, _ => False end.
Lemma rel_bind {T U} (Q : T -> T -> Prop) (Q' : U -> U -> Prop) x y (f g : T -> option U) :
  rel Q x y -> (forall a b, Q a b -> rel Q' (f a) (g b)) -> rel Q' (x ≫= f) (y ≫= g).
Proof. destruct x, y; cbn; try done. intros H Hf. by apply Hf. Qed.
Definition same {T} (x y : list T) : Prop := zlen x = zlen y.
Definition flag {T} (Q : T -> T -> Prop) (x y : bool * T) : Prop := fst x = fst y /\ Q (snd x) (snd y).

Lemma same_app {T} (a b a' b' : list T) : same a a' -> same b b' -> same (a ++ b) (a' ++ b').
Proof. unfold same. rewrite !zlen_app. lia. Qed.
Lemma same_first {T} n (a a' : list T) : same a a' -> same (firstn_z n a) (firstn_z n a').
Proof. unfold same. rewrite !zlen_firstn. by intros ->. Qed.
Lemma same_skip {T} n (a a' : list T) : same a a' -> same (skipn_z n a) (skipn_z n a').
Proof. unfold same. rewrite !zlen_skipn. by intros ->. Qed.
Lemma same_pushed (a a' b b' : list A) cap : same a a' -> same b b' -> same (pushed a b cap) (pushed a' b' cap).
Proof. intros H1 H2. unfold pushed. apply same_app; [done|]. rewrite H1. by apply same_first. Qed.

Lemma lev_zip f (a a' b b' : list A) n : same a a' -> same b b' -> rel same (v_zip f a b n) (v_zip f a' b' n).
Proof.
  intros H1 H2. unfold v_zip. rewrite H1, H2. destruct (_ && _) eqn:E; [|done]. cbn.
  apply andb_true_iff in E as [E _]. apply andb_true_iff in E as [E _].
  apply same_app; [|by apply same_skip]. unfold same, zlen. rewrite !zip_with_length.
  pose proof (same_first n _ _ H1) as G1. pose proof (same_first n _ _ H2) as G2. unfold same, zlen in *. lia.
Qed.
Lemma lev_shift (a a' : list A) n si : same a a' -> rel same (v_shift D a n si) (v_shift D a' n si).
Proof.
  intros H. unfold v_shift. rewrite H. destruct (_ && _); [|done]. cbn.
  apply same_app; [by apply same_skip, same_first|]. apply same_app; [done|by apply same_skip].
Qed.
Lemma lev_write c c' x x' th : lev c c' -> same x x' -> lev (writeOutput P c x th) (writeOutput P c' x' th).
Proof.
  intros [] Hx. unfold writeOutput. rewrite <- lv_outCount0, <- Hx.
  assert (Hp : forall y y' : list A, same y y' -> same (pushed (outbuf c) y (outCap c)) (pushed (outbuf c') y' (outCap c'))).
  { intros. rewrite <- lv_outCap0. by apply same_pushed. }
  destruct (_ <? _).
  - match goal with |- context [firstn_z ?n x] => set (q := n) end. pose proof (Hp _ _ (same_first q _ _ Hx)) as H.
    constructor; cbn; try done. rewrite H, <- lv_out0. done.
  - destruct (_ <=? _); constructor; cbn; try done. by apply Hp, same_skip.
Qed.
Lemma lev_writeChunk c c' si last : lev c c' -> rel lev (writeChunk D P c si last) (writeChunk D P c' si last).
Proof.
  intros HL. pose proof HL as []. unfold writeChunk. rewrite <- lv_size0, <- lv_rb0, <- lv_fill0, <- lv_drain0.
  apply (rel_bind same); [by apply lev_zip|]. intros a b Hab. cbv zeta.
  set (th := match inputSize c with Some n => _ | None => _ end).
  match goal with |- rel lev (_ ≫= (fun a1 => _ ≫= (fun w1 => Some (if _ then set_acc ?u _ _ _ else _))))
    (_ ≫= (fun a2 => _ ≫= (fun w2 => Some (if _ then set_acc ?v _ _ _ else _)))) => assert (Hc : lev u v) end.
  { destruct (after P) eqn:Ea; [|by apply lev_write; [|by apply same_first]].
    set (rb := Z.max _ _). destruct (HlevR (or_introl eq_refl) (rsm c) (rsm c') (firstn_z si a) (firstn_z si b) rb (/ pitchScale P) last lv_rsm0 (same_first si _ _ Hab)) as [H1 H2].
    destruct (resample D (rsm c) _ _ _ _) as [o r], (resample D (rsm c') _ _ _ _) as [o' r']. cbn [fst snd] in *.
    apply lev_write; [|done]. by constructor. }
  apply (rel_bind same); [by apply lev_shift|]. intros a2 b2 H2.
  apply (rel_bind same); [by apply lev_shift|]. intros a3 b3 H3. destruct Hc.
  destruct (si <? fill c); [|destruct (draining c)]; constructor; cbn; done.
Qed.
Lemma lev_synth c c' p si r : sane D P -> lev c c' -> rel lev (synthesise D P c p si r) (synthesise D P c' p si r).
Proof.
  intros HP []. unfold synthesise.
  pose proof (sane_modify _ _ HP (spec c) (fltbuf c) p r si) as H1. pose proof (sane_modify _ _ HP (spec c') (fltbuf c') p r si) as H2.
  destruct (modify D (spec c) _ _ _ _) as [f s], (modify D (spec c') _ _ _ _) as [f' s']. cbn [fst] in *.
  assert (Hf : same f f') by (unfold same; congruence).
  apply (rel_bind same); [by apply lev_zip|]. intros a b Hab. apply (rel_bind same); [by apply lev_zip|]. intros w w' Hww.
  constructor; cbn; try done; [|congruence]. destruct (smoothing P); [|done]. apply same_app; [done|by apply same_skip].
Qed.
Lemma lev_chunkFor c c' p si r : sane D P -> lev c c' ->
  rel (flag lev) (processChunkForChannel D P c p si r) (processChunkForChannel D P c' p si r).
Proof.
  intros HP HL. unfold processChunkForChannel. rewrite <- (lv_drain _ _ HL).
  apply (rel_bind lev); [destruct (draining c); [done|by apply lev_synth]|]. intros d d' Hd.
  assert (E : drainShift P d' si = drainShift P d si).
  { unfold drainShift. destruct Hd. rewrite lv_drain0, lv_fill0. done. }
  rewrite E. destruct (drainShift P d si) as [[si' last]|]; [|done].
  set (rq := if Qeq_bool _ _ then _ else _). cbv zeta.
  apply (rel_bind lev); [|done]. apply lev_writeChunk. pose proof Hd as []. rewrite <- lv_outCap0, <- lv_out0.
  destruct (_ <? _); [|done]. constructor; cbn; first [done|congruence].
Qed.
Lemma lev_set_flt c c' f f' s s' : lev c c' -> same f f' -> lev (set_flt c f s) (set_flt c' f' s').
Proof. intros [] H. by constructor. Qed.
Lemma lev_set_chunk c c' n n' : lev c c' -> n = n' -> lev (set_chunk c n) (set_chunk c' n').
Proof. intros [] ->. by constructor. Qed.
Lemma lev_pieces p si bit : sane D P -> forall f c c' flt flt' i r l l', l = l' -> lev c c' -> same flt flt' ->
  rel (flag lev) (pieces D f P c flt p si i bit r l) (pieces D f P c' flt' p si i bit r l').
Proof.
  intros HP. induction f as [|f IH]; intros c c' flt flt' i r l l' <- HL Hf; [done|]. cbn [pieces].
  destruct (i <? si); [|done]. cbv zeta. apply (rel_bind (flag lev)); [by apply lev_chunkFor; [|apply lev_set_flt]|].
  intros [b d] [b' d'] [Hb Hd]. cbn in *. by apply IH.
Qed.
Lemma lev_chunk c c' : sane D P -> lev c c' -> rel (flag lev) (processChunk D P c) (processChunk D P c').
Proof.
  intros HP HL. unfold processChunk. rewrite <- (lv_drain _ _ HL). apply (rel_bind lev).
  { destruct (draining c); [done|]. destruct HL. unfold peekChunk. rewrite <- lv_in0, <- lv_flt0.
    destruct (_ <=? _); [|done]. constructor; cbn; try done; [by apply same_skip|].
    apply same_app; [by apply same_first|by apply same_skip]. }
  intros d d' Hd.
  apply (rel_bind (fun x y => fst x = fst y /\ lev (snd x) (snd y))).
  { unfold getIncrements. rewrite <- (lv_chunk _ _ Hd). destruct (_ && _); [by split|]. cbv zeta.
    apply (rel_bind eq); [by destruct (getZ _ _)|]. intros q ? <-. cbn [rel].
    split; [done|]. cbn [snd]. by apply lev_set_chunk. }
  intros [[[[p si] r] g] e] [[[[p' si'] r'] g'] e'] [[= <- <- <- <-] He]. cbn [snd] in He.
  pose proof (sane_analyse _ _ HP (spec e) (fltbuf e)) as H1. pose proof (sane_analyse _ _ HP (spec e') (fltbuf e')) as H2.
  destruct (analyse D (spec e) _) as [f s], (analyse D (spec e') _) as [f' s']. cbn [fst] in *.
  assert (Hf : same f f') by (unfold same; destruct He; congruence). cbv zeta.
  assert (He' : lev (set_flt e f s) (set_flt e' f' s')) by (by apply lev_set_flt).
  apply (rel_bind (flag lev)).
  { destruct (_ <=? _); [by apply lev_chunkFor|by apply lev_pieces]. }
  intros [b h] [b' h'] [Hb Hh]. cbn in *. split; [done|]. apply lev_set_chunk; [done|]. by rewrite (lv_chunk _ _ Hh).
Qed.
Lemma lev_test c c' : lev c c' -> flag lev (testInbufReadSpace P c) (testInbufReadSpace P c').
Proof.
  intros HL. pose proof HL as []. unfold testInbufReadSpace. rewrite <- lv_in0, <- lv_drain0, <- lv_size0.
  destruct (_ && _); [|done]. destruct (inputSize c) eqn:Es; [|done]. destruct (_ =? _); [done|]. destruct (_ <? _); [|done].
  split; [done|]. constructor; cbn; first [done|congruence].
Qed.
Lemma lev_chunks : sane D P -> forall f c c', lev c c' -> rel lev (processChunks D f P c) (processChunks D f P c').
Proof.
  intros HP. induction f as [|f IH]; intros c c' HL; [done|]. cbn [processChunks].
  pose proof (lev_test c c' HL) as [E H]. destruct (testInbufReadSpace P c) as [b d], (testInbufReadSpace P c') as [b' d']. cbn in E, H. subst b'.
  destruct b; [|done]. apply (rel_bind (flag lev)); [by apply lev_chunk|]. intros [l e] [l' e'] [El He]. cbn in El, He. subst l'.
  destruct l; [done|by apply IH].
Qed.
Lemma lev_enough c c' : lev c c' -> enough P c = enough P c'.
Proof. intros []. unfold enough. congruence. Qed.
Lemma lev_consume c c' x x' ms final : lev c c' -> same x x' ->
  fst (consumeChannel D P c x ms final) = fst (consumeChannel D P c' x' ms final) /\
  lev (snd (consumeChannel D P c x ms final)) (snd (consumeChannel D P c' x' ms final)).
Proof.
  intros HL Hx. pose proof HL as []. unfold consumeChannel. rewrite <- lv_in0, <- lv_inCap0, <- Hx, <- lv_rb0. cbv zeta.
  destruct (before P) eqn:Eb.
  - set (sh := _ <? cceil _). set (sm := if sh then _ else zlen x). destruct (sh && (sm =? 0)); [done|].
    set (sm' := if _ && _ then inCap c else sm). set (rb := Z.max _ _).
    destruct (HlevR (or_intror eq_refl) (rsm c) (rsm c') (firstn_z sm' x) (firstn_z sm' x') rb (/ pitchScale P) (final && negb sh) lv_rsm0 (same_first _ _ _ Hx)) as [H1 H2].
    destruct (resample D (rsm c) _ _ _ _) as [o r], (resample D (rsm c') _ _ _ _) as [o' r']. cbn [fst snd] in *.
    rewrite <- H1. destruct (inCap c - zlen (inbuf c) <? zlen o); cbn [fst snd]; (split; [done|]); constructor; cbn; try done; [|congruence].
    by apply same_pushed.
  - cbn [fst snd]. split; [done|]. constructor; cbn; try done; [|congruence].
    apply same_app; [done|by apply same_first].
Qed.
Lemma lev_feed ms final : sane D P -> forall f c c' x x', lev c c' -> same x x' ->
  rel lev (feed D f P c x ms final) (feed D f P c' x' ms final).
Proof.
  intros HP. induction f as [|f IH]; intros c c' x x' HL Hx; [done|]. cbn [feed].
  destruct (lev_consume c c' x x' ms final HL Hx) as [E H].
  destruct (consumeChannel D P c x ms final) as [n d], (consumeChannel D P c' x' ms final) as [n' d']. cbn [fst snd] in *. subst n'.
  pose proof (same_skip n _ _ Hx) as Hr. rewrite <- Hr. cbv zeta.
  assert (Hd : lev (if (zlen (skipn_z n x) =? 0) && final then set_size d (Some (inCount d)) else d)
                   (if (zlen (skipn_z n x) =? 0) && final then set_size d' (Some (inCount d')) else d')).
  { destruct (_ && _); [|done]. destruct H. constructor; cbn; first [done|congruence]. }
  rewrite (lev_enough _ _ Hd). apply (rel_bind lev); [by apply lev_chunks|]. intros e e' He.
  destruct (_ =? _); [done|by apply IH].
Qed.
Lemma lev_process c c' x x' ms final : sane D P -> lev c c' -> same x x' ->
  rel lev (process D P c x ms final) (process D P c' x' ms final).
Proof. intros HP HL Hx. unfold process. rewrite Hx. by apply lev_feed. Qed.
Lemma lev_refl c : levR (rsm c) (rsm c) -> lev c c.
Proof. by constructor. Qed.
Lemma lev_take c c' n : lev c c' ->
  lev (set_out c (skipn_z n (outbuf c)) (outCount c)) (set_out c' (skipn_z n (outbuf c')) (outCount c')).
Proof. intros []. constructor; cbn; try done. by apply same_skip. Qed.
End Level.
