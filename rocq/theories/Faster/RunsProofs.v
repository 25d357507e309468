(** Proofs about call sequences. *)
From stdpp Require Import prelude.
From Coq Require Import ZArith QArith Qround Lia Lqa.
From Verif Require Import Base.Arith Faster.Model Faster.Core Faster.Chunks Faster.Stream Faster.Count Faster.Runs.
Local Open Scope Z_scope.

Section Runs.
Context {A S R K : Type} (D : dsp A S R K).
Notation chan := (channel A S R).
Implicit Types (P : params) (c d e : chan).
Notation sane := (sane D).

Lemma ready_take P c n : ready P c -> ready P (set_out c (skipn_z n (outbuf c)) (outCount c)).
Proof.
  intros [[[] [H1 H2] ? ?] ? ? ? ?]. constructor; try done. constructor; [by constructor| |done|done].
  split; [|done]. cbn. rewrite zlen_skipn. pose proof (zlen_nonneg (outbuf c)). lia.
Qed.

Lemma calls_ok P : sane P -> before P = false -> forall cs c, ready P c ->
  exists out d, calls D P c cs = Some (out, d) /\ ready P d /\ inCap d = inCap c /\ inCount d = inCount c + zlen (inputs cs) /\
    (exists k, 0 <= k /\ inbuf d = skipn_z (k * increment P) (inbuf c ++ inputs cs) /\ k * increment P <= zlen (inbuf c ++ inputs cs) /\
       (0 < k -> window P - increment P <= zlen (inbuf c ++ inputs cs) - k * increment P)) /\
    forall g b c', inv P c' -> sim g (inputs cs ++ b) c c' ->
      exists d', inv P d' /\ sim (g ++ out) b d d' /\ reach D P c' d' /\ inCap d' = inCap c' /\ inCount d' = inCount c'.
Proof.
  intros HP Hb. pose proof (sane_incr _ _ HP) as Hinc.
  induction cs as [|[blk|n] cs IH]; intros c Hr; cbn [calls inputs].
  - exists [], c. split; [done|]. split; [done|]. split; [done|]. split; [rewrite zlen_nil; lia|]. split.
    + exists 0. rewrite app_nil_r. split; [lia|]. split; [done|]. split; [apply zlen_nonneg|lia].
    + intros g b c' Hi Hs. exists c'. rewrite app_nil_r. split; [done|]. split; [done|]. split; [apply reach_refl|done].
  - destruct (feed_ok D P false HP Hb (Datatypes.S (Z.to_nat (zlen blk))) c blk Hr ltac:(lia)) as
      (d & E & Hrd & H1 & H2 & (k & K1 & K2 & K3 & K4) & H3).
    unfold process. rewrite E. change (Some ?x ≫= ?f) with (f x). cbv beta.
    destruct (IH d Hrd) as (out & e & Ee & Hre & I1 & I2 & (k2 & L1 & L2 & L3 & L4) & I3).
    rewrite Ee. exists out, e. split; [done|]. split; [done|]. split; [congruence|]. split; [rewrite zlen_app; lia|]. split.
    + exists (k + k2). split; [lia|].
      assert (Eq : inbuf d ++ inputs cs = skipn_z (k * increment P) (inbuf c ++ blk ++ inputs cs)).
      { rewrite K2, <- skipn_z_app by done. by rewrite <- app_assoc. }
      rewrite Eq, zlen_skipn in *. rewrite !zlen_app in *. pose proof (zlen_nonneg (inputs cs)).
      split; [rewrite L2, skipn_z_add by nia; f_equal; lia|]. split; [nia|].
      intros Hk. destruct (Z.eq_dec k2 0) as [->|]; [|specialize (L4 ltac:(lia)); nia]. specialize (K4 ltac:(lia)). lia.
    + intros g b c' Hi Hs. rewrite <- app_assoc in Hs.
      destruct (H3 g (inputs cs ++ b) c' Hi Hs) as (d' & J1 & J2 & J3 & J4 & J5).
      destruct (I3 g b d' J1 J2) as (e' & ? & ? & ? & ? & ?). exists e'. split; [done|]. split; [done|].
      split; [by eapply reach_trans|]. split; congruence.
  - destruct (IH _ (ready_take P c n Hr)) as (out & e & Ee & Hre & I1 & I2 & I4 & I3). rewrite Ee.
    change (Some ?x ≫= ?f) with (f x). cbv beta iota.
    exists (firstn_z n (outbuf c) ++ out), e. split; [done|]. split; [done|]. split; [done|]. split; [done|]. split; [done|].
    intros g b c' Hi Hs.
    destruct (I3 (g ++ firstn_z n (outbuf c)) b c' Hi) as (e' & ? & Hs' & ? & ? & ?).
    { destruct Hs. constructor; try done. cbn. by rewrite <- app_assoc, firstn_skipn_z. }
    exists e'. rewrite app_assoc. done.
Qed.

Lemma whole_ok P cs last c : sane P -> before P = false -> ready P c ->
  exists out d, wholeOutput D P c cs last = Some (out, d) /\ inv P d /\
    inCount d = inCount c + zlen (inputs cs ++ last) /\ inputSize d = Some (inCount d) /\
    forall cs', inputs cs' = inputs cs -> exists d', wholeOutput D P c cs' last = Some (out, d') /\ inCount d' = inCount d.
Proof.
  intros HP Hb Hr. unfold wholeOutput.
  destruct (calls_ok P HP Hb cs c Hr) as (out & d & E & Hrd & H1 & H2 & _ & H3). rewrite E.
  change (Some ?x ≫= ?f) with (f x). cbv beta iota. unfold process.
  destruct (feed_final_ok D P false HP Hb (Datatypes.S (Z.to_nat (zlen last))) d last Hrd ltac:(lia)) as (e & Ee & Hie & K1 & K2 & K3).
  rewrite Ee. change (Some ?x ≫= ?f) with (f x). cbv beta.
  exists (out ++ outbuf e), e. split; [done|]. split; [done|]. split; [rewrite K1, H2, zlen_app; lia|]. split; [congruence|].
  intros cs' Hcs.
  destruct (calls_ok P HP Hb cs' c Hr) as (out2 & d2 & E2 & Hrd2 & H12 & H22 & _ & H32). rewrite E2.
  change (Some ?x ≫= ?f) with (f x). cbv beta iota.
  destruct (feed_final_ok D P false HP Hb (Datatypes.S (Z.to_nat (zlen last))) d2 last Hrd2 ltac:(lia)) as (e2 & Ee2 & Hie2 & K12 & K22 & K32).
  rewrite Ee2. change (Some ?x ≫= ?f) with (f x). cbv beta.
  exists e2. split; [|rewrite K1, K12, H2, H22, Hcs; done]. f_equal. f_equal.
  set (c' := set_in c (inbuf c ++ inputs cs) (inCount c + zlen (inputs cs))).
  assert (Hs : sim [] (inputs cs) c c') by done.
  assert (Hi' : inv P c') by (apply inv_set_in, Hr).
  destruct (H3 [] [] c' Hi') as (m & M1 & M2 & M3 & M4 & M5); [by rewrite app_nil_r|].
  destruct (H32 [] [] c' Hi') as (m2 & M12 & M22 & M32 & M42 & M52); [by rewrite app_nil_r, Hcs|].
  cbn [app] in *.
  assert (Hstop : forall x y o, ready P x -> sim o [] x y -> processChunks D 1 P y = Some y).
  { intros x y o [] []. cbn [processChunks]. unfold testInbufReadSpace. rewrite sim_in, app_nil_r, sim_drain, sim_size, rdy_drain, rdy_size.
    rewrite (proj2 (Z.ltb_lt _ _)) by done. done. }
  destruct (M3 _ _ (Hstop d m out Hrd M2)) as [f1 F1]. destruct (M32 _ _ (Hstop d2 m2 out2 Hrd2 M22)) as [f2 F2].
  pose proof (processChunks_det D P _ _ _ _ _ F1 F2) as <-.
  destruct (K3 out m M1 M2) as (r & R1 & R2); [rewrite M4; cbn; congruence|rewrite M5; cbn; congruence|].
  destruct (K32 out2 m M1 M22) as (r2 & R12 & R22); [rewrite M4; cbn; congruence|rewrite M5, H22, Hcs; done|].
  rewrite R1 in R12. injection R12 as <-. rewrite <- (sim_out _ _ _ _ R2), <- (sim_out _ _ _ _ R22). done.
Qed.

Lemma calls_count P N : sane P -> exact P N -> forall cs c k tot gone, ready P c -> going P N k tot gone c ->
  inCount c + zlen (inputs cs) <= N -> forall out d, calls D P c cs = Some (out, d) ->
  exists k' tot', going P N k' tot' (gone + zlen out) d.
Proof.
  intros HP HE. induction cs as [|[blk|n] cs IH]; intros c k tot gone Hr HG Hle out d E; cbn [calls inputs] in *.
  - injection E as <- <-. exists k, tot. rewrite zlen_nil, Z.add_0_r. done.
  - destruct (feed_ok D P false HP (ex_before _ _ HE) (Datatypes.S (Z.to_nat (zlen blk))) c blk Hr ltac:(lia)) as
      (c1 & E1 & Hr1 & _ & Hc1 & _).
    unfold process in E. rewrite E1 in E. change (Some ?x ≫= ?f) with (f x) in E. cbv beta in E.
    rewrite zlen_app in Hle. pose proof (zlen_nonneg (inputs cs)).
    destruct (go_feed D P N gone false HP HE _ c k tot blk false Hr HG ltac:(lia) ltac:(done) c1 E1) as [G _].
    destruct (G eq_refl) as (k' & tot' & HG' & _). apply (IH c1 k' tot' gone); try done. lia.
  - destruct (calls D P _ cs) as [[o e]|] eqn:Ee; [|done]. change (Some ?x ≫= ?f) with (f x) in E. cbv beta iota in E.
    injection E as <- <-.
    destruct (IH _ k tot (gone + zlen (firstn_z n (outbuf c))) (ready_take P c n Hr)) with (2 := Hle) (3 := Ee) as (k' & tot' & HG').
    + pose proof (ready_take P c n Hr) as Hr'. pose proof (go_cnt _ _ _ _ _ _ HG) as [C1 C2]. destruct HG. constructor; try done; [apply Hr'|].
      split; [done|]. cbn. rewrite <- C2, zlen_skipn, zlen_firstn.
      pose proof (zlen_nonneg (outbuf c)). lia.
    + exists k', tot'. rewrite zlen_app, Z.add_assoc. done.
Qed.

(** A channel as it is before the first call of process in offline mode. *)
Record start P c : Prop := Start {
  st_wf : wf P c; st_cap : capok P c; st_in : inbuf c = replicate (Z.to_nat (window P / 2)) (zero D); st_incap : window P <= inCap c;
  st_out : outbuf c = []; st_fill : fill c = 0; st_chunk : chunkCount c = 0; st_inc : inCount c = 0; st_size : inputSize c = None;
  st_oc : outCount c = 0; st_drain : draining c = false; st_compl : outputComplete c = false
}.
Lemma start_ready P c : sane P -> start P c -> ready P c.
Proof.
  intros HP []. pose proof (sane_incr _ _ HP). pose proof (sane_window _ _ HP). constructor; try done.
  - constructor; [done|done|lia|lia].
  - rewrite st_in0, zlen_replicate. assert (window P / 2 < window P) by (apply Z.div_lt; lia). lia.
Qed.
Lemma start_going P c N : sane P -> exact P N -> start P c -> going P N 0 0 0 c.
Proof.
  intros HP HE Hst. pose proof (start_ready P c HP Hst) as []. pose proof (ex_N _ _ HE).
  pose proof (sane_incr _ _ HP). pose proof (sane_window _ _ HP).
  assert (0 <= window P / 2) by (apply Z.div_pos; lia). destruct Hst. pose proof (zlen_nonneg (increments P)).
  constructor; try done; try lia.
  - by left.
  - rewrite st_chunk0. destruct (_ =? _); lia.
  - rewrite st_in0, zlen_replicate. lia.
  - rewrite st_in0, zlen_replicate. lia.
  - split.
    + unfold capped, theo. rewrite st_oc0, rdy_size. done.
    + rewrite st_out0, st_oc0, (@zlen_nil A), (skip_exact _ _ HE). lia.
Qed.

Lemma whole_exact P N cs last c : sane P -> exact P N -> start P c -> zlen (inputs cs ++ last) = N ->
  exists out d, wholeOutput D P c cs last = Some (out, d) /\ zlen out = rint (inject_Z N * timeRatio P) /\
    (stepAt P (N / increment P) <> window P -> outputComplete d = true) /\ inv P d /\ draining d = true /\ fill d = 0.
Proof.
  intros HP HE Hst HN. pose proof (start_ready P c HP Hst) as Hr. pose proof (start_going P c N HP HE Hst) as HG.
  assert (Hc0 : inCount c = 0) by apply Hst. rewrite zlen_app in HN. pose proof (zlen_nonneg last).
  destruct (calls_ok P HP (ex_before _ _ HE) cs c Hr) as (out & d & E & Hrd & _ & Hcd & _ & _).
  destruct (calls_count P N HP HE cs c 0 0 0 Hr HG ltac:(lia) out d E) as (k & tot & HGd).
  destruct (feed_final_ok D P false HP (ex_before _ _ HE) (Datatypes.S (Z.to_nat (zlen last))) d last Hrd ltac:(lia)) as (e & Ee & _).
  destruct (go_feed D P N _ false HP HE _ d k tot last true Hrd HGd ltac:(lia) ltac:(lia) e Ee) as [_ G].
  destruct (G eq_refl) as (tot' & [C1 C2] & Hs & Hge & Hoc & Hid & Hdd & Hfd).
  unfold wholeOutput, process. rewrite E. change (Some ?x ≫= ?f) with (f x). cbv beta iota. rewrite Ee.
  change (Some ?x ≫= ?f) with (f x). cbv beta. exists (out ++ outbuf e), e. split; [done|]. split; [|done].
  rewrite zlen_app. unfold theo in C1. rewrite Hs in C1. unfold capped in C1.
  pose proof (ex_pos _ _ HE) as Hp. rewrite (proj2 (Z.ltb_lt _ _) Hp) in C1.
  rewrite (skip_exact _ _ HE) in *. lia.
Qed.
End Runs.
