(** The offline loop of the R2 core over whole streams. *)
From stdpp Require Import prelude.
From Coq Require Import ZArith QArith Qround Lia Lqa.
From Verif Require Import Base.Arith Faster.Model Faster.Core Faster.Chunks.
Local Open Scope Z_scope.

Section Stream.
Context {A S R K : Type} (D : dsp A S R K).
Notation chan := (channel A S R).
Implicit Types (P : params) (c d e : chan).
Notation sane := (sane D).

Record inv P c : Prop := Inv {
  inv_wf : wf P c; inv_cap : capok P c; inv_chunk : 0 <= chunkCount c; inv_fill : fill c <= window P
}.

Lemma shift_bound P c d last : sane P -> inv P c -> processChunk D P c = Some (last, d) -> inv P d.
Proof.
  intros HP [Hw Hk Hc Hf] E. destruct (processChunk_ok D P c HP Hw Hk Hc) as
    (l & d' & E' & Hw' & Hk' & _ & _ & _ & _ & Hch & Hdr & _ & Hnd & _).
  assert (d' = d) as -> by congruence. constructor; [done|done| |].
  - rewrite Hch. unfold chunkOf. pose proof (zlen_nonneg (increments P)). destruct (Z.eqb_spec (zlen (increments P)) 0); lia.
  - destruct (draining c) eqn:Ed; [destruct (Hdr eq_refl) as (_ & ? & _); lia|].
    destruct (Hnd eq_refl) as (_ & _ & H). by apply H.
Qed.

Definition rounds P c : Z := if draining c then fill c + 1 else zlen (inbuf c) + window P + 2.

Lemma test_cases P c : sane P ->
  (testInbufReadSpace P c = (true, c) /\ (draining c = true \/ window P <= zlen (inbuf c) \/
     (is_Some (inputSize c) /\ window P / 2 <= zlen (inbuf c) < window P))) \/
  (testInbufReadSpace P c = (true, set_drain c true) /\ draining c = false /\ is_Some (inputSize c) /\ 0 < zlen (inbuf c) < window P / 2) \/
  (testInbufReadSpace P c = (false, c) /\ draining c = false /\ zlen (inbuf c) < window P /\ (inputSize c = None \/ zlen (inbuf c) = 0)).
Proof.
  intros HP. unfold testInbufReadSpace. pose proof (zlen_nonneg (inbuf c)).
  pose proof (sane_incr _ _ HP). pose proof (sane_window _ _ HP).
  destruct (Z.ltb_spec (zlen (inbuf c)) (window P)), (draining c) eqn:Ed; cbn [andb negb]; try (left; split; [done|]; auto; fail).
  destruct (inputSize c) as [n|] eqn:En; [|right; right; auto].
  destruct (Z.eqb_spec (zlen (inbuf c)) 0); [right; right; auto|].
  destruct (Z.ltb_spec (zlen (inbuf c)) (window P / 2)).
  - right; left. split; [done|]. split; [done|]. split; [eauto|lia].
  - left. split; [done|]. right; right. split; [eauto|lia].
Qed.

Lemma inv_set_drain P c b : inv P c -> inv P (set_drain c b).
Proof. intros [[] Hk ? ?]. constructor; [by constructor|exact Hk|done|done]. Qed.

(** The loop ends, and when the end of the input is not yet known takes all but a window. *)
Lemma processChunks_ok P : sane P -> forall f c, inv P c -> rounds P c <= Z.of_nat f ->
  exists d, processChunks D f P c = Some d /\ inv P d /\ inCap d = inCap c /\ inCount d = inCount c /\ inputSize d = inputSize c /\
    (inputSize c = None -> draining c = false ->
       draining d = false /\ zlen (inbuf d) < window P /\ exists k, 0 <= k /\ inbuf d = skipn_z (k * increment P) (inbuf c) /\
         k * increment P <= zlen (inbuf c) /\ (0 < k -> zlen (inbuf c) - k * increment P >= window P - increment P)).
Proof.
  intros HP. pose proof (sane_incr _ _ HP) as Hinc. pose proof (sane_window _ _ HP) as Hwin.
  assert (Hhalf : 0 < window P / 2 < window P) by (split; [apply Z.div_str_pos; lia|apply Z.div_lt; lia]).
  induction f as [|f IH]; intros c Hi Hf.
  { exfalso. unfold rounds in Hf. pose proof (zlen_nonneg (inbuf c)). destruct (wf_fill _ _ (inv_wf _ _ Hi)). destruct (draining c); lia. }
  cbn [processChunks].
  destruct (test_cases P c HP) as [[Et Hc]|[(Et & Ed & Hs & Hlen)|(Et & Ed & Hlen & Hs)]]; rewrite Et.
  - destruct (processChunk_ok D P c HP (inv_wf _ _ Hi) (inv_cap _ _ Hi) (inv_chunk _ _ Hi)) as
      (l & d & E & Hw & Hk & H1 & H2 & H3 & H4 & Hch & Hdr & _ & Hnd & _).
    pose proof (shift_bound P c d l HP Hi E) as Hid.
    rewrite E. change (Some ?x ≫= ?f) with (f x). cbv beta iota.
    destruct (draining c) eqn:Ed.
    + destruct (Hdr eq_refl) as (_ & _ & [->|Hlt] & _).
      * exists d. split; [done|]. split; [done|]. split; [done|]. split; [done|]. split; [done|]. done.
      * destruct l; [exists d; split_and!; done|].
        destruct (IH d Hid) as (e & Ee & Hie & K1 & K2 & K3 & _).
        { unfold rounds in *. rewrite H4, Ed in *. lia. }
        exists e. split; [done|]. split; [done|]. split; [congruence|]. split; [congruence|]. split; [congruence|]. done.
    + destruct (Hnd eq_refl) as (Hin & -> & Hfl).
      destruct (IH d Hid) as (e & Ee & Hie & K1 & K2 & K3 & K4).
      { unfold rounds in *. rewrite H4, Ed in *. rewrite Hin, zlen_skipn.
        destruct Hc as [?|[?|[_ ?]]]; [done|lia|lia]. }
      exists e. split; [done|]. split; [done|]. split; [congruence|]. split; [congruence|]. split; [congruence|].
      intros Hn _. destruct (K4 ltac:(congruence) ltac:(congruence)) as (G1 & G2 & k & G3 & G4 & G5 & G6). split; [done|]. split; [done|].
      destruct Hc as [?|[Hc|[[? ?] _]]]; [done| |congruence].
      exists (k + 1). rewrite G4, Hin in *. rewrite zlen_skipn in *.
      replace ((k + 1) * increment P) with (k * increment P + increment P) by lia.
      split; [lia|]. split; [rewrite skipn_z_add by nia; f_equal; lia|]. split; [lia|].
      intros _. destruct (Z.eq_dec k 0) as [->|]; [lia|]. specialize (G6 ltac:(lia)). lia.
  - pose proof (inv_set_drain P c true Hi) as Hi'.
    destruct (processChunk_ok D P _ HP (inv_wf _ _ Hi') (inv_cap _ _ Hi') (inv_chunk _ _ Hi')) as
      (l & d & E & Hw & Hk & H1 & H2 & H3 & H4 & Hch & Hdr & _).
    pose proof (shift_bound P _ d l HP Hi' E) as Hid.
    rewrite E. change (Some ?x ≫= ?f) with (f x). cbv beta iota.
    destruct Hs as [x Hs].
    assert (Hex : exists e, (if l then Some d else processChunks D f P d) = Some e /\ inv P e /\ inCap e = inCap d /\
      inCount e = inCount d /\ inputSize e = inputSize d).
    { destruct (Hdr eq_refl) as (_ & Hfd & _). destruct l; [eauto 10|].
      destruct (IH d Hid) as (e & Ee & Hie & K1 & K2 & K3 & _); [|by exists e].
      unfold rounds in *. rewrite H4, Ed in *. cbn [draining set_drain fill] in *. pose proof (inv_fill _ _ Hi). lia. }
    destruct Hex as (e & Ee & Hie & K1 & K2 & K3). exists e. split; [done|]. split; [done|].
    cbn [inCap inCount inputSize set_drain] in *.
    split; [congruence|]. split; [congruence|]. split; [congruence|]. congruence.
  - exists c. split; [done|]. split; [done|]. split; [done|]. split; [done|]. split; [done|].
    intros Hn _. split; [done|]. split; [done|]. exists 0. split; [lia|]. split; [done|]. pose proof (zlen_nonneg (inbuf c)). lia.
Qed.
Lemma enough_rounds P c : inv P c -> rounds P c <= Z.of_nat (enough P c).
Proof.
  intros Hi. unfold rounds, enough. pose proof (zlen_nonneg (inbuf c)). pose proof (inv_fill _ _ Hi).
  destruct (wf_fill _ _ (inv_wf _ _ Hi)). destruct (draining c); lia.
Qed.

Lemma processChunks_mono P f : forall f' c d, (f <= f')%nat -> processChunks D f P c = Some d -> processChunks D f' P c = Some d.
Proof.
  induction f as [|f IH]; intros [|f'] c d Hle E; try done; [lia|].
  cbn [processChunks] in *. destruct (testInbufReadSpace P c) as [ok c1]. destruct ok; [|done].
  destruct (processChunk D P c1) as [[l c2]|]; [|done]. change (Some ?x ≫= ?f) with (f x) in *. cbv beta iota in *.
  destruct l; [done|]. apply IH; [lia|done].
Qed.
Lemma processChunks_det P f f' c d d' : processChunks D f P c = Some d -> processChunks D f' P c = Some d' -> d = d'.
Proof.
  intros E1 E2. apply (processChunks_mono P f (f + f')) in E1; [|lia]. apply (processChunks_mono P f' (f + f')) in E2; [|lia]. congruence.
Qed.

Lemma inv_processChunks P : sane P -> forall f c d, inv P c -> processChunks D f P c = Some d -> inv P d.
Proof.
  intros HP f c d Hi E. destruct (processChunks_ok P HP (enough P c) c Hi (enough_rounds P c Hi)) as (d' & E' & Hd & _).
  by rewrite (processChunks_det P _ _ _ _ _ E E').
Qed.

(** ** Confluence *)
Definition reach P c e : Prop := forall f r, processChunks D f P e = Some r -> exists f', processChunks D f' P c = Some r.
Lemma reach_refl P c : reach P c c.
Proof. intros f r H. eauto. Qed.
Lemma reach_trans P c d e : reach P c d -> reach P d e -> reach P c e.
Proof. intros H1 H2 f r H. destruct (H2 f r H) as [f' H']. by apply (H1 f'). Qed.

Lemma sim_test g c c' P : sim g [] c c' ->
  exists ok d d', testInbufReadSpace P c = (ok, d) /\ testInbufReadSpace P c' = (ok, d') /\ sim g [] d d' /\
  (d = c /\ d' = c' \/ d = set_drain c true /\ d' = set_drain c' true).
Proof.
  intros Hs. unfold testInbufReadSpace. rewrite (sim_in _ _ _ _ Hs), app_nil_r, (sim_drain _ _ _ _ Hs), (sim_size _ _ _ _ Hs).
  assert (Hd : sim g [] (set_drain c true) (set_drain c' true)) by (destruct Hs; by constructor).
  destruct (_ && _); [|exists true, c, c'; auto 10].
  destruct (inputSize c); [|exists false, c, c'; auto 10].
  destruct (_ =? _); [exists false, c, c'; auto 10|].
  destruct (_ <? _); do 3 eexists; (split; [reflexivity|]); (split; [reflexivity|]); auto.
Qed.

Lemma processChunks_sim P g : sane P -> forall f c c' d, inv P c -> inv P c' -> sim g [] c c' ->
  processChunks D f P c = Some d -> exists d', processChunks D f P c' = Some d' /\ sim g [] d d'.
Proof.
  intros HP. induction f as [|f IH]; intros c c' d Hi Hi' Hs E; [done|]. cbn [processChunks] in *.
  destruct (sim_test g c c' P Hs) as (ok & c1 & c1' & E1 & E1' & Hs1 & Hcs). rewrite E1 in E. rewrite E1'.
  destruct ok; [|injection E as <-; eauto].
  assert (Hi1 : inv P c1 /\ inv P c1').
  { destruct Hcs as [[-> ->]|[-> ->]]; [done|]. split; by apply inv_set_drain. }
  destruct Hi1 as [Hi1 Hi1'].
  destruct (processChunk D P c1) as [[l c2]|] eqn:E2; [|done]. change (Some ?x ≫= ?f) with (f x) in *. cbv beta iota in *.
  destruct (processChunk_sim D P c1 c1' g [] l c2) as (c2' & E2' & Hs2); try done; try apply Hi1; try apply Hi1'; [by left|].
  rewrite E2'. change (Some ?x ≫= ?f) with (f x). cbv beta iota.
  destruct l; [injection E as <-; eauto|].
  apply (IH c2 c2'); try done; [by eapply (shift_bound P c1)|by eapply (shift_bound P c1')].
Qed.

(** While the end is not known, more input behind changes nothing about the chunks already complete. *)
Lemma processChunks_more P g b : sane P -> forall f c c' d, inv P c -> inv P c' -> sim g b c c' ->
  inputSize c = None -> draining c = false -> processChunks D f P c = Some d ->
  exists d', sim g b d d' /\ inv P d' /\ reach P c' d' /\ inCap d' = inCap c' /\ inCount d' = inCount c'.
Proof.
  intros HP. induction f as [|f IH]; intros c c' d Hi Hi' Hs Hn Hd E; [done|]. cbn [processChunks] in *.
  destruct (test_cases P c HP) as [[Et Hc]|[(Et & Ed & [? Hsz] & Hlen)|(Et & Ed & Hlen & Hsz)]]; rewrite Et in E; [|congruence|].
  - assert (Hlen : window P <= zlen (inbuf c)). { destruct Hc as [?|[?|[[? ?] _]]]; [congruence|done|congruence]. }
    destruct (processChunk D P c) as [[l c2]|] eqn:E2; [|done]. change (Some ?x ≫= ?f) with (f x) in *. cbv beta iota in *.
    destruct (processChunk_sim D P c c' g b l c2) as (c2' & E2' & Hs2); try done; try apply Hi; try apply Hi'; [by auto|].
    destruct (processChunk_ok D P c HP (inv_wf _ _ Hi) (inv_cap _ _ Hi) (inv_chunk _ _ Hi)) as
      (l0 & d0 & E0 & _ & _ & H1 & H2 & H3 & H4 & Hch & _ & _ & Hnd & _).
    destruct (processChunk_ok D P c' HP (inv_wf _ _ Hi') (inv_cap _ _ Hi') (inv_chunk _ _ Hi')) as
      (l0' & d0' & E0' & _ & _ & H1' & H2' & _).
    rewrite E2 in E0. injection E0 as <- <-. rewrite E2' in E0'. injection E0' as <- <-.
    destruct (Hnd Hd) as (_ & -> & _).
    destruct (IH c2 c2' d) as (d' & K1 & K2 & K3 & K4 & K5); try done;
      [by eapply (shift_bound P c)|by eapply (shift_bound P c')|congruence|congruence|].
    exists d'. split; [done|]. split; [done|]. split; [|split; congruence].
    intros f0 r Hr. destruct (K3 f0 r Hr) as [f1 Hr1]. exists (Datatypes.S f1). cbn [processChunks].
    assert (Et' : testInbufReadSpace P c' = (true, c')).
    { unfold testInbufReadSpace. rewrite (sim_in _ _ _ _ Hs), zlen_app. pose proof (zlen_nonneg b).
      rewrite (proj2 (Z.ltb_ge _ _)) by lia. done. }
    rewrite Et', E2'. done.
  - injection E as <-. exists c'. split; [done|]. split; [done|]. split; [apply reach_refl|done].
Qed.

(** ** Feeding *)
Definition app_in c (b : list A) : chan := set_in c (inbuf c ++ b) (inCount c + zlen b).
Lemma inv_set_in P c i n : inv P c -> inv P (set_in c i n).
Proof. intros [[] Hk ? ?]. constructor; [by constructor|exact Hk|done|done]. Qed.
Lemma inv_set_size P c n : inv P c -> inv P (set_size c n).
Proof. intros [[] Hk ? ?]. constructor; [by constructor|exact Hk|done|done]. Qed.

(** State between calls before the end of the input. *)
Record ready P c : Prop := Ready {
  rdy_inv : inv P c; rdy_size : inputSize c = None; rdy_drain : draining c = false;
  rdy_cap : window P <= inCap c; rdy_in : zlen (inbuf c) < window P
}.

Lemma feed_ok P mid : sane P -> before P = false -> forall f c input, ready P c -> (Z.to_nat (zlen input) < f)%nat ->
  exists d, feed D f P c input mid false = Some d /\ ready P d /\ inCap d = inCap c /\ inCount d = inCount c + zlen input /\
    (exists k, 0 <= k /\ inbuf d = skipn_z (k * increment P) (inbuf c ++ input) /\ k * increment P <= zlen (inbuf c ++ input) /\
       (0 < k -> window P - increment P <= zlen (inbuf c ++ input) - k * increment P)) /\
    forall g b c', inv P c' -> sim g (input ++ b) c c' ->
      exists d', inv P d' /\ sim g b d d' /\ reach P c' d' /\ inCap d' = inCap c' /\ inCount d' = inCount c'.
Proof.
  intros HP Hbef. pose proof (sane_incr _ _ HP) as Hinc. pose proof (sane_window _ _ HP) as Hwin.
  induction f as [|f IH]; intros c input Hr Hf; [lia|].
  cbn [feed]. unfold consumeChannel. rewrite Hbef. destruct Hr as [Hi Hn Hd Hcap Hlen].
  set (n := Z.min (inCap c - zlen (inbuf c)) (zlen input)). pose proof (zlen_nonneg input) as Hli.
  assert (Hnn : 0 <= n <= zlen input /\ (n = zlen input \/ 1 <= n)) by lia.
  set (c1 := set_in c (inbuf c ++ firstn_z n input) (inCount c + n)).
  replace ((zlen (skipn_z n input) =? 0) && false) with false by (by rewrite andb_false_r).
  assert (Hi1 : inv P c1) by (by apply inv_set_in).
  destruct (processChunks_ok P HP (enough P c1) c1 Hi1 (enough_rounds _ _ Hi1)) as (d & E & Hid & H1 & H2 & H3 & H4).
  destruct (H4 Hn Hd) as (H5 & H6 & k & Hk & H7 & H8 & H9). rewrite E. change (Some ?x ≫= ?f) with (f x). cbv beta.
  cbn [inbuf inCap inCount inputSize set_in c1] in *.
  assert (Hmore : forall g b c', inv P c' -> sim g (firstn_z n input ++ b) c c' ->
     exists d', inv P d' /\ sim g b d d' /\ reach P c' d' /\ inCap d' = inCap c' /\ inCount d' = inCount c').
  { intros g b c' Hi' Hs.
    destruct (processChunks_more P g b HP (enough P c1) c1 c' d) as (d' & ? & ? & ? & ? & ?); try done; [|eauto 10].
    destruct Hs. constructor; try done. cbn. by rewrite <- app_assoc. }
  assert (Hrd : ready P d) by (constructor; [done|congruence|done|lia|done]).
  destruct (Z.eqb_spec (zlen (skipn_z n input)) 0) as [Ez|Ez].
  - assert (n = zlen input) as En by (rewrite zlen_skipn in Ez; lia). rewrite firstn_z_all in * by lia.
    exists d. split; [done|]. split; [done|]. split; [done|]. split; [lia|]. split; [|done]. exists k. split; [done|]. split; [done|]. split; [done|]. lia.
  - rewrite zlen_skipn in Ez.
    destruct (IH d (skipn_z n input) Hrd) as (e & Ee & Hre & K1 & K2 & (k2 & K3 & K4 & K5 & K7) & K6); [rewrite zlen_skipn; lia|].
    exists e. split; [done|]. split; [done|]. split; [congruence|]. split; [rewrite K2, H2, zlen_skipn; lia|].
    split.
    + exists (k + k2). split; [lia|].
      assert (Eq : inbuf d ++ skipn_z n input = skipn_z (k * increment P) (inbuf c ++ input)).
      { rewrite H7, <- skipn_z_app by done. by rewrite <- app_assoc, firstn_skipn_z. }
      rewrite Eq in K4, K5, K7. rewrite zlen_skipn in K5, K7. split; [rewrite K4, skipn_z_add by nia; f_equal; lia|].
      assert (zlen (inbuf c ++ firstn_z n input) <= zlen (inbuf c ++ input)) by (rewrite !zlen_app, zlen_firstn; lia).
      split; [nia|]. intros Hk2. destruct (Z.eq_dec k2 0) as [->|]; [|specialize (K7 ltac:(lia)); nia].
      specialize (H9 ltac:(lia)). lia.
    + intros g b c' Hi' Hs.
      destruct (Hmore g (skipn_z n input ++ b) c' Hi') as (d' & Hid' & Hsd & Hrd' & L1 & L2).
      { by rewrite app_assoc, firstn_skipn_z. }
      destruct (K6 g b d' Hid' Hsd) as (e' & ? & ? & ? & ? & ?). exists e'. split; [done|]. split; [done|].
      split; [by eapply reach_trans|]. split; congruence.
Qed.

(** The last call, from two states that differ only in what has been retrieved. *)
Lemma feed_final_ok P mid : sane P -> before P = false -> forall f c input, ready P c -> (Z.to_nat (zlen input) < f)%nat ->
  exists d, feed D f P c input mid true = Some d /\ inv P d /\ inCount d = inCount c + zlen input /\
    inputSize d = Some (inCount c + zlen input) /\
    forall g c', inv P c' -> sim g [] c c' -> inCap c' = inCap c -> inCount c' = inCount c ->
      exists d', feed D f P c' input mid true = Some d' /\ sim g [] d d'.
Proof.
  intros HP Hbef. pose proof (sane_incr _ _ HP) as Hinc. pose proof (sane_window _ _ HP) as Hwin.
  induction f as [|f IH]; intros c input Hr Hf; [lia|].
  cbn [feed]. unfold consumeChannel. rewrite Hbef. destruct Hr as [Hi Hn Hd Hcap Hlen].
  set (n := Z.min (inCap c - zlen (inbuf c)) (zlen input)). pose proof (zlen_nonneg input) as Hli.
  assert (Hnn : 0 <= n <= zlen input /\ (n = zlen input \/ 1 <= n)) by lia.
  set (c1 := set_in c (inbuf c ++ firstn_z n input) (inCount c + n)). rewrite andb_true_r.
  assert (Hsim : forall g c', sim g [] c c' -> inCap c' = inCap c -> inCount c' = inCount c ->
     Z.min (inCap c' - zlen (inbuf c')) (zlen input) = n /\
     sim g [] c1 (set_in c' (inbuf c' ++ firstn_z n input) (inCount c' + n))).
  { intros g c' Hs Ec En. rewrite (sim_in _ _ _ _ Hs), app_nil_r, Ec. split; [done|].
    destruct Hs. constructor; try done. cbn. by rewrite app_nil_r. }
  destruct (Z.eqb_spec (zlen (skipn_z n input)) 0) as [Ez|Ez]; rewrite zlen_skipn in Ez.
  - set (c2 := set_size c1 (Some (inCount c1))).
    assert (Hi2 : inv P c2) by (by apply inv_set_size, inv_set_in).
    destruct (processChunks_ok P HP (enough P c2) c2 Hi2 (enough_rounds _ _ Hi2)) as (d & E & Hid & H1 & H2 & H3 & _).
    rewrite E. change (Some ?x ≫= ?f) with (f x). cbv beta. exists d. split; [done|]. split; [done|].
    cbn [inCap inCount inputSize set_in set_size c1 c2] in *.
    split; [lia|]. split; [rewrite H3; f_equal; lia|].
    intros g c' Hi' Hs Ec En. destruct (Hsim g c' Hs Ec En) as [-> Hs1]. rewrite andb_true_r.
    rewrite (proj2 (Z.eqb_eq _ _)) by (rewrite zlen_skipn; lia).
    set (c1' := set_in c' _ _) in *. change (inCount c' + n) with (inCount c1').
    assert (Hs2 : sim g [] c2 (set_size c1' (Some (inCount c1')))).
    { destruct Hs1. constructor; try done. cbn. by rewrite En. }
    assert (Ee : enough P (set_size c1' (Some (inCount c1'))) = enough P c2).
    { unfold enough. destruct Hs2. by rewrite sim_in, sim_fill, app_nil_r. }
    rewrite Ee.
    destruct (processChunks_sim P g HP (enough P c2) c2 (set_size c1' (Some (inCount c1'))) d Hi2 ltac:(by apply inv_set_size, inv_set_in) Hs2 E) as (d' & E' & Hsd).
    rewrite E'. change (Some ?x ≫= ?f) with (f x). cbv beta. eauto.
  - assert (Hi1 : inv P c1) by (by apply inv_set_in).
    destruct (processChunks_ok P HP (enough P c1) c1 Hi1 (enough_rounds _ _ Hi1)) as (d & E & Hid & H1 & H2 & H3 & H4).
    destruct (H4 Hn Hd) as (H5 & H6 & _). rewrite E. change (Some ?x ≫= ?f) with (f x). cbv beta.
    cbn [inbuf inCap inCount inputSize set_in c1] in *.
    assert (Hrd : ready P d) by (constructor; [done|congruence|done|lia|done]).
    destruct (IH d (skipn_z n input) Hrd) as (e & Ee & Hie & K1 & K2 & K3); [rewrite zlen_skipn; lia|].
    exists e. split; [done|]. split; [done|]. rewrite K1, K2, H2, zlen_skipn.
    split; [lia|]. split; [f_equal; lia|].
    intros g c' Hi' Hs Ec En. destruct (Hsim g c' Hs Ec En) as [-> Hs1]. rewrite andb_true_r.
    rewrite (proj2 (Z.eqb_neq _ _)) by (rewrite zlen_skipn; lia).
    set (c1' := set_in c' _ _) in *. assert (Hi1' : inv P c1') by (by apply inv_set_in).
    assert (Een : enough P c1' = enough P c1).
    { unfold enough. destruct Hs1. by rewrite sim_in, sim_fill, app_nil_r. }
    rewrite Een.
    destruct (processChunks_sim P g HP (enough P c1) c1 c1' d Hi1 Hi1' Hs1 E) as (d' & E' & Hsd).
    rewrite E'. change (Some ?x ≫= ?f) with (f x). cbv beta.
    destruct (processChunks_ok P HP (enough P c1') c1' Hi1' (enough_rounds _ _ Hi1')) as (d2 & E2 & Hid2 & L1 & L2 & _).
    rewrite Een in E2. assert (d2 = d') as -> by congruence.
    apply (K3 g d' Hid2 Hsd); cbn [inCap inCount set_in c1'] in *; congruence.
Qed.
End Stream.
