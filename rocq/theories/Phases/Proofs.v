(** Invariant of the phases. *)
From stdpp Require Import prelude.
From Coq Require Import ZArith QArith Qround Qabs Lia Lqa.
From Verif Require Import Base.Arith Phases.Model Phases.Spec.
From stdpp Require Import list.
Local Open Scope Z_scope.

Lemma same_refl a b : (a == b)%Q -> same a b.
Proof. intros H. exists 0. rewrite H. ring. Qed.
Lemma same_sym a b : same a b -> same b a.
Proof. intros [z H]. exists (- z). rewrite H, inject_Z_opp. ring. Qed.
Lemma same_trans a b c : same a b -> same b c -> same a c.
Proof. intros [z H] [y H']. exists (y + z). rewrite H, H', inject_Z_plus. ring. Qed.
Lemma same_add a b c d : same a b -> same c d -> same (a + c) (b + d).
Proof. intros [z H] [y H']. exists (z + y). rewrite H, H', inject_Z_plus. ring. Qed.
Lemma same_eq a b c d : (a == c)%Q -> (b == d)%Q -> same a b -> same c d.
Proof. intros H H' [z E]. exists z. by rewrite <- H, <- H'. Qed.

Lemma princ_same t : same (princ t) t.
Proof. exists (1 + Qfloor (- (t + (1 # 2)))). unfold princ. rewrite inject_Z_plus. ring. Qed.
Lemma princ_range t : (- (1 # 2) < princ t <= 1 # 2)%Q.
Proof. unfold princ. destruct (floor_bounds (- (t + (1 # 2)))) as [H1 H2]. split; lra. Qed.
Lemma same_near a b : same a b -> (- (1 # 2) < a <= 1 # 2)%Q -> (- (1 # 2) < b <= 1 # 2)%Q -> (a == b)%Q.
Proof.
  intros [z H] Ha Hb. assert (z = 0).
  { assert (- 1 < z) by (apply inject_Z_inj_lt; change (inject_Z (-1)) with (- (1))%Q; lra). assert (z < 1) by (apply inject_Z_inj_lt; change (inject_Z 1) with 1%Q; lra). lia. }
  subst z. rewrite H. change (inject_Z 0) with 0%Q. ring.
Qed.

Lemma loop_length c b out pr i xs ps : length xs = length ps -> length (snd (loop c b out pr i xs ps)) = length xs.
Proof.
  revert i ps. induction xs as [|x xs IH]; intros i [|p ps] H; try done. cbn. specialize (IH (i + 1) ps). destruct (loop c b out pr (i + 1) xs ps) as [a ys].
  destruct (oneBin c b out i a x p). cbn in *. by rewrite IH by lia.
Qed.
Lemma loop_lookup c b out pr i xs ps j x p : xs !! j = Some x -> ps !! j = Some p ->
  exists a, snd (loop c b out pr i xs ps) !! j = Some (snd (oneBin c b out (i + Z.of_nat j) a x p)) /\
    (full (fst (loop c b out pr i xs ps)) = true -> full (fst (oneBin c b out (i + Z.of_nat j) a x p)) = true).
Proof.
  revert i ps j. induction xs as [|x0 xs IH]; intros i ps j Hx Hp; [done|]. destruct ps as [|p0 ps]; [done|]. cbn [loop].
  destruct (loop c b out pr (i + 1) xs ps) as [a ys] eqn:E. destruct j as [|j]; cbn in Hx, Hp.
  - injection Hx as ->. injection Hp as ->. exists a. rewrite Z.add_0_r. by destruct (oneBin c b out i a x p).
  - destruct (IH (i + 1) ps j Hx Hp) as (a' & H1 & H2). rewrite E in H1, H2. cbn in H1, H2. exists a'.
    replace (i + Z.of_nat (S j)) with (i + 1 + Z.of_nat j) by lia. destruct (oneBin c b out i a x0 p0) as [a1 y1] eqn:E1. cbn. split; [done|].
    intros Hf. apply H2. unfold oneBin in E1. revert E1 Hf. repeat case_match; intros [= <- <-]; cbn; by intros [? ?]%andb_true_iff.
Qed.

(** What becomes of a bin that goes by itself. *)
Definition resetBin (b : bands) (i : Z) : bool := doReset b && negb (limited b && doReset b && (low b <? i) && (i <? high b)).
Definition omega (c : config) (i : nat) : Q := (inject_Z (inc c) * inject_Z (Z.of_nat i) / inject_Z (fft c))%Q.
Lemma oneBin_reset c b out i a x p : resetBin b i = true -> snd (oneBin c b out i a x p) = Bin p 0 p.
Proof. unfold resetBin, oneBin. by intros ->. Qed.
Lemma oneBin_full c b out i a x p : doReset b = true -> full (fst (oneBin c b out i a x p)) = true -> resetBin b i = true.
Proof.
  unfold oneBin, resetBin. intros ->. destruct (limited b && true && (low b <? i) && (i <? high b)); [|done]. cbn.
  repeat case_match; cbn; by rewrite andb_false_r.
Qed.
Lemma oneBin_prev c b out i a x p : prevPhase (snd (oneBin c b out i a x p)) = p.
Proof. unfold oneBin. by repeat case_match. Qed.
Lemma bin_of_le c f g : sensible c -> (f <= g)%Q -> bin_of c f <= bin_of c g.
Proof.
  intros (_ & Hf & Hr & _) H. unfold bin_of. apply rint_le. unfold Qdiv. apply Qmult_le_compat_r; [|by apply Qlt_le_weak, Qinv_lt_0_compat].
  apply Qmult_le_compat_r; [done|]. change 0%Q with (inject_Z 0). apply inject_Z_inj_le. lia.
Qed.
Lemma lim0_le c r pr u : sensible c -> bin_of c (freq0 c) <= lim0 (bandsOf c r pr u).
Proof.
  intros Hc. unfold bandsOf. destruct (if unity r && negb pr then _ else _) as [[[dr lm] lo] hi]. destruct (laminar c && ltQ 1 r); cbn; [|lia].
  apply bin_of_le; [done|]. destruct (ltQ _ _) eqn:E; [|lra]. apply ltQ_true in E. lra.
Qed.
Lemma oneBin_alone c r pr u out i a x p : sensible c -> alone c i -> (0 <= distance a)%Q ->
  let b := bandsOf c r pr u in let e := princ (p - (prevPhase x + omega c i)) in
  resetBin b (Z.of_nat i) = false ->
  snd (oneBin c b out (Z.of_nat i) a x p) = Bin p e (unwrapped x + inject_Z out * ((omega c i + e) / inject_Z (inc c)))%Q.
Proof.
  intros Hc Hl Hd b e Hr. unfold oneBin. unfold resetBin in Hr. rewrite Hr. fold (omega c i). fold e.
  destruct (laminar c && _ && _ && _) eqn:E; [|done]. exfalso. apply andb_true_iff in E as [E _]. apply andb_true_iff in E as [E _]. apply andb_true_iff in E as [E1 E2].
  destruct Hl as [Hl|Hl]; [congruence|]. pose proof (lim0_le c r pr u Hc) as H0. fold b in H0. rewrite (proj2 (Z.leb_le (Z.of_nat i) (lim0 b))) in E2 by lia.
  apply negb_true_iff, orb_false_iff in E2 as [E2 _]. apply Qle_bool_iff in Hd. congruence.
Qed.
Lemma loop_distance c b out pr i xs ps : (0 <= distance (fst (loop c b out pr i xs ps)))%Q.
Proof.
  revert i ps. induction xs as [|x xs IH]; intros i [|p ps]; cbn; try lra. specialize (IH (i + 1) ps). destruct (loop c b out pr (i + 1) xs ps) as [a ys].
  cbn in IH. unfold oneBin. repeat case_match; simplify_eq; cbn; lra.
Qed.
(** The same as [loop_lookup], with the distance. *)
Lemma loop_lookup' c b out pr i xs ps j x p : xs !! j = Some x -> ps !! j = Some p ->
  exists a, (0 <= distance a)%Q /\ snd (loop c b out pr i xs ps) !! j = Some (snd (oneBin c b out (i + Z.of_nat j) a x p)) /\
    (full (fst (loop c b out pr i xs ps)) = true -> full (fst (oneBin c b out (i + Z.of_nat j) a x p)) = true).
Proof.
  revert i ps j. induction xs as [|x0 xs IH]; intros i ps j Hx Hp; [done|]. destruct ps as [|p0 ps]; [done|]. cbn [loop].
  pose proof (loop_distance c b out pr (i + 1) xs ps) as Hd.
  destruct (loop c b out pr (i + 1) xs ps) as [a ys] eqn:E. destruct j as [|j]; cbn in Hx, Hp.
  - injection Hx as ->. injection Hp as ->. exists a. rewrite Z.add_0_r. split; [done|]. by destruct (oneBin c b out i a x p).
  - destruct (IH (i + 1) ps j Hx Hp) as (a' & H0 & H1 & H2). rewrite E in H1, H2. cbn in H1, H2. exists a'. split; [done|].
    replace (i + Z.of_nat (S j)) with (i + 1 + Z.of_nat j) by lia. destruct (oneBin c b out i a x0 p0) as [a1 y1] eqn:E1. cbn. split; [done|].
    intros Hf. apply H2. unfold oneBin in E1. revert E1 Hf. repeat case_match; intros [= <- <-]; cbn; by intros [? ?]%andb_true_iff.
Qed.
Lemma loop_full c b out pr i xs ps : full (fst (loop c b out pr i xs ps)) = true -> pr = true.
Proof.
  revert i ps. induction xs as [|x xs IH]; intros i [|p ps]; cbn; try done. specialize (IH (i + 1) ps). destruct (loop c b out pr (i + 1) xs ps) as [a ys]. cbn in IH.
  unfold oneBin. repeat case_match; simplify_eq; cbn; intros [? ?]%andb_true_iff; by apply IH.
Qed.
Lemma doReset_true c r u : doReset (bandsOf c r true u) = true.
Proof. unfold bandsOf. rewrite andb_false_r. by destruct (laminar c && ltQ 1 r). Qed.

(** While frames are unchanged, the phase remembered for the bin is that of the input. *)
Definition Ok (i : nat) (ch : chan) : Prop := unchanged ch = true -> forall x, bins ch !! i = Some x -> same (unwrapped x) (prevPhase x).

(** One chunk, for one bin: the input's phase or the continued one, and the invariant. *)
Lemma modify_bin c r out pr ch ps i x p : sensible c -> alone c i -> Ok i ch -> bins ch !! i = Some x -> ps !! i = Some p ->
  let ch' := modifyChunk c r out pr ch ps in let b := bandsOf c r pr (unityLow ch) in
  let e := princ (p - (prevPhase x + omega c i)) in
  exists x', bins ch' !! i = Some x' /\ prevPhase x' = p /\ (unchanged ch' = true -> same (unwrapped x') p) /\
    (if resetBin b (Z.of_nat i) then x' = Bin p 0 p else x' = Bin p e (unwrapped x + inject_Z out * ((omega c i + e) / inject_Z (inc c)))%Q).
Proof.
  intros Hc Ha Ho Hx Hp ch' b e. unfold modifyChunk in ch'. fold b in ch'.
  destruct (loop_lookup' c b out pr 0 (bins ch) ps i x p Hx Hp) as (a & Hd & H1 & H2). pose proof (loop_full c b out pr 0 (bins ch) ps) as H3. destruct (loop c b out pr 0 (bins ch) ps) as [a1 xs].
  cbn in H1, H2, H3. rewrite Z.add_0_l in H1, H2. exists (snd (oneBin c b out (Z.of_nat i) a x p)). split; [done|]. split; [apply oneBin_prev|].
  destruct (resetBin b (Z.of_nat i)) eqn:Er.
  - rewrite (oneBin_reset _ _ _ _ _ _ _ Er). cbn. split; [intros _; by apply same_refl|done].
  - pose proof (oneBin_alone c r pr (unityLow ch) out i a x p Hc Ha Hd Er) as E. fold b in E. fold e in E. split; [|done]. subst ch'. cbn.
    destruct (full a1) eqn:Hf.
    { specialize (H3 eq_refl). specialize (H2 eq_refl). exfalso. subst pr. rewrite (oneBin_full c b out (Z.of_nat i) a x p) in Er; [done|apply doReset_true|done]. }
    intros [Hu Hi]%andb_true_iff. apply Z.eqb_eq in Hi. rewrite E. cbn. specialize (Ho Hu x Hx).
    assert (Hz : ~ (inject_Z (inc c) == 0)%Q). { destruct Hc as [Hc _]. intros Hq. assert (inc c = 0); [|lia]. by apply inject_Z_injective. }
    apply (same_trans _ (prevPhase x + (omega c i + (p - (prevPhase x + omega c i))))).
    + apply (same_eq (unwrapped x + (omega c i + e)) (prevPhase x + (omega c i + (p - (prevPhase x + omega c i))))); [rewrite Hi; by field|reflexivity|].
      apply same_add; [done|]. apply same_add; [by apply same_refl|]. apply princ_same.
    + apply same_refl. ring.
Qed.
Lemma modify_none c r out pr ch ps i : bins ch !! i = None \/ ps !! i = None -> bins (modifyChunk c r out pr ch ps) !! i = None.
Proof.
  intros H. unfold modifyChunk. set (b := bandsOf _ _ _ _). assert (G : forall xs ps j i, xs !! i = None \/ ps !! i = None -> snd (loop c b out pr j xs ps) !! i = None).
  { clear. intros xs. induction xs as [|x xs IH]; intros [|p ps] j i H; try done. cbn. specialize (IH ps (j + 1)). destruct (loop c b out pr (j + 1) xs ps) as [a ys]. destruct (oneBin c b out j a x p). cbn in *.
    destruct i as [|i]; [destruct H; done|]. cbn in H. by apply IH. }
  specialize (G (bins ch) ps 0 i H). by destruct (loop c b out pr 0 (bins ch) ps).
Qed.
Lemma play_ok i ch k : sensible (cfg k) -> alone (cfg k) i -> Ok i ch -> Ok i (fst (play ch k)).
Proof.
  intros Hc Ha Ho. unfold play, synthesise. cbn. intros Hu x' Hx'. cbn in Hu, Hx'. apply andb_true_iff in Hu as [Hu _].
  destruct (bins ch !! i) as [x|] eqn:Hx; [|rewrite modify_none in Hx' by auto; done]. destruct (phases k !! i) as [p|] eqn:Hp; [|rewrite modify_none in Hx' by auto; done].
  destruct (modify_bin (cfg k) (ratio k) (outInc k) (phaseReset k) ch (phases k) i x p Hc Ha Ho Hx Hp) as (y & H1 & H2 & H3 & _). rewrite H1 in Hx'. injection Hx' as <-. rewrite H2. by apply H3.
Qed.
Lemma run_ok i os : forall ch, plain i os -> Ok i ch -> Ok i (run ch os).
Proof.
  induction os as [|o os IH]; intros ch Hp Ho; [done|]. inversion_clear Hp. cbn. apply IH; [done|]. destruct o as [k|n|]; [|intros _ x Hx|done].
  - apply play_ok; try done; by apply H.
  - cbn in Hx. apply lookup_replicate in Hx as [-> _]. by apply same_refl.
Qed.
Lemma construct_ok i n : Ok i (construct n).
Proof. intros _ x Hx. apply lookup_replicate in Hx as [-> _]. by apply same_refl. Qed.

(** What is played in a bin. *)
Lemma play_bin i ch k x p e : sensible (cfg k) -> alone (cfg k) i -> Ok i ch -> bins ch !! i = Some x -> phases k !! i = Some p -> snd (play ch k) !! i = Some e ->
  let b := bandsOf (cfg k) (ratio k) (phaseReset k) (unityLow ch) in let r := princ (p - (prevPhase x + omega (cfg k) i)) in
  exists x', bins (fst (play ch k)) !! i = Some x' /\ prevPhase x' = p /\ same e (unwrapped x') /\
    (if resetBin b (Z.of_nat i) then x' = Bin p 0 p else x' = Bin p r (unwrapped x + inject_Z (outInc k) * ((omega (cfg k) i + r) / inject_Z (inc (cfg k))))%Q).
Proof.
  intros Hc Ha Ho Hx Hp He b r. destruct (modify_bin (cfg k) (ratio k) (outInc k) (phaseReset k) ch (phases k) i x p Hc Ha Ho Hx Hp) as (y & H1 & H2 & H3 & H4).
  exists y. split; [exact H1|]. split; [exact H2|]. split; [|exact H4]. unfold play, synthesise in He. cbn in He. destruct (unchanged _ && negb _) eqn:Hu.
  - rewrite Hp in He. injection He as <-. apply same_sym, H3. by apply andb_true_iff in Hu as [-> _].
  - rewrite list_lookup_fmap, H1 in He. injection He as <-. by apply same_refl.
Qed.
