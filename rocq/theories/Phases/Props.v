(** Property C80: the phases of a stretched tone. *)
From stdpp Require Import prelude.
From Coq Require Import ZArith QArith Qround Qabs Lia Lqa.
From Verif Require Import Base.Arith Phases.Model Phases.Spec Phases.Proofs.
From stdpp Require Import list.
Local Open Scope Z_scope.

Lemma resets_bands k u i : unity (ratio k) = false \/ phaseReset k = true ->
  (resetBin (bandsOf (cfg k) (ratio k) (phaseReset k) u) (Z.of_nat i) = true <-> resets k i).
Proof.
  intros H. unfold bandsOf, resets. assert (E : unity (ratio k) && negb (phaseReset k) = false) by (destruct H as [->| ->]; [done|by rewrite andb_false_r]). rewrite E.
  unfold resetBin. destruct (if laminar _ && _ then _ else _) as [[f0 f1] f2]. cbn. destruct (phaseReset k); cbn; [|split; [done|by intros [? _]]]. rewrite negb_true_iff, andb_true_r. split.
  - intros Hb. split; [done|]. intros (Hm & Hl & Hh). rewrite Hm in Hb. cbn in Hb. rewrite (proj2 (Z.ltb_lt _ _) Hl), (proj2 (Z.ltb_lt _ _) Hh) in Hb. done.
  - intros [_ Hn]. destruct (mixed (cfg k) && _ && _) eqn:Eb; [|done]. apply andb_true_iff in Eb as [Eb Hh]. apply andb_true_iff in Eb as [Hm Hl]. exfalso. apply Hn. split; [done|]. split; by apply Z.ltb_lt.
Qed.
Lemma inc_nz c : sensible c -> ~ (inject_Z (inc c) == 0)%Q.
Proof. intros [Hc _] Hq. assert (inc c = 0); [|lia]. by apply inject_Z_injective. Qed.
Lemma fft_nz c : sensible c -> ~ (inject_Z (fft c) == 0)%Q.
Proof. intros [_ [Hc _]] Hq. assert (fft c = 0); [|lia]. by apply inject_Z_injective. Qed.
Lemma tone_error c i f p' p : sensible c -> tone c i f p' p -> (omega c i + princ (p - (p' + omega c i)) == f * inject_Z (inc c))%Q.
Proof.
  intros Hc [[z Hz] Hr]. pose proof (fft_nz c Hc) as Hf.
  assert (E : (princ (p - (p' + omega c i)) == inject_Z (inc c) * (f - inject_Z (Z.of_nat i) / inject_Z (fft c)))%Q).
  { apply same_near; [|apply princ_range|exact Hr]. apply (same_trans _ (p - (p' + omega c i))); [apply princ_same|]. exists (- z). rewrite inject_Z_opp. unfold omega. assert (Hp : (p == p' + f * inject_Z (inc c) - inject_Z z)%Q) by (rewrite Hz; ring). rewrite Hp. by field. }
  rewrite E. unfold omega. by field.
Qed.

(** The bin after one more chunk. *)
Lemma next i ch k x p e f : sensible (cfg k) -> alone (cfg k) i -> Ok i ch -> bins ch !! i = Some x -> phases k !! i = Some p -> snd (play ch k) !! i = Some e ->
  unity (ratio k) = false -> ~ resets k i -> tone (cfg k) i f (prevPhase x) p ->
  exists x', bins (fst (play ch k)) !! i = Some x' /\ prevPhase x' = p /\ same e (unwrapped x') /\ same e (unwrapped x + f * inject_Z (outInc k)).
Proof.
  intros Hc Ha Ho Hx Hp He Hu Hr Ht. destruct (play_bin i ch k x p e Hc Ha Ho Hx Hp He) as (x' & H1 & H2 & H3 & H4). exists x'. split_and!; try done.
  destruct (resetBin _ _) eqn:Eb; [exfalso; apply Hr; eapply resets_bands; [by left|exact Eb]|]. eapply same_trans; [exact H3|]. apply same_refl. rewrite H4. cbn.
  rewrite (tone_error _ _ _ _ _ Hc Ht). field. by apply inc_nz.
Qed.
Lemma here i ch k p e : sensible (cfg k) -> alone (cfg k) i -> Ok i ch -> phases k !! i = Some p -> snd (play ch k) !! i = Some e -> is_Some (bins ch !! i) ->
  exists x', bins (fst (play ch k)) !! i = Some x' /\ prevPhase x' = p /\ same e (unwrapped x').
Proof.
  intros Hc Ha Ho Hp He [x Hx]. destruct (play_bin i ch k x p e Hc Ha Ho Hx Hp He) as (x' & H1 & H2 & H3 & _). by exists x'.
Qed.
Lemma unit_bin c i out u q p : sensible c -> out = inc c -> same u q -> same (u + inject_Z out * ((omega c i + princ (p - (q + omega c i))) / inject_Z (inc c))) p.
Proof.
  intros Hc -> H. pose proof (inc_nz c Hc) as Hz. apply (same_trans _ (q + (omega c i + (p - (q + omega c i))))); [|apply same_refl; ring].
  apply (same_eq (u + (omega c i + princ (p - (q + omega c i)))) (q + (omega c i + (p - (q + omega c i))))); [by field|reflexivity|].
  apply same_add; [done|]. apply same_add; [by apply same_refl|]. apply princ_same.
Qed.
Section Props.
Context (n : nat) (i : nat) (os : list op).

(** C80.  Whatever has been done since the channel was made, short of reset(): a bin that goes
    by itself and is not reset goes on from the phase it was last played with, at the frequency
    found in the input, for the output increment. *)
Theorem C80_phase_continues_partial (k' k : chunk) (p' p e' e f : Q) :
  plain i (os ++ [Play k'; Play k]) ->
  let ch := run (construct n) os in let ch' := fst (play ch k') in
  is_Some (bins ch !! i) -> phases k' !! i = Some p' -> phases k !! i = Some p ->
  snd (play ch k') !! i = Some e' -> snd (play ch' k) !! i = Some e ->
  unity (ratio k) = false -> ~ resets k i -> tone (cfg k) i f p' p ->
  same e (e' + f * inject_Z (outInc k)).
Proof.
  intros Hp ch ch' Hb Hp' Hpk He' He Hu Hr Ht. apply Forall_app in Hp as [Ho Hk]. apply Forall_cons in Hk as [[K1 K2] Hk]. apply Forall_cons in Hk as [[K3 K4] _].
  assert (Hok : Ok i ch) by (apply run_ok; [done|apply construct_ok]).
  destruct (here i ch k' p' e' K1 K2 Hok Hp' He' Hb) as (x & Hx & Hxp & Hxe).
  rewrite <- Hxp in Ht. destruct (next i ch' k x p e f K3 K4 (play_ok i ch k' K1 K2 Hok) Hx Hpk He Hu Hr Ht) as (x' & _ & _ & _ & Hs).
  eapply same_trans; [exact Hs|]. apply same_add; [by apply same_sym|]. by apply same_refl.
Qed.
(** A bin that is reset is played as in the input. *)
Theorem C80_phase_reset (k : chunk) (p e : Q) :
  plain i (os ++ [Play k]) -> let ch := run (construct n) os in
  is_Some (bins ch !! i) -> phases k !! i = Some p -> snd (play ch k) !! i = Some e -> resets k i -> same e p.
Proof.
  intros Hp ch [x Hx] Hpk He Hr. apply Forall_app in Hp as [Ho Hk]. apply Forall_cons in Hk as [[K1 K2] _].
  assert (Hok : Ok i ch) by (apply run_ok; [done|apply construct_ok]).
  destruct (play_bin i ch k x p e K1 K2 Hok Hx Hpk He) as (x' & H1 & H2 & H3 & H4). rewrite (proj2 (resets_bands k (unityLow ch) i (or_intror (proj1 Hr))) Hr) in H4. by rewrite H4 in H3.
Qed.
End Props.

(** So a steady tone stays one, of the same frequency: after any history, played with any
    output increments. *)
Lemma tone_run i f : forall ks ch x e e0 es j,
  Ok i ch -> bins ch !! i = Some x -> same e0 (unwrapped x) ->
  Forall (fun k => sensible (cfg k) /\ alone (cfg k) i /\ unity (ratio k) = false /\ ~ resets k i /\ is_Some (phases k !! i)) ks ->
  (forall k p, head ks = Some k -> phases k !! i = Some p -> tone (cfg k) i f (prevPhase x) p) ->
  (forall j k k' p p', ks !! j = Some k -> ks !! S j = Some k' -> phases k !! i = Some p -> phases k' !! i = Some p' -> tone (cfg k') i f p p') ->
  played ch ks !! j = Some es -> es !! i = Some e -> same e (e0 + f * inject_Z (covered (take (S j) ks))).
Proof.
  intros ks. induction ks as [|k ks IH]; intros ch x e e0 es j Ho Hx He0 Hk Hh Ht Hj He; [done|]. apply Forall_cons in Hk as [(K1 & K2 & K3 & K4 & p & Hp) Hk'].
  specialize (Hh k p eq_refl Hp) as Htk. cbn [played] in Hj. cbn [take covered].
  assert (exists e1, snd (play ch k) !! i = Some e1) as [e1 He1].
  { destruct (modify_bin (cfg k) (ratio k) (outInc k) (phaseReset k) ch (phases k) i x p K1 K2 Ho Hx Hp) as (y & H1 & _). unfold play, synthesise. cbn.
    destruct (_ && _); [by exists p|]. rewrite list_lookup_fmap, H1. by eexists. }
  destruct (next i ch k x p e1 f K1 K2 Ho Hx Hp He1 K3 K4 Htk) as (x' & H1 & H2 & H3 & H4).
  assert (Hs : same e1 (e0 + f * inject_Z (outInc k))) by (eapply same_trans; [exact H4|]; apply same_add; [by apply same_sym|by apply same_refl]).
  destruct j as [|j].
  - change (Some (snd (play ch k)) = Some es) in Hj. apply (inj Some) in Hj. rewrite <- Hj, He1 in He. apply (inj Some) in He as <-. eapply same_trans; [exact Hs|]. apply same_refl. unfold covered. cbn. rewrite Z.add_0_r. reflexivity.
  - change (played (fst (play ch k)) ks !! j = Some es) in Hj. eapply same_trans.
    + eapply (IH (fst (play ch k)) x' e e1 es j); [by apply play_ok|done|done|done| | |done|done].
      * intros k1 p1 Hk1 Hp1. rewrite H2. destruct ks as [|k2 ks]; [done|]. injection Hk1 as ->. by eapply (Ht 0%nat).
      * intros j1 k1 k2 q1 q2 A B. by apply (Ht (S j1)).
    + change (covered (k :: take (S j) ks)) with (outInc k + covered (take (S j) ks)).
      apply (same_trans _ ((e0 + f * inject_Z (outInc k)) + f * inject_Z (covered (take (S j) ks)))).
      * apply same_add; [done|by apply same_refl].
      * apply same_refl. rewrite inject_Z_plus. ring.
Qed.
Theorem C80_tone_partial n i os k0 ks f e0 e j es :
  plain i (os ++ [Play k0]) -> let ch := run (construct n) os in
  is_Some (bins ch !! i) -> is_Some (phases k0 !! i) ->
  Forall (fun k => sensible (cfg k) /\ alone (cfg k) i /\ unity (ratio k) = false /\ ~ resets k i /\ is_Some (phases k !! i)) ks ->
  (forall j k k' p p', (k0 :: ks) !! j = Some k -> (k0 :: ks) !! S j = Some k' -> phases k !! i = Some p -> phases k' !! i = Some p' -> tone (cfg k') i f p p') ->
  snd (play ch k0) !! i = Some e0 -> played (fst (play ch k0)) ks !! j = Some es -> es !! i = Some e ->
  same e (e0 + f * inject_Z (covered (take (S j) ks))).
Proof.
  intros Hp ch Hb [p0 Hp0] Hk Ht He0 Hj He. apply Forall_app in Hp as [Ho Hk0]. apply Forall_cons in Hk0 as [[K1 K2] _].
  assert (Hok : Ok i ch) by (apply run_ok; [done|apply construct_ok]).
  destruct (here i ch k0 p0 e0 K1 K2 Hok Hp0 He0 Hb) as (x & Hx & Hxp & Hxe).
  eapply (tone_run i f ks (fst (play ch k0)) x e e0 es j); [by apply play_ok|done|done|done| | |done|done].
  - intros k p Hk1 Hp1. rewrite Hxp. destruct ks as [|k2 ks]; [done|]. injection Hk1 as ->. by eapply (Ht 0%nat).
  - intros j1 k1 k2 q1 q2 A B. by apply (Ht (S j1)).
Qed.
Print Assumptions C80_phase_continues_partial.
Print Assumptions C80_phase_reset.
Print Assumptions C80_tone_partial.

(** With output increments equal to the input's all along, every such bin is played as it
    came. *)
Theorem C80_unity_partial n i os k p e :
  Forall (fun o => match o with Play k => sensible (cfg k) /\ alone (cfg k) i /\ outInc k = inc (cfg k) | _ => True end) (os ++ [Play k]) ->
  let ch := run (construct n) os in is_Some (bins ch !! i) -> phases k !! i = Some p -> snd (play ch k) !! i = Some e -> same e p.
Proof.
  intros H ch [x Hx] Hp He. apply Forall_app in H as [Ho Hk]. apply Forall_cons in Hk as [(K1 & K2 & K3) _].
  assert (J : forall os ch, Forall (fun o => match o with Play k => sensible (cfg k) /\ alone (cfg k) i /\ outInc k = inc (cfg k) | _ => True end) os ->
    (forall x, bins ch !! i = Some x -> same (unwrapped x) (prevPhase x)) -> forall x, bins (run ch os) !! i = Some x -> same (unwrapped x) (prevPhase x)).
  { clear. induction os as [|o os IH]; intros ch H Hc; [done|]. apply Forall_cons in H as [Ha Hos]. cbn. apply IH; [done|]. destruct o as [k|n|]; [|intros x Hx|done].
    - destruct Ha as (K1 & K2 & K3). intros y Hy. destruct (bins ch !! i) as [x|] eqn:Hx; [|cbn in Hy; rewrite modify_none in Hy by auto; done].
      destruct (phases k !! i) as [p|] eqn:Hp; [|cbn in Hy; rewrite modify_none in Hy by auto; done].
      assert (Hok : Ok i ch) by (intros _ z Hz; rewrite Hx in Hz; injection Hz as <-; by apply Hc).
      destruct (modify_bin (cfg k) (ratio k) (outInc k) (phaseReset k) ch (phases k) i x p K1 K2 Hok Hx Hp) as (y' & H1 & _ & _ & H4). cbn in Hy. rewrite H1 in Hy. injection Hy as <-.
      destruct (resetBin _ _); rewrite H4; cbn; [by apply same_refl|]. apply unit_bin; [done|done|]. by apply Hc.
    - cbn in Hx. apply lookup_replicate in Hx as [-> _]. by apply same_refl. }
  specialize (J os (construct n) Ho). fold ch in J. assert (Jc : same (unwrapped x) (prevPhase x)).
  { apply J; [|done]. intros y Hy. apply lookup_replicate in Hy as [-> _]. by apply same_refl. }
  assert (Hok : Ok i ch) by (intros _ z Hz; rewrite Hx in Hz; by injection Hz as <-).
  destruct (play_bin i ch k x p e K1 K2 Hok Hx Hp He) as (x' & _ & _ & H3 & H4). eapply same_trans; [exact H3|].
  destruct (resetBin _ _); rewrite H4; cbn; [by apply same_refl|]. by apply unit_bin.
Qed.
Print Assumptions C80_unity_partial.

Lemma not_same a b : Qeq_bool (a - b) (inject_Z (Qfloor (a - b))) = false -> ~ same a b.
Proof.
  intros H [z Hz]. assert (E : (a - b == inject_Z z)%Q) by (rewrite Hz; ring). rewrite (Qfloor_comp _ _ E), Qfloor_Z in H.
  apply Qeq_bool_neq in H. by apply H.
Qed.
Lemma same_dec a b : Qeq_bool (a - b) (inject_Z (Qfloor (a - b))) = true -> same a b.
Proof. intros H%Qeq_bool_eq. exists (Qfloor (a - b)). rewrite <- H. ring. Qed.

(** 44100 Hz, transforms of 2048 at increments of 256.  A tone in bin 20 (430 Hz), off its centre by
    an eighth of a turn an increment, stretched by 1.5; laminar, as by default. *)
Definition usual (l : bool) : config := Config 256 2048 44100 l false 600 1200 12000.
Lemma sens l : sensible (usual l).
Proof. split; [done|]. split; [done|]. split; by vm_compute. Qed.
Definition hum (j : Z) : list Q := (fun i => inject_Z j * (inject_Z i / 8 + (1 # 8)))%Q <$> seqZ 0 1025.
Definition stretched (j : Z) : chunk := Chunk (usual true) (3 # 2) 384 false false (hum j).
Example C80_case : plain 20 (Play <$> [stretched 0; stretched 1; stretched 2]) /\ unity (3 # 2) = false /\ ~ resets (stretched 2) 20 /\
  tone (usual true) 20 ((21 # 8) / 256)%Q ((21 # 8))%Q (42 # 8)%Q /\
  let es := played (construct 1025) [stretched 0; stretched 1; stretched 2] in
  exists e e', (es !! 1%nat ≫= lookup 20%nat) = Some e' /\ (es !! 2%nat ≫= lookup 20%nat) = Some e /\ same e (e' + (21 # 8) / 256 * 384).
Proof.
  split. { apply Forall_cons_2; [split; [apply sens|right; by vm_compute]|]. apply Forall_cons_2; [split; [apply sens|right; by vm_compute]|]. apply Forall_cons_2; [split; [apply sens|right; by vm_compute]|]. constructor. }
  split; [by vm_compute|]. split; [by intros [? _]|]. split. { split; [apply same_dec; by vm_compute|]. split; by vm_compute. }
  cbv zeta. do 2 eexists. split; [vm_compute; reflexivity|]. split; [vm_compute; reflexivity|]. apply same_dec. vm_compute. reflexivity.
Qed.

(** With laminar phases a higher bin may jump.  After a phase reset frames are played as they
    came while the output increment is the input's; but in bins that take their phase from
    the next one something else is remembered, and with the next change of the increment the
    tone goes on from that. *)
Definition onset (i : Z) : Q := ((if (i =? 101)%Z then inject_Z i / 8 - (1 # 16) else if (i =? 100)%Z then inject_Z i / 8 - (1 # 8) else inject_Z i / 8))%Q.
Definition k1 : chunk := Chunk (usual true) (1001 # 1000) 256 true false ((fun _ => 0%Q) <$> seqZ 0 1025).
Definition k2 : chunk := Chunk (usual true) (1001 # 1000) 256 false false (onset <$> seqZ 0 1025).
Definition k3 : chunk := Chunk (usual true) (1001 # 1000) 257 false false ((fun i => 2 * onset i)%Q <$> seqZ 0 1025).
Theorem C80_laminar_refuted : exists i os k' k p' p e' e f, Forall (fun o => match o with Play k => sensible (cfg k) | _ => False end) (os ++ [Play k'; Play k]) /\
  let ch := run (construct 1025) os in let ch' := fst (play ch k') in
  phases k' !! i = Some p' /\ phases k !! i = Some p /\ snd (play ch k') !! i = Some e' /\ snd (play ch' k) !! i = Some e /\
  unity (ratio k) = false /\ ~ resets k i /\ tone (cfg k) i f p' p /\ ~ same e (e' + f * inject_Z (outInc k)).
Proof.
  exists 100%nat, [Play k1], k2, k3. do 4 eexists. exists ((99 # 8) / 256)%Q. split. { apply Forall_cons_2; [apply sens|]. apply Forall_cons_2; [apply sens|]. apply Forall_cons_2; [apply sens|]. constructor. } cbv zeta.
  split; [vm_compute; reflexivity|]. split; [vm_compute; reflexivity|]. split; [vm_compute; reflexivity|]. split; [vm_compute; reflexivity|].
  split; [by vm_compute|]. split; [by intros [? _]|]. split. { split; [apply same_dec; by vm_compute|]. split; by vm_compute. }
  apply not_same. by vm_compute.
Qed.
Print Assumptions C80_laminar_refuted.

(** reset() takes the next frames for unchanged without forgetting the phases: bins above
    16 kHz then jump even with independent phases. *)
Definition r1 : chunk := Chunk (usual false) (3 # 2) 384 false false (hum 1).
Definition r2 : chunk := Chunk (usual false) 1 256 false false (hum 2).
Definition r3 : chunk := Chunk (usual false) (3 # 2) 384 false false (hum 3).
Theorem C80_after_reset_refuted : exists i os k' k p' p e' e f, Forall (fun o => match o with Play k => sensible (cfg k) /\ alone (cfg k) i | _ => True end) (os ++ [Reset; Play k'; Play k]) /\
  let ch := run (construct 1025) (os ++ [Reset]) in let ch' := fst (play ch k') in
  phases k' !! i = Some p' /\ phases k !! i = Some p /\ snd (play ch k') !! i = Some e' /\ snd (play ch' k) !! i = Some e /\
  unity (ratio k) = false /\ ~ resets k i /\ tone (cfg k) i f p' p /\ ~ same e (e' + f * inject_Z (outInc k)).
Proof.
  exists 1000%nat, [Play r1], r2, r3. do 4 eexists. exists ((1001 # 8) / 256)%Q. split. { apply Forall_cons_2; [split; [apply sens|by left]|]. apply Forall_cons_2; [done|]. apply Forall_cons_2; [split; [apply sens|by left]|]. apply Forall_cons_2; [split; [apply sens|by left]|]. constructor. } cbv zeta.
  split; [vm_compute; reflexivity|]. split; [vm_compute; reflexivity|]. split; [vm_compute; reflexivity|]. split; [vm_compute; reflexivity|].
  split; [by vm_compute|]. split; [by intros [? _]|]. split. { split; [apply same_dec; by vm_compute|]. split; by vm_compute. }
  apply not_same. by vm_compute.
Qed.
Print Assumptions C80_after_reset_refuted.
