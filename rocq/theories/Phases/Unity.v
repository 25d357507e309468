(** Property C95: coming back to ratio 1. *)
From stdpp Require Import prelude.
From Coq Require Import ZArith QArith Qround Qabs Lia Lqa.
From Verif Require Import Base.Arith Phases.Model Phases.Spec Phases.Proofs Phases.Props.
From stdpp Require Import list.
Local Open Scope Z_scope.

(** ** Spec *)
(** A chunk at ratio 1 without a transient, in which bin [i] goes by itself. *)
Definition level (i : nat) (k : chunk) : Prop :=
  sensible (cfg k) /\ alone (cfg k) i /\ unity (ratio k) = true /\ phaseReset k = false /\ outInc k = inc (cfg k).
(** Bin [i] is within 16 kHz; or above, but not the last one. *)
Definition within (c : config) (i : nat) : Prop := Z.of_nat i <= bin_of c 16000.
Definition beyond (c : config) (i : nat) : Prop := bin_of c 16000 < Z.of_nat i < fft c / 2.

(** ** Proofs *)
Lemma low_after ch k : unityLow (fst (play ch k)) = (if unity (ratio k) then unityLow ch * (9 # 10) else 16000)%Q.
Proof. unfold play, synthesise, modifyChunk. by destruct (loop _ _ _ _ _ _ _). Qed.
Lemma unity_bands c r u i : unity r = true ->
  resetBin (bandsOf c r false u) (Z.of_nat i) = negb ((bin_of c u <? Z.of_nat i) && (Z.of_nat i <? fft c / 2)).
Proof. intros H. unfold bandsOf. rewrite H. cbn [andb negb]. destruct (if laminar c && ltQ 1 r then _ else _) as [[f0 f1] f2]. done. Qed.
Lemma reset_bin ch k i x p : unity (ratio k) = true -> phaseReset k = false -> Z.of_nat i <= bin_of (cfg k) (unityLow ch) ->
  bins ch !! i = Some x -> phases k !! i = Some p -> bins (fst (play ch k)) !! i = Some (Bin p 0 p).
Proof.
  intros Hu Hr Hi Hx Hp. unfold play, synthesise, modifyChunk. rewrite Hr.
  destruct (loop_lookup (cfg k) (bandsOf (cfg k) (ratio k) false (unityLow ch)) (outInc k) false 0 (bins ch) (phases k) i x p Hx Hp) as (a & H & _).
  destruct (loop _ _ _ _ _ _ _) as [b ys]. cbn [fst snd bins] in *. rewrite H. f_equal. apply oneBin_reset. rewrite Z.add_0_l, unity_bands by done.
  assert (bin_of (cfg k) (unityLow ch) <? Z.of_nat i = false) as -> by lia. done.
Qed.
Lemma played_bin ch k i y p e : bins (fst (play ch k)) !! i = Some y -> phases k !! i = Some p -> snd (play ch k) !! i = Some e ->
  e = (if unchanged (fst (play ch k)) then p else unwrapped y).
Proof.
  unfold play, synthesise. cbn [fst snd bins unchanged]. intros Hy Hp He. destruct (unchanged _ && _); [congruence|].
  rewrite list_lookup_fmap, Hy in He. cbn in He. congruence.
Qed.
Lemma not_unchanged ch k : phaseReset k = false -> unchanged ch = false \/ outInc k <> inc (cfg k) -> unchanged (fst (play ch k)) = false.
Proof.
  intros Hr H. unfold play, synthesise, modifyChunk. rewrite Hr.
  pose proof (loop_full (cfg k) (bandsOf (cfg k) (ratio k) false (unityLow ch)) (outInc k) false 0 (bins ch) (phases k)) as F.
  destruct (loop _ _ _ _ _ _ _) as [b ys]. cbn [fst snd unchanged] in *. destruct (full b); [by specialize (F eq_refl)|].
  destruct H as [->|H]; [done|]. assert (outInc k =? inc (cfg k) = false) as -> by lia. by rewrite andb_false_r.
Qed.
Lemma run_snoc ch os o : run ch (os ++ [o]) = step (run ch os) o.
Proof. unfold run. by rewrite fold_left_app. Qed.
Lemma other_low n os k0 : unity (ratio k0) = false -> unityLow (run (construct n) (os ++ [Play k0])) = 16000%Q.
Proof. intros H. rewrite run_snoc. cbn [step]. by rewrite low_after, H. Qed.

(** C95: in the very first chunk at ratio 1, after any history that ends in one at another ratio, every bin within
    16 kHz is played with the phase of the input: all at once, not gradually. *)
Theorem C95_at_once : forall n os k0 k i p e, let ch := run (construct n) (os ++ [Play k0]) in
  unity (ratio k0) = false -> unity (ratio k) = true -> phaseReset k = false -> within (cfg k) i ->
  is_Some (bins ch !! i) -> phases k !! i = Some p -> snd (play ch k) !! i = Some e -> e = p.
Proof.
  intros n os k0 k i p e ch H0 Hu Hr Hi [x Hx] Hp He.
  assert (unityLow ch = 16000%Q) as L by (by apply other_low).
  assert (bins (fst (play ch k)) !! i = Some (Bin p 0 p)) as Hy by (eapply reset_bin; [done|done|by rewrite L|done|done]).
  rewrite (played_bin ch k i _ p e Hy Hp He). by destruct (unchanged _).
Qed.
Print Assumptions C95_at_once.

(** One chunk at ratio 1 keeps a bin with the input, and keeps a bin beyond 16 kHz off it by as much as it was. *)
Lemma level_step i ch k x p : level i k -> (unityLow ch <= 16000)%Q -> bins ch !! i = Some x -> phases k !! i = Some p -> Ok i ch ->
  exists y, bins (fst (play ch k)) !! i = Some y /\ prevPhase y = p /\ (unityLow (fst (play ch k)) <= 16000)%Q /\
    (same (unwrapped x) (prevPhase x) -> same (unwrapped y) (prevPhase y)) /\
    (beyond (cfg k) i -> same (unwrapped y - prevPhase y) (unwrapped x - prevPhase x)).
Proof.
  intros (Hc & Ha & Hu & Hr & Ho) L Hx Hp Hok.
  destruct (modify_bin (cfg k) (ratio k) (outInc k) (phaseReset k) ch (phases k) i x p Hc Ha Hok Hx Hp) as (y & H1 & H2 & _ & H4).
  exists y. split; [exact H1|]. split; [done|]. split.
  { rewrite low_after, Hu. destruct (Qlt_le_dec (unityLow ch) 0); lra. }
  rewrite Hr, unity_bands in H4 by done. split.
  - intros S. destruct (negb _); rewrite H4; cbn [unwrapped prevPhase]; [by apply same_refl|]. by apply unit_bin.
  - intros [B1 B2]. pose proof (bin_of_le (cfg k) _ _ Hc L).
    assert (bin_of (cfg k) (unityLow ch) <? Z.of_nat i = true) as E1 by lia. assert (Z.of_nat i <? fft (cfg k) / 2 = true) as E2 by lia.
    rewrite E1, E2 in H4. cbn [andb negb] in H4. rewrite H4. cbn [unwrapped prevPhase]. rewrite Ho.
    set (d := princ (p - (prevPhase x + omega (cfg k) i))).
    destruct (princ_same (p - (prevPhase x + omega (cfg k) i))) as [z Hz]. fold d in Hz. exists z.
    pose proof (inc_nz _ Hc) as Hn.
    assert (inject_Z (inc (cfg k)) * ((omega (cfg k) i + d) / inject_Z (inc (cfg k))) == omega (cfg k) i + d)%Q as -> by (by field).
    rewrite Hz. ring.
Qed.
Lemma level_ok i k ch : level i k -> Ok i ch -> Ok i (fst (play ch k)).
Proof. intros (Hc & Ha & _). by apply play_ok. Qed.

(** C95: at ratio 1, whatever came before, a bin within 16 kHz that goes by itself is played as it came, in the first
    chunk and ever after. *)
Theorem C95_back_partial : forall n os k0 k1 ks k i p e, plain i (os ++ [Play k0]) ->
  unity (ratio k0) = false -> Forall (level i) (k1 :: ks ++ [k]) -> Forall (fun k => is_Some (phases k !! i)) (k1 :: ks) -> within (cfg k1) i ->
  let ch := run (construct n) (os ++ [Play k0]) in is_Some (bins ch !! i) ->
  phases k !! i = Some p -> snd (play (run ch (Play <$> k1 :: ks)) k) !! i = Some e -> same e p.
Proof.
  intros n os k0 k1 ks k i p e Hpl H0 Hk Hs Hi ch [x Hx] Hp He.
  assert (Ok i ch) as Hok by (apply run_ok; [done|apply construct_ok]).
  assert (unityLow ch = 16000%Q) as L by (by apply other_low).
  apply Forall_cons in Hk as [Hk1 Hk]. apply Forall_app in Hk as [Hks Hk]. apply Forall_cons in Hk as [Hk _].
  apply Forall_cons in Hs as [[p1 Hp1] Hs].
  assert (forall ks ch, Forall (level i) ks -> Forall (fun k => is_Some (phases k !! i)) ks -> (unityLow ch <= 16000)%Q -> Ok i ch ->
    (exists x, bins ch !! i = Some x /\ same (unwrapped x) (prevPhase x)) ->
    let ch' := run ch (Play <$> ks) in (unityLow ch' <= 16000)%Q /\ Ok i ch' /\ exists x, bins ch' !! i = Some x /\ same (unwrapped x) (prevPhase x)) as J.
  { clear. induction ks as [|k ks IH]; intros ch Hl Hs L Hok (x & Hx & S); [by split_and!; try done; exists x|].
    apply Forall_cons in Hl as [Hk Hl]. apply Forall_cons in Hs as [[p Hp] Hs].
    destruct (level_step i ch k x p Hk L Hx Hp Hok) as (y & Hy & _ & L' & S' & _).
    apply (IH (fst (play ch k))); [done|done|done|by apply level_ok|]. exists y. split; [done|]. by apply S'. }
  destruct Hk1 as (Hc & Ha & Hu & Hr & Ho). 
  assert (bins (fst (play ch k1)) !! i = Some (Bin p1 0 p1)) as Hy by (eapply reset_bin; [done|done|by rewrite L|done|done]).
  destruct (J ks (fst (play ch k1))) as (L2 & Ok2 & z & Hz & Sz); [done|done| |by apply play_ok|by exists (Bin p1 0 p1); split; [|apply same_refl]|].
  { rewrite low_after, Hu, L. by vm_compute. }
  change (run ch (Play <$> k1 :: ks)) with (run (fst (play ch k1)) (Play <$> ks)) in He.
  destruct (level_step i _ k z p Hk L2 Hz Hp Ok2) as (w & Hw & Pw & _ & Sw & _).
  rewrite (played_bin _ k i w p e Hw Hp He). destruct (unchanged _); [by apply same_refl|]. rewrite <- Pw. by apply Sw.
Qed.
Print Assumptions C95_back_partial.

(** C95: a bin beyond 16 kHz is never put back: it stays off the input by as much as when the sound was last stretched,
    through any number of chunks at ratio 1. *)
Theorem C95_never_back : forall n os k0 ks k i p0 e0 p e, plain i (os ++ [Play k0]) ->
  unity (ratio k0) = false -> phaseReset k0 = false -> outInc k0 <> inc (cfg k0) -> let ch0 := run (construct n) os in
  phases k0 !! i = Some p0 -> snd (play ch0 k0) !! i = Some e0 -> is_Some (bins ch0 !! i) ->
  Forall (level i) (ks ++ [k]) -> Forall (fun k => is_Some (phases k !! i) /\ beyond (cfg k) i) (ks ++ [k]) ->
  phases k !! i = Some p -> snd (play (run ch0 (Play <$> k0 :: ks)) k) !! i = Some e -> same (e - p) (e0 - p0).
Proof.
  intros n os k0 ks k i p0 e0 p e Hpl H0 Hr0 Ho0 ch0 Hp0 He0 [x0 Hx0] Hl Hs Hp He.
  apply Forall_app in Hpl as [Hpl Hk0]. apply Forall_cons in Hk0 as [[Hc0 Ha0] _].
  assert (Ok i ch0) as Hok by (apply run_ok; [done|apply construct_ok]).
  destruct (play_bin i ch0 k0 x0 p0 e0 Hc0 Ha0 Hok Hx0 Hp0 He0) as (x & Hx & Px & _ & _).
  assert (unchanged (fst (play ch0 k0)) = false) as Un by (apply not_unchanged; auto).
  pose proof (played_bin ch0 k0 i x p0 e0 Hx Hp0 He0) as E0. rewrite Un in E0.
  assert (forall ks ch x, Forall (level i) ks -> Forall (fun k => is_Some (phases k !! i) /\ beyond (cfg k) i) ks -> (unityLow ch <= 16000)%Q -> unchanged ch = false ->
    bins ch !! i = Some x -> let ch' := run ch (Play <$> ks) in (unityLow ch' <= 16000)%Q /\ unchanged ch' = false /\
    exists y, bins ch' !! i = Some y /\ same (unwrapped y - prevPhase y) (unwrapped x - prevPhase x)) as J.
  { clear. induction ks as [|k ks IH]; intros ch x Hl Hs L U Hx; [by split_and!; try done; exists x; split; [|apply same_refl]|].
    apply Forall_cons in Hl as [Hk Hl]. apply Forall_cons in Hs as [[[p Hp] B] Hs].
    destruct (level_step i ch k x p Hk L Hx Hp) as (y & Hy & _ & L' & _ & S'); [intros Y; congruence|].
    destruct (IH (fst (play ch k)) y) as (L2 & U2 & z & Hz & Sz); [done|done|done| |done|].
    { apply not_unchanged; [by destruct Hk as (_ & _ & _ & ? & _)|by left]. }
    split_and!; try done. exists z. split; [done|]. eapply same_trans; [exact Sz|]. by apply S'. }
  apply Forall_app in Hl as [Hl Hk]. apply Forall_cons in Hk as [Hk _]. apply Forall_app in Hs as [Hs Hsk]. apply Forall_cons in Hsk as [[_ B] _].
  destruct (J ks (fst (play ch0 k0)) x) as (L2 & U2 & z & Hz & Sz); [done|done| |done|done|].
  { rewrite low_after, H0. lra. }
  change (run ch0 (Play <$> k0 :: ks)) with (run (fst (play ch0 k0)) (Play <$> ks)) in He.
  destruct (level_step i _ k z p Hk L2 Hz Hp) as (w & Hw & Pw & _ & _ & Sw); [intros Y; congruence|].
  assert (unchanged (fst (play (run (fst (play ch0 k0)) (Play <$> ks)) k)) = false) as U3.
  { apply not_unchanged; [by destruct Hk as (_ & _ & _ & ? & _)|by left]. }
  rewrite (played_bin _ k i w p e Hw Hp He), U3, E0, <- Pw, <- Px. eapply same_trans; [by apply Sw|exact Sz].
Qed.
Print Assumptions C95_never_back.

(** Nine bins at 44100 Hz, so that bin 7 (19294 Hz) is beyond: stretched once by 2, then at ratio 1. *)
Definition plainly : config := Config 4 16 44100 false false 600 1200 12000.
Definition risen : list Q := [1 # 10; 2 # 10; 3 # 10; 4 # 10; 5 # 10; 6 # 10; 7 # 10; 8 # 10; 9 # 10]%Q.
Definition twice : chunk := Chunk plainly 2 8 false false risen.
Definition equal : chunk := Chunk plainly 1 4 false false risen.
Lemma plainly_ok : sensible plainly.
Proof. by vm_compute. Qed.
Lemma equal_level i : level i equal.
Proof. split; [apply plainly_ok|]. split; [by left|]. done. Qed.
Example C95_example : within plainly 6 /\ beyond plainly 7 /\ unity (ratio twice) = false /\ level 7 equal /\
  (Qred <$> snd (play (construct 9) twice)) = [1 # 5; 2 # 5; 3 # 5; 4 # 5; 3; 16 # 5; 17 # 5; 18 # 5; 19 # 5]%Q.
Proof. split; [by vm_compute|]. split; [by vm_compute|]. split; [done|]. split; [apply equal_level|]. vm_compute. reflexivity. Qed.

(** So the return is neither gradual nor complete: of these nine bins seven, all of them off before, are with the input
    in the first chunk, and bin 7 is off by 0.8 of a turn after any number of them. *)
Lemma some_played ch k i : is_Some (bins ch !! i) -> is_Some (phases k !! i) -> is_Some (bins (fst (play ch k)) !! i) /\ is_Some (snd (play ch k) !! i).
Proof.
  intros [x Hx] [p Hp]. unfold play, synthesise, modifyChunk.
  destruct (loop_lookup (cfg k) (bandsOf (cfg k) (ratio k) (phaseReset k) (unityLow ch)) (outInc k) (phaseReset k) 0 (bins ch) (phases k) i x p Hx Hp) as (a & H & _).
  destruct (loop _ _ _ _ _ _ _) as [b ys]. cbn [fst snd bins unchanged] in *. rewrite H. split; [by eexists|].
  destruct (_ && _); [by eexists|]. rewrite list_lookup_fmap, H. by eexists.
Qed.
Theorem C95_gradual_refuted : exists k0 k, unity (ratio k0) = false /\ (forall i, level i k) /\
  (forall i p e0, (i < 7)%nat -> phases k0 !! i = Some p -> snd (play (construct 9) k0) !! i = Some e0 -> ~ same e0 p) /\
  (forall i p e, (i < 7)%nat -> phases k !! i = Some p -> snd (play (fst (play (construct 9) k0)) k) !! i = Some e -> e = p) /\
  (forall m, exists p e, phases k !! 7%nat = Some p /\ snd (play (run (construct 9) (Play <$> k0 :: replicate m k)) k) !! 7%nat = Some e /\ ~ same e p).
Proof.
  exists twice, equal. split; [done|]. split; [apply equal_level|]. split; [|split].
  - intros i p e0 Hi Hp He.
    do 7 (destruct i as [|i]; [vm_compute in Hp, He; injection Hp as <-; injection He as <-; apply not_same; vm_compute; reflexivity|]). lia.
  - intros i p e Hi Hp He. apply (C95_at_once 9 [] twice equal i p e); [reflexivity|reflexivity|reflexivity| | |exact Hp|exact He].
    + unfold within. assert (bin_of (cfg equal) 16000 = 6) as -> by (by vm_compute). lia.
    + do 7 (destruct i as [|i]; [vm_compute; by eexists|]). lia.
  - intros m. exists (8 # 10)%Q.
    assert (forall m, is_Some (bins (run (construct 9) (Play <$> twice :: replicate m equal)) !! 7%nat)) as B.
    { clear. intros m. change (run (construct 9) (Play <$> twice :: replicate m equal)) with (run (fst (play (construct 9) twice)) (Play <$> replicate m equal)).
      assert (is_Some (bins (fst (play (construct 9) twice)) !! 7%nat)) as B by (vm_compute; by eexists).
      revert B. generalize (fst (play (construct 9) twice)). induction m as [|m IH]; intros ch B; [done|]. apply (IH (fst (play ch equal))). apply some_played; [done|by eexists]. }
    destruct (proj2 (some_played _ equal 7 (B m) (ltac:(by eexists)))) as [e He]. exists e. split; [done|]. split; [done|]. intros S.
    assert (same (e - (8 # 10)) ((18 # 5) - (8 # 10))) as T.
    { destruct (snd (play (construct 9) twice) !! 7%nat) as [e0|] eqn:E0; [|vm_compute in E0; done].
      assert (e0 == 18 # 5)%Q as Q0 by (vm_compute in E0; injection E0 as <-; vm_compute; reflexivity).
      apply (same_eq (e - (8 # 10)) (e0 - (8 # 10))); [reflexivity|by rewrite Q0|].
      apply (C95_never_back 9 [] twice (replicate m equal) equal 7 (8 # 10) e0 (8 # 10) e); 
        [|reflexivity|reflexivity|discriminate|reflexivity|exact E0|by eexists| | |reflexivity|exact He].
      - constructor; [|constructor]. split; [apply plainly_ok|by left].
      - apply Forall_app. split; [apply Forall_replicate|constructor; [|constructor]]; apply equal_level.
      - assert (is_Some (phases equal !! 7%nat) /\ beyond (cfg equal) 7) as P by (split; [by eexists|by vm_compute]).
        apply Forall_app. split; [by apply Forall_replicate|by constructor]. }
    assert (same 0 (e - (8 # 10))) as Z by (apply same_sym; destruct S as [z Hz]; exists z; rewrite Hz; ring).
    apply (not_same 0 ((18 # 5) - (8 # 10))); [vm_compute; reflexivity|]. by apply (same_trans _ (e - (8 # 10))).
Qed.
Print Assumptions C95_gradual_refuted.

(** With laminar phases, the default, bins that were put back leave the input again, at ratio 1: nine bins, stretched
    once by 2, then at ratio 1, phase errors growing steadily and more so in lower bins.  Bin 4 (11 kHz) is with the
    input in the first five chunks, and off by more than half a turn in the sixth and seventh. *)
Definition lam : config := Config 4 16 44100 true false 600 1200 12000.
Definition growing (j : Z) : list Q := (fun i => Qred (inject_Z (j * i) / 4 + inject_Z (j * (j + 1) * (9 - i)) / 2000)%Q) <$> [0; 1; 2; 3; 4; 5; 6; 7; 8].
Definition off (ks : list chunk) (i : nat) : list (option Q) :=
  (fun kp => a ← kp.2 !! i; b ← phases kp.1 !! i; Some (Qred (a - b - inject_Z (Qfloor (a - b)))%Q)) <$> zip ks (played (construct 9) ks).
Theorem C95_laminar_refuted : exists k0 ks, sensible (cfg k0) /\ unity (ratio k0) = false /\
  Forall (fun k => cfg k = cfg k0 /\ unity (ratio k) = true /\ phaseReset k = false /\ outInc k = inc (cfg k) /\ within (cfg k) 4) ks /\
  tail (off (k0 :: ks) 4) = [Some 0; Some 0; Some 0; Some 0; Some 0; Some (4427 # 6400); Some (22187 # 32000)]%Q.
Proof.
  exists (Chunk lam 2 8 false false (growing 1)), ((fun j => Chunk lam 1 4 false false (growing j)) <$> [2; 3; 4; 5; 6; 7; 8]).
  split; [by vm_compute|]. split; [reflexivity|]. split.
  - apply Forall_fmap, Forall_true. intros j. cbn [compose]. split_and!; try reflexivity. unfold within. cbn [cfg]. vm_compute. discriminate.
  - vm_compute. reflexivity.
Qed.
Print Assumptions C95_laminar_refuted.
