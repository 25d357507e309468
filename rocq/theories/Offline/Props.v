(** Properties of a whole offline R2 stretcher, as its client sees it. *)
From stdpp Require Import prelude.
From Coq Require Import ZArith QArith Qround Lia Lqa.
From Verif Require Import Base.Arith Faster.Model Offline.Model Offline.Spec Offline.Study Offline.Fresh Offline.Length Offline.Whole Offline.Range.
Local Open Scope Z_scope.

(** C69: exactly the expected number of sample frames comes out of an offline run with a
    study pass, on every channel, in whatever blocks the signal goes in and is fetched, at no
    pitch change. *)
Theorem C69_offline_length_partial : forall {A S R K KS} (D : dsp A S R K) (X : outside A S R KS),
  (forall k a, zlen (fst (fst (fst (onset X k a)))) = zlen a) ->
  (forall s x, zlen (fst (analyse D s x)) = zlen x) ->
  (forall s x p r si, zlen (fst (modify D s x p r si)) = zlen x) ->
  (forall si, 32768 <= zlen (shape D si)) ->
  forall o rt n t sets N len0 l0 b0 bs0 len l b bs tail,
  8000 <= rt <= 192000 -> (1 <= n)%nat -> highC o = false -> (1 <= inject_Z (2 ^ 40) * t)%Q -> (t <= inject_Z (2 ^ 40))%Q ->
  Forall setting sets -> covered rt (smoothTransients o) (lastTime t sets) ->
  lastExpected 0 sets <= 0 \/ 4096 <= lastExpected 0 sets -> 4096 <= N ->
  studies n len0 l0 -> block n b0 bs0 -> 0 < b0 -> len0 + b0 = N ->
  streams n len l -> block n b bs -> len + b = N -> Forall fetch tail ->
  exists rs, session D X o rt n t 1 (sets ++ l0 ++ Study bs0 true :: l ++ Process bs true :: tail) = Some rs /\
    Forall (levelAnswer n) rs /\ allFrames rs <= rint (inject_Z N * lastTime t sets) /\
    (rint (inject_Z N * lastTime t sets) <= asked tail -> allFrames rs = rint (inject_Z N * lastTime t sets)).
Proof.
  intros A S R K KS D X Hons Han Hmo Hsh o rt n t sets N len0 l0 b0 bs0 len l b bs tail Hrt Hn Hhc Ht1 Ht2 Hsets Hcov Hex HN
    Hl0 Hb0 Hb0p HN0 Hl Hb HN1 Htail.
  destruct (create_fresh D X o rt n t Hrt Ht1 Ht2 Hhc Hn) as (e & c & E & HF & Ho & Hr & Hnc & Ht & He).
  destruct (settings_fresh D X sets e c HF Hsets) as (e0 & c0 & E0 & HF0 & Ho0 & Hr0 & Hn0 & Ht0 & He0).
  rewrite Ht in Ht0. rewrite He in He0.
  assert (Hcov0 : covered (rate e0) (smoothTransients (opts e0)) (time e0)).
  { rewrite Hr0, Ho0, Hr, Ho. destruct Hcov as [H1 H2]. split; [by rewrite Ht0|]. rewrite Ht0. exact H2. }
  pose proof (covered_good D e0 c0 N HF0 Hcov0 ltac:(by rewrite He0) HN Hsh) as HG.
  assert (Hne : nch e0 = n) by congruence.
  destruct (whole D X Hons Han Hmo e0 c0 N len0 l0 b0 bs0 len l b bs tail HF0 HG) as (rs & e' & Er & Hlv & Hle & Heq); try (rewrite ?Hne; done).
  rewrite Hne in Hlv.
  assert (Hri : rint (inject_Z N * time e0) = rint (inject_Z N * lastTime t sets)) by (apply rint_comp; by rewrite Ht0).
  rewrite Hri in *. exists (replicate (length sets) Done ++ rs). split.
  { unfold session. rewrite E. change (Some ?x ≫= ?f) with (f x). cbv beta. by rewrite (steps_app D X e sets _ _ e0 rs e' E0 Er). }
  assert (Hz : forall k, allFrames (replicate k (Done (A := A))) = 0).
  { induction k as [|k IHk]; [done|]. cbn [replicate]. rewrite allFrames_cons, IHk. done. }
  split; [apply Forall_app; split; [by apply Forall_replicate|done]|]. rewrite allFrames_app, Hz. done.
Qed.
Print Assumptions C69_offline_length_partial.

(** Samples are integers, spectral processing is the identity, all windows are one; [k] is the
    length of the windows. *)
Definition plainD (k : Z) : dsp Z unit unit unit :=
  Dsp Z unit unit unit 0 1 Z.add Z.sub (fun a b => a / b) (fun a => a / 2) (fun s x => (x, s)) (fun s x _ _ _ => (x, s))
    (fun _ => replicate (Z.to_nat k) 1) (fun r x _ _ _ => (x, r)) (fun k _ => (1, 1, false, k)).
(** The mixdown is the first channel; there is an onset in every [p]th chunk studied. *)
Definition plainX (p : Z) : outside Z unit unit Z :=
  Outside Z unit unit Z (fun l => match l with x :: _ => x | [] => 0 end) (fun _ _ => 0) (fun _ => 0)
    (fun k a => (a, (if k mod p =? p - 1 then 100 else 1)%Q, false, k + 1)) (fun _ => tt) (fun s => s) tt (fun r => r).
Definition plainO (short : bool) : options := Options short false false false false false false.
Definition ones (n : Z) : list Z := replicate (Z.to_nat n) 1.
Lemma ones_block n : 0 <= n -> block 1 n [ones n].
Proof. intros H. split; [done|]. constructor; [|constructor]. unfold zlen, ones. rewrite replicate_length. lia. Qed.

(** Twice the duration, in two blocks for the study pass and two for processing, fetched in three pieces. *)
Example C69_example : exists rs,
  session (plainD 32768) (plainX 8) (plainO true) 8000 1 1 1
    ([SetMax 6000; SetTime (3 # 2)] ++ [Study [ones 1000] false] ++ Study [ones 3200] true ::
     [Available; Process [ones 3000] false; Retrieve 500; Available] ++ Process [ones 1200] true :: [Available; Retrieve 4000; Retrieve 9999]) = Some rs /\
  Forall (levelAnswer 1) rs /\ allFrames rs = 6300.
Proof.
  destruct (C69_offline_length_partial (plainD 32768) (plainX 8)) with (o := plainO true) (rt := 8000) (n := 1%nat) (t := 1%Q)
    (sets := [SetMax 6000; SetTime (3 # 2)] : list (call (A := Z))) (N := 4200) (len0 := 1000) (l0 := [Study [ones 1000] false])
    (b0 := 3200) (bs0 := [ones 3200]) (len := 3000) (l := [Available; Process [ones 3000] false; Retrieve 500; Available])
    (b := 1200) (bs := [ones 1200]) (tail := [Available; Retrieve 4000; Retrieve 9999] : list (call (A := Z)))
    as (rs & E & Hlv & _ & Heq).
  - intros k a. reflexivity.
  - intros s x. reflexivity.
  - intros s x p r si. reflexivity.
  - intros si. unfold zlen. cbn [shape plainD]. rewrite replicate_length. lia.
  - lia.
  - lia.
  - reflexivity.
  - vm_compute. discriminate.
  - vm_compute. discriminate.
  - constructor; [apply set_max|]. constructor; [apply set_time; vm_compute; discriminate|constructor].
  - split; [vm_compute; discriminate|]. left. vm_compute. discriminate.
  - left. cbn. lia.
  - lia.
  - apply (studies_cons 1 1000 [ones 1000] 0 []); [apply ones_block; lia|constructor].
  - apply ones_block. lia.
  - lia.
  - lia.
  - constructor; [constructor|]. apply (streams_process 1 3000 [ones 3000] 0 [Retrieve 500; Available]); [apply ones_block; lia|].
    constructor; [constructor; lia|]. constructor; [constructor|]. constructor.
  - apply ones_block. lia.
  - lia.
  - constructor; [constructor|]. constructor; [constructor; lia|]. constructor; [constructor; lia|constructor].
  - exists rs. split; [exact E|]. split; [exact Hlv|].
    assert (Hr : rint (inject_Z 4200 * lastTime 1 ([SetMax 6000; SetTime (3 # 2)] : list (call (A := Z)))) = 6300) by (vm_compute; reflexivity).
    rewrite Hr in Heq. apply Heq. vm_compute. discriminate.
Qed.

(** C69 is false at low ratios.  Where hard onsets come so close together that the shortened
    audio between two of them is no longer than one increment, each of them costs the stretch
    profile an entry; the chunks for which there is none repeat the last increment, and nothing
    limits the output once it has gone past its expected length: at an eighth of the duration,
    with an onset every 64 ms at 8 kHz, 8192 samples give 1408 instead of 1024. *)
Theorem C69_offline_length_refuted : exists rs, rint (inject_Z 8192 * (1 # 8)) = 1024 /\
  session (plainD 256) (plainX 8) (plainO true) 8000 1 (1 # 8) 1 [Study [ones 8192] true; Process [ones 8192] true; Retrieve 5000] = Some rs /\
  allFrames rs = 1408.
Proof. eexists. split; [reflexivity|]. vm_compute. split; reflexivity. Qed.
Print Assumptions C69_offline_length_refuted.
