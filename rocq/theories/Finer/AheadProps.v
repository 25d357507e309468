(** Property C85: what the frames of the finer engine are made from. *)
From stdpp Require Import prelude list numbers.
From Coq Require Import ZArith QArith Lia.
From Verif Require Import Base.Arith Finer.SegmenterModel Finer.GuideModel Finer.EngineModel Finer.AheadModel Finer.AheadSpec Finer.AheadProofs.
From Verif Require Finer.ClassifierModel.
From stdpp Require Import list.
Local Open Scope Z_scope.

Definition sizesOf (sh : bool) (g : guide) : list Z := if sh then [cfft g] else [longest g; shortest g; cfft g].
(** C85, for a new stretcher: however the sound is supplied and the ratio changed, the frames of
    all sizes are centred on the place the input has reached, the one of the classification too
    whether taken from the readahead or not, and the input moves on by the hop. *)
Theorem C85_centred : forall {A B} (zero : A) (analyse : Z -> list A -> B) (scale : Z -> B -> B) rt sh hc hq r cv E q dark l,
  newShape rt sh hc hq r cv = Some E -> exists g, newGuide (validRate r) sh = Some g /\ (Forall (hopsFit (longest g)) l -> Forall withoutReset l ->
  exists s fs, runA zero analyse scale E g (newChan E q dark) l = Some (s, fs) /\
    centred zero analyse scale (sizesOf sh g) (longest g) (cfft g) (useReadahead E) (suppliedBy l) 0 fs).
Proof.
  intros A B zero analyse scale rt sh hc hq r cv E q dark l H. destruct (geometry_ok _ _ _ _ _ _ _ H) as (g & Eg & G). exists g. split; [exact Eg|]. intros H1 H2.
  exact (session0 zero analyse scale E g _ G q dark l H1 H2).
Qed.
Print Assumptions C85_centred.
(** C85, after a reset that may come at any point: nothing of the sound before it is left. *)
Theorem C85_after_reset : forall {A B} (zero : A) (analyse : Z -> list A -> B) (scale : Z -> B -> B) rt sh hc hq r cv E q dark pre l,
  newShape rt sh hc hq r cv = Some E -> exists g, newGuide (validRate r) sh = Some g /\ (Forall (hopsFit (longest g)) pre -> Forall (hopsFit (longest g)) l -> Forall withoutReset l ->
  exists s fs s' fs', runA zero analyse scale E g (newChan E q dark) (pre ++ [Again]) = Some (s, fs) /\ runA zero analyse scale E g s l = Some (s', fs') /\
    centred zero analyse scale (sizesOf sh g) (longest g) (cfft g) (useReadahead E) (suppliedBy l) 0 fs').
Proof.
  intros A B zero analyse scale rt sh hc hq r cv E q dark pre l H. destruct (geometry_ok _ _ _ _ _ _ _ H) as (g & Eg & G). exists g. split; [exact Eg|]. intros H1 H2 H3.
  exact (session zero analyse scale E g _ G q dark pre l H1 H2 H3).
Qed.
Print Assumptions C85_after_reset.

(** At 8 kHz, samples 1, 2, 3 and so on; a spectrum is represented by the first sample of its
    frame, scaling does nothing.  Ratio 1 with readahead, then a tenth without, then 1 again, and
    the end.  Of each frame: the first samples of the frames of 2048, 512 and 1024, of the one
    judged, and the hop. *)
Definition ramp (from n : Z) : list Z := seqZ from n.
Definition ramp_calls : list (acall Z) :=
  [Ratio 1; Block [(ramp 1 2000, 64)] None; Block [(ramp 2001 200, 64)] None; Ratio (1 # 10); Block [(ramp 2201 300, 26)] None; Ratio 1; Block [(ramp 2501 64, 64)] (Some (ramp 2565 100, 64))].
Definition look (f : seen Z) : list Z * Z * Z * Z := (snd <$> spectra f, judged f, ofHop f, moved f).
Example C85_example : exists g E s fs, newShape false false false false 8000 (fun _ => 64%Q) = Some E /\ newGuide (validRate 8000) false = Some g /\
  Forall (hopsFit (longest g)) ramp_calls /\ Forall withoutReset ramp_calls /\
  runA 0 (fun _ x => nth 0 x 0) (fun _ b => b) E g (newChan E 1 0) ramp_calls = Some (s, fs) /\
  look <$> take 8 fs = [([1; 769; 513], 577, 64, 64); ([65; 833; 577], 641, 64, 64); ([129; 897; 641], 705, 64, 64);
                        ([193; 961; 705], 705, 256, 256); ([449; 1217; 961], 961, 256, 256);
                        ([705; 1473; 1217], 1281, 64, 64); ([769; 1537; 1281], 1345, 64, 64); ([833; 1601; 1345], 1409, 64, 64)] /\
  moved <$> drop 34 fs = [64; 40] ++ replicate 32 0.
Proof.
  destruct (newGuide (validRate 8000) false) as [g|] eqn:Eg; [|vm_compute in Eg; discriminate]. destruct (newShape false false false false 8000 (fun _ => 64%Q)) as [E|] eqn:Es; [|vm_compute in Es; discriminate].
  exists g, E. vm_compute in Eg. injection Eg as <-. vm_compute in Es. injection Es as <-.
  eexists _, _. split; [reflexivity|]. split; [reflexivity|]. split; [repeat (apply Forall_cons_2; [cbn; repeat split; try (apply Forall_cons_2; [cbn; lia|]); try apply Forall_nil_2; lia|]); apply Forall_nil_2|].
  split; [repeat (apply Forall_cons_2; [exact I|]); apply Forall_nil_2|]. split; [vm_compute; reflexivity|]. split; vm_compute; reflexivity.
Qed.

(** C85, of what is judged, is false: with readahead it is not scaled and without it is.  A sound
    that does not change at all (here every bin has the sum of the frame's samples for magnitude),
    all of whose frames have the same spectra, is judged percussive in all bins for three frames
    when the time ratio goes from a tenth to 1. *)
Definition level : Z := 100000.
Definition steady : list (acall Z) := [Block [(replicate (Z.to_nat 5120) level, 26)] None; Ratio 1; Block [(replicate (Z.to_nat 1024) level, 64)] None].
Definition classes : ClassifierModel.parameters := ClassifierModel.Parameters 12 9 1 10 2 2 1.
Definition hear (g : guide) (E : shape) : option (list (list Z) * list Z * list (list classification)) :=
  '(_, fs) ← runA 0 (fun _ x => foldr Z.add 0 x) (fun n b => b / n) E g (newChan E (1 # 10) 0) steady;
  s0 ← ClassifierModel.create classes;
  '(_, cs) ← ClassifierModel.run classes s0 ((fun f : seen Z => ClassifierModel.Classify (replicate 12 (judged f))) <$> fs);
  Some ((fun f : seen Z => snd <$> spectra f) <$> fs, judged <$> fs, cs).
Theorem C85_judged_refuted : exists g E, newShape true false false false 8000 (fun _ => 64%Q) = Some E /\ newGuide (validRate 8000) false = Some g /\
  Forall (hopsFit (longest g)) steady /\
  hear g E = Some (replicate 26 [level; level; level], replicate 13 level ++ replicate 13 (1024 * level),
    [replicate 12 Harmonic] ++ replicate 13 (replicate 12 Residual) ++ replicate 3 (replicate 12 Percussive) ++ replicate 9 (replicate 12 Residual)).
Proof.
  destruct (newGuide (validRate 8000) false) as [g|] eqn:Eg; [|vm_compute in Eg; discriminate]. destruct (newShape true false false false 8000 (fun _ => 64%Q)) as [E|] eqn:Es; [|vm_compute in Es; discriminate].
  exists g, E. vm_compute in Eg. injection Eg as <-. vm_compute in Es. injection Es as <-.
  split; [reflexivity|]. split; [reflexivity|]. split; [|vm_compute; reflexivity].
  repeat (apply Forall_cons_2; [cbn [hopsFit steady]; repeat split; try (apply Forall_cons_2; [cbn [snd longest]; lia|]); try apply Forall_nil_2|]); apply Forall_nil_2.
Qed.
Print Assumptions C85_judged_refuted.
