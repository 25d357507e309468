(** Property C91: a key-frame map stays in force until processing. *)
From stdpp Require Import prelude.
From Coq Require Import ZArith QArith Qround Lia.
From Verif Require Import Base.Arith Faster.Sizes Faster.Model Offline.Model Offline.Spec Offline.Props.
From Verif Require Calculator.Model Finer.EngineModel Finer.EngineProps.
From stdpp Require Import list.
Local Open Scope Z_scope.

(** ** Spec *)
(** Calls that do not set anything up anew. *)
Inductive calm {A} : call (A := A) -> Prop :=
| calm_study bs f : calm (Study bs f) | calm_available : calm Available | calm_retrieve n : calm (Retrieve n)
| calm_time : calm GetTime | calm_pitch : calm GetPitch | calm_incs : calm GetIncrements.
(** Settings: what a client may call before the first block. *)
Inductive adjusts {A S R KS} (e : engine A S R KS) : call (A := A) -> Prop :=
| adj_time q : ~ (q == time e)%Q -> adjusts e (SetTime q)
| adj_pitch q : ~ (q == pitch e)%Q -> adjusts e (SetPitch q)
| adj_expected n : n <> expectedIn e -> adjusts e (SetExpected n)
| adj_max n : maxProc e < n -> adjusts e (SetMax n).

Section KeyMap.
Context {A S R K KS : Type} (D : dsp A S R K) (X : outside A S R KS).
Notation engine := (engine A S R KS).
Implicit Types (e : engine).

(** ** Proofs *)
Lemma studyChunks_sz e e' : sz e = sz e' -> forall fuel c f df sil dur k, studyChunks X fuel e c f df sil dur k = studyChunks X fuel e' c f df sil dur k.
Proof.
  intros E. induction fuel as [|fuel IH]; intros; cbn [studyChunks]; [done|]. rewrite E. destruct (_ || _); [|done]. destruct (_ <=? _); [|done].
  destruct (onset X k _) as [[[a x] s] k']. apply IH.
Qed.
Lemma studyLoop_sz e e' : sz e = sz e' -> forall fuel c m f df sil dur k, studyLoop X fuel e c m f df sil dur k = studyLoop X fuel e' c m f df sil dur k.
Proof.
  intros E. induction fuel as [|fuel IH]; intros; cbn [studyLoop]; [done|]. destruct (_ =? _); [done|]. rewrite (studyChunks_sz e e' E).
  destruct (studyChunks X _ e' _ _ _ _ _ _) as [[[[[c' df'] sil'] dur'] k']|]; [|done]. cbn [mbind option_bind]. apply IH.
Qed.
Lemma calm_step e k a : calm a -> step D X (with_calc e k) a = (fun x => (x.1, with_calc x.2 k)) <$> step D X e a.
Proof.
  intros Ha. destruct Ha as [bs f| |n| | |]; cbn [step]; try done.
  - unfold quietly, study. cbn [emode with_calc]. destruct (emode e); try done; cbn [chans with_mode with_calc]; (destruct (chans e) as [|c cs]; [done|]);
      rewrite (studyLoop_sz (with_mode (with_calc e k) Studying) (with_mode e Studying) eq_refl);
      change (mixdown X (with_mode (with_calc e k) Studying) bs f) with (mixdown X (with_mode e Studying) bs f); cbn [dfs silence inDuration curves with_mode with_calc];
      match goal with |- (?x ≫= _) ≫= _ = _ => destruct x as [[[[[c' df'] sil'] dur'] k']|]; done end.
  - unfold available. cbn [chans with_calc]. destruct (chans e) as [|c cs]; [done|]. change (paramsOf (with_calc e k)) with (paramsOf e).
    match goal with |- context [?x ≫= (fun cs => Some (report cs, _))] => destruct x as [x1|] end; done.
  - unfold retrieve. cbn [chans with_calc]. destruct (takeOut (chans e) n) as [[xs got] cs]. done.
Qed.
(** None of them changes what setKeyFrameMap looks at. *)
Lemma calm_keeps e a r e' : calm a -> step D X e a = Some (r, e') -> calc e' = calc e /\ (emode e' = Processing <-> emode e = Processing).
Proof.
  intros Ha. destruct Ha as [bs f| |n| | |]; cbn [step]; try (intros [= <- <-]; done).
  - unfold quietly, study. destruct (emode e) eqn:Em; try (cbn [mbind option_bind]; intros [= <- <-]; rewrite Em; done);
      cbn [chans with_mode]; (destruct (chans e) as [|c cs]; [intros [= <- <-]; done|]);
      (destruct (studyLoop X _ _ _ _ _ _ _ _ _) as [[[[[c' df'] sil'] dur'] k']|]; [|done]); cbn [mbind option_bind]; intros [= <- <-]; done.
  - unfold available. destruct (chans e) as [|c cs]; [intros [= <- <-]; done|].
    match goal with |- context [?x ≫= (fun cs => Some (report cs, _))] => destruct x as [x1|] end; [|done]. cbn [mbind option_bind]. intros [= <- <-]. done.
  - unfold retrieve. destruct (takeOut (chans e) n) as [[xs got] cs]. intros [= <- <-]. done.
Qed.
Lemma calm_swap e m a : calm a -> step D X (setKeyFrameMap e m) a = (fun x => (x.1, setKeyFrameMap x.2 m)) <$> step D X e a.
Proof.
  intros Ha. assert (G : setKeyFrameMap e m = e \/ setKeyFrameMap e m = with_calc e (Calculator.Model.setKeyFrameMap (calc e) m)) by (unfold setKeyFrameMap; destruct (emode e); auto).
  destruct (step D X e a) as [[r e']|] eqn:E.
  - destruct (calm_keeps e a r e' Ha E) as [Hc Hm]. cbn [fmap option_fmap option_map fst snd].
    unfold setKeyFrameMap at 2. destruct (emode e') eqn:Em'.
    4: { assert (emode e <> Processing) by (intros Q; apply Hm in Q; discriminate). unfold setKeyFrameMap. destruct (emode e); try done; rewrite calm_step by done; rewrite E, Hc; done. }
    3: { assert (Q : emode e = Processing) by (by apply Hm). unfold setKeyFrameMap. rewrite Q, E. done. }
    all: assert (emode e <> Processing) by (intros Q; apply Hm in Q; discriminate); unfold setKeyFrameMap; destruct (emode e); try done; rewrite calm_step by done; rewrite E, Hc; done.
  - cbn. destruct G as [->| ->]; [done|]. rewrite calm_step by done. rewrite E. done.
Qed.

(** C91: a map set stays in force, whatever is studied and asked for after it: it makes no difference
    to anything that follows whether it is set before those calls or after them. *)
Theorem C91_kept_partial : forall e m l rest, Forall calm l ->
  match steps D X e (SetMap m :: l ++ rest), steps D X e (l ++ SetMap m :: rest) with
  | Some (rs, e1), Some (rs', e2) => e1 = e2 /\ exists a b, rs = Done :: a ++ b /\ rs' = a ++ Done :: b /\ length a = length l
  | None, None => True
  | _, _ => False
  end.
Proof.
  intros e m l rest F. revert e. induction F as [|a l Ha F IH]; intros e.
  - cbn [app]. destruct (steps D X e (SetMap m :: rest)) as [[rs e1]|] eqn:E; [|done]. split; [done|]. cbn [steps step] in E. cbn [mbind option_bind] in E.
    destruct (steps D X (setKeyFrameMap e m) rest) as [[rs' e2]|]; [|done]. cbn [mbind option_bind] in E. injection E as <- <-. by exists [], rs'.
  - specialize (fun e' => IH e'). cbn [app steps step]. cbn [mbind option_bind]. rewrite calm_swap by done.
    destruct (step D X e a) as [[r e']|]; [|done]. cbn [fmap option_fmap option_map fst snd mbind option_bind].
    specialize (IH e'). cbn [steps step] in IH. cbn [mbind option_bind] in IH.
    destruct (steps D X (setKeyFrameMap e' m) (l ++ rest)) as [[rs e1]|]; cbn [mbind option_bind] in *.
    + destruct (steps D X e' (l ++ SetMap m :: rest)) as [[rs' e2]|]; [|done]. cbn [mbind option_bind]. destruct IH as (-> & x & y & Ex & -> & Hl). injection Ex as ->.
      split; [done|]. exists (r :: x), y. split; [done|]. split; [done|]. cbn. by f_equal.
    + destruct (steps D X e' (l ++ SetMap m :: rest)) as [[rs' e2]|]; done.
Qed.
(** C91 is false for settings: any that is changed after the map has been set, before the first block,
    drops the map, and everything is as if it had never been set. *)
Theorem C91_dropped : forall e m a rest, emode e = JustCreated -> adjusts e a ->
  steps D X e (SetMap m :: a :: rest) = (fun x => (Done :: x.1, x.2)) <$> steps D X e (a :: rest).
Proof.
  intros e m a rest Em Ha. cbn [steps step]. cbn [mbind option_bind]. 
  assert (G : step D X (setKeyFrameMap e m) a = step D X e a).
  { unfold setKeyFrameMap. rewrite Em. destruct Ha as [q H|q H|n H|n H]; cbn [step].
    - unfold setTimeRatio, begun. cbn [emode time with_calc]. rewrite Em. destruct (Qeq_bool q (time e)) eqn:Q; [apply Qeq_bool_iff in Q; done|]. cbn [orb].
      unfold reconfigure. cbn [emode with_ratios with_calc]. rewrite Em. done.
    - unfold setPitchScale, begun. cbn [emode pitch with_calc]. rewrite Em. destruct (Qeq_bool q (pitch e)) eqn:Q; [apply Qeq_bool_iff in Q; done|]. cbn [orb].
      unfold reconfigure. cbn [emode with_ratios with_calc]. rewrite Em. done.
    - unfold setExpectedInputDuration. cbn [expectedIn with_calc]. destruct (n =? expectedIn e) eqn:Q; [apply Z.eqb_eq in Q; done|].
      unfold reconfigure. cbn [emode with_expected with_calc]. rewrite Em. done.
    - unfold setMaxProcessSize. cbn [maxProc with_calc]. destruct (n <=? maxProc e) eqn:Q; [apply Z.leb_le in Q; lia|].
      unfold reconfigure. cbn [emode with_max with_calc]. rewrite Em. done. }
  rewrite G. destruct (step D X e a) as [[r e']|]; [|done]. cbn [mbind option_bind]. destruct (steps D X e' rest) as [[rs e2]|]; done.
Qed.
(** reset() forgets the map, at any time. *)
Theorem C91_reset : forall e m rest, steps D X e (SetMap m :: Reset :: rest) = (fun x => (Done :: x.1, x.2)) <$> steps D X e (Reset :: rest).
Proof.
  intros e m rest. cbn [steps step]. cbn [mbind option_bind].
  assert (G : reset D X (setKeyFrameMap e m) = reset D X e) by (unfold setKeyFrameMap; destruct (emode e); done).
  rewrite G. unfold quietly. destruct (reset D X e) as [e'|]; [|done]. cbn [mbind option_bind]. destruct (steps D X e' rest) as [[rs e2]|]; done.
Qed.
End KeyMap.
Print Assumptions C91_kept_partial.
Print Assumptions C91_dropped.
Print Assumptions C91_reset.

Definition one2 : list (call (A := Z)) := [Study [ones 1024] true; Process [ones 1024] true; GetIncrements].
Example C91_kept_example : Forall calm [Study [ones 1024] true; Available; Retrieve 7; GetTime] /\
  fst <$> (e ← create (plainD 256) (plainX 8) (plainO true) 8000 1 2 1; steps (plainD 256) (plainX 8) e (SetMap [(512, 1536)] :: [Study [ones 1024] true; Available; Retrieve 7; GetTime] ++ [GetPitch])) =
    Some [Done; Done; Int 0; Audio [[]]; Ratio 2; Ratio 1].
Proof. split; [repeat constructor|]. vm_compute. reflexivity. Qed.
Example C91_dropped_example : exists e, create (plainD 256) (plainX 8) (plainO true) 8000 1 1 1 = Some e /\ emode e = JustCreated /\ adjusts e (SetTime 2) /\ adjusts e (SetMax 5000).
Proof. eexists. split; [vm_compute; reflexivity|]. split; [done|]. split; constructor; vm_compute; (discriminate || reflexivity). Qed.

(** So a client who sets the map first and then the ratio does not get the map: the chunk at source
    frame 512 is played where the ratio puts it, not at 1536, where it goes if the ratio is set first. *)
Definition upTo (k : nat) (x : option (list (answer (A := Z)))) : option Z :=
  l ← x; match last l with Some (Ints incs) => Some (foldr Z.add 0 (Z.abs <$> take k incs)) | _ => None end.
Theorem C91_order_refuted : exists m q,
  upTo 24 (session (plainD 256) (plainX 8) (plainO true) 8000 1 1 1 (SetTime q :: SetMap m :: one2)) = Some 1536 /\
  upTo 24 (session (plainD 256) (plainX 8) (plainO true) 8000 1 1 1 (SetMap m :: SetTime q :: one2)) = Some 1002 /\
  upTo 24 (session (plainD 256) (plainX 8) (plainO true) 8000 1 1 1 (SetTime q :: one2)) = Some 1002.
Proof. exists [(512, 1536)], 2%Q. split_and!; vm_compute; reflexivity. Qed.
Print Assumptions C91_order_refuted.

(** ** The finer engine *)
Section Finer.
Import Finer.EngineModel.
Context {R : Type} (RS : resampler R) (E : shape).
(** Calls before the first block *)
Definition preparing (o : op) : Prop :=
  match o with TimeRatio _ | PitchScale _ | Study _ | Expected _ | MaxProcess _ | Retrieve _ => True | _ => False end.
Lemma keys_calc (s : eng (R := R)) m t p : calculateHop E (withKeys s m) t p = withKeys (calculateHop E s t p) m.
Proof. unfold calculateHop. destruct (sanitise t p) as [t' p']. unfold setRatios, withKeys. cbn [mode]. by destruct (mode s). Qed.
Lemma mode_calc (s : eng (R := R)) t p : mode (calculateHop E s t p) = mode s.
Proof. unfold calculateHop. destruct (sanitise t p) as [t' p']. unfold setRatios. destruct (mode s) eqn:X; cbn [mode]; done. Qed.
Lemma keys_step s m o : preparing o ->
  step RS E (setKeyFrameMap E s m) o = (fun x => (setKeyFrameMap E x.1 m, x.2)) <$> step RS E s o.
Proof.
  intros Ho. destruct (realTime E) eqn:Er.
  { assert (forall x : eng (R := R), setKeyFrameMap E x m = x) as Hid by (intros x; unfold setKeyFrameMap; by rewrite Er).
    rewrite Hid. destruct (step RS E s o) as [[x k]|]; [|done]. cbn. by rewrite Hid. }
  destruct o as [x|x|m'|n|n|n|n f|n|]; try done; cbn [step fmap option_fmap option_map fst snd]; f_equal;
    try (apply pair_equal_spec; split; [|done]).
  - unfold setTimeRatio, setKeyFrameMap, locked. rewrite Er.
    destruct (mode s) eqn:Em; cbn [withKeys mode]; rewrite ?Em; cbn [negb andb orb withKeys timeRatio pitchScale];
      try (destruct (same x _)); rewrite ?mode_calc, ?Em, ?keys_calc; done.
  - unfold setPitchScale, setKeyFrameMap, locked. rewrite Er.
    destruct (mode s) eqn:Em; cbn [withKeys mode]; rewrite ?Em; cbn [negb andb orb withKeys timeRatio pitchScale];
      try (destruct (same x _)); rewrite ?mode_calc, ?Em, ?keys_calc; done.
  - unfold study, setKeyFrameMap. rewrite Er. destruct (mode s) eqn:Em; cbn [withKeys withDurations withMode mode]; rewrite ?Em; cbn; rewrite ?Em; done.
  - unfold setExpected, setKeyFrameMap. rewrite Er. destruct (mode s) eqn:Em; cbn [withKeys withDurations withMode mode]; rewrite ?Em; cbn; rewrite ?Em; done.
  - unfold setMaxProcessSize, setKeyFrameMap. rewrite Er. destruct (mode s) eqn:Em; cbn [withKeys ensureOutbuf ensureInbuf withIn withOut mode]; rewrite ?Em; done.
  - unfold retrieve, setKeyFrameMap. rewrite Er. destruct (mode s) eqn:Em; cbn [withKeys withIn withOut mode outFill fst snd]; rewrite ?Em; done.
Qed.

(** With the finer engine the map may be set at any point before the first block: what was set, studied or asked for
    around it makes no difference to the engine nor to what it delivers. *)
Theorem C91_finer s m l rest : Forall preparing l ->
  run RS E s (KeyFrames m :: l ++ rest) = run RS E s (l ++ KeyFrames m :: rest).
Proof.
  intros Hl. induction Hl as [|o l Ho Hl IH] in s |- *; [done|].
  cbn [app run]. cbn [step mbind option_bind]. cbn [app run] in IH. cbn [step mbind option_bind] in IH.
  rewrite (keys_step s m o Ho). destruct (step RS E s o) as [[x k]|]; [|done].
  cbn [fmap option_fmap option_map fst snd mbind option_bind]. rewrite <- (IH x).
  destruct (run RS E (setKeyFrameMap E x m) (l ++ rest)) as [[y k']|]; [|done]. cbn [mbind option_bind]. do 2 f_equal.
Qed.
(** And it is then in force: offline, before the first block, the engine has exactly the entries given. *)
Theorem C91_finer_held s m l s' k : realTime E = false -> mode s = JustCreated \/ mode s = Studying -> Forall preparing l ->
  run RS E s (KeyFrames m :: l) = Some (s', k) -> keys s' = m /\ (mode s' = JustCreated \/ mode s' = Studying).
Proof.
  intros Er Hm Hl. rewrite <- (app_nil_r l) at 1. rewrite C91_finer by done.  revert s k Hm.
  induction Hl as [|o l Ho Hl IH]; intros s k Hm.
  - cbn [app run]. cbn [step mbind option_bind]. intros [= <- <-]. unfold setKeyFrameMap. rewrite Er. destruct Hm as [Hm|Hm]; rewrite Hm; cbn; rewrite ?Hm; auto.
  - cbn [app run]. destruct (step RS E s o) as [[x j]|] eqn:Hx; [|done]. cbn [mbind option_bind].
    destruct (run RS E x (l ++ [KeyFrames m])) as [[y i]|] eqn:Hy; [|done]. cbn [mbind option_bind]. intros [= <- <-].
    eapply IH; [|exact Hy].
    destruct o as [r|r|m'|n|n|n|n f|n|]; try done; cbn [step] in Hx; injection Hx as <- <-.
    + unfold setTimeRatio. destruct (_ || _); rewrite ?mode_calc; done.
    + unfold setPitchScale. destruct (_ || _); rewrite ?mode_calc; done.
    + unfold study. rewrite Er. destruct Hm as [Hm|Hm]; rewrite Hm; cbn; auto.
    + done.
    + done.
    + done.
Qed.
End Finer.
Print Assumptions C91_finer.
Print Assumptions C91_finer_held.
Example C91_finer_example :
  Forall preparing [Finer.EngineModel.TimeRatio (Finer.EngineModel.Fin 2); Finer.EngineModel.MaxProcess 5000; Finer.EngineModel.Study 8192] /\
  Finer.EngineProps.session false false false false 44100 256 (Finer.EngineModel.Fin 1) (Finer.EngineModel.Fin 1)
    [Finer.EngineModel.KeyFrames [(0, 0); (2048, 6144)]; Finer.EngineModel.TimeRatio (Finer.EngineModel.Fin 2); Finer.EngineModel.MaxProcess 5000; Finer.EngineModel.Study 8192]
    (fun s a => (Finer.EngineModel.keys s, Finer.EngineModel.timeRatio s, Finer.EngineModel.studied s)) = Some ([(0, 0); (2048, 6144)], 2%Q, 8192).
Proof. split; [repeat constructor|]. vm_compute. reflexivity. Qed.
