(** Property C80, frames that are played just as they came, laminar phases included. *)
From stdpp Require Import prelude.
From Coq Require Import ZArith QArith.
From Verif Require Import Base.Arith Phases.Model Phases.Spec Phases.Props Phases.Unity.
From stdpp Require Import list.
Local Open Scope Z_scope.

(** ** Spec *)
(** Nothing is stretched, and no formants are shifted. *)
Definition steady (o : op) : Prop := match o with Play k => outInc k = inc (cfg k) /\ formants k = false | _ => True end.

(** ** Proofs *)
Lemma steady_unchanged ch k : unchanged ch = true -> steady (Play k) -> unchanged (fst (play ch k)) = true /\ snd (play ch k) = phases k.
Proof.
  intros U [O F]. unfold play, synthesise, modifyChunk. rewrite U, O, F, Z.eqb_refl. destruct (loop _ _ _ _ _ _ _) as [a xs]. cbn. by destruct (full a).
Qed.
Lemma steady_run os : forall ch, Forall steady os -> unchanged ch = true -> unchanged (run ch os) = true.
Proof.
  induction os as [|o os IH]; intros ch H U; [done|]. apply Forall_cons in H as [H Hs]. cbn. apply IH; [done|].
  destruct o as [k|m|]; [by apply steady_unchanged|done|done].
Qed.
Lemma full_kept c b out i xs ps : limited b = false -> full (fst (loop c b out true i xs ps)) = true.
Proof.
  intros L. revert i ps. induction xs as [|x xs IH]; intros i [|p ps]; try done. cbn [loop]. specialize (IH (i + 1) ps).
  destruct (loop c b out true (i + 1) xs ps) as [a ys]. cbn [fst] in IH. unfold oneBin. rewrite L, IH. cbn [andb negb]. by repeat case_match; simplify_eq.
Qed.
Lemma reset_limited c r u : mixed c = false -> limited (bandsOf c r true u) = false.
Proof. intros M. unfold bandsOf. rewrite andb_false_r. by destruct (laminar c && ltQ 1 r). Qed.

(** C80: from the start, through any chunks that are not stretched, new sizes and resets, every frame is played with
    exactly the phases it came with: all bins, laminar phases or not, whatever the ratio, at transients or not. *)
Theorem C80_untouched : forall n os k, Forall steady (os ++ [Play k]) -> snd (play (run (construct n) os) k) = phases k.
Proof.
  intros n os k H. apply Forall_app in H as [H Hk]. apply Forall_cons in Hk as [Hk _]. apply steady_unchanged; [|done]. by apply steady_run.
Qed.
Print Assumptions C80_untouched.

(** C80: so it is again from any transient on, in whatever state (mixed transients aside): the chunk of the transient,
    stretched or not, and all that follow it as long as they are not stretched. *)
Theorem C80_untouched_again : forall ch k0 os k, phaseReset k0 = true -> mixed (cfg k0) = false -> formants k0 = false -> Forall steady (os ++ [Play k]) ->
  snd (play ch k0) = phases k0 /\ snd (play (run ch (Play k0 :: os)) k) = phases k.
Proof.
  intros ch k0 os k R M F H. apply Forall_app in H as [H Hk]. apply Forall_cons in Hk as [Hk _].
  assert (unchanged (fst (play ch k0)) = true /\ snd (play ch k0) = phases k0) as [U P].
  { unfold play, synthesise, modifyChunk. rewrite R, F.
    pose proof (full_kept (cfg k0) (bandsOf (cfg k0) (ratio k0) true (unityLow ch)) (outInc k0) 0 (bins ch) (phases k0) (reset_limited _ _ _ M)) as L.
    destruct (loop _ _ _ _ _ _ _) as [a xs]. cbn [fst snd] in *. by rewrite L. }
  split; [done|]. apply steady_unchanged; [|done]. change (run ch (Play k0 :: os)) with (run (fst (play ch k0)) os). by apply steady_run.
Qed.
Print Assumptions C80_untouched_again.

(** With the laminar phases that left the input in C95_laminar_refuted: not from the start, nor after a transient. *)
Definition level_at (j : Z) : chunk := Chunk lam 1 4 false false (growing j).
Definition struck : chunk := Chunk lam 2 8 true false (growing 1).
Example C80_untouched_example :
  Forall steady (Play <$> (level_at <$> [2; 3; 4; 5; 6; 7; 8])) /\
  off (level_at <$> [2; 3; 4; 5; 6; 7; 8]) 4 = replicate 7 (Some 0%Q) /\
  off (struck :: (level_at <$> [2; 3; 4; 5; 6; 7; 8])) 4 = replicate 8 (Some 0%Q).
Proof. split; [by repeat constructor|]. split; vm_compute; reflexivity. Qed.
