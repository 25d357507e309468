(** Property C72: energy held back ahead of a drum hit. *)
From stdpp Require Import prelude list numbers.
From Coq Require Import ZArith QArith Lia.
From Verif Require Import Base.Arith Finer.PeakModel Finer.SegmenterModel Finer.GuideModel Finer.KickModel Finer.KickSpec Finer.KickProofs.
From stdpp Require Import list.
Local Open Scope Z_scope.

(** C72, what holds in every frame of every stream: at each bin, what is synthesised and what is
    held make up what came in and what was held, except that where energy is held back a second
    time what was held before is forgotten; nothing is negative and no array overrun.
    Missing: that what is held comes back (next theorems). *)
Theorem C72_conservation_partial : forall rate, (8000 <= rate)%Q -> (rate <= 192000)%Q -> exists g, newGuide rate false = Some g /\
  forall l a, Forall (kframe_ok g) l -> kframe_ok g a -> exists s ms s' m, krun g (kstate0 g) l = Some (s, ms) /\ kstep g s a = Some (s', m) /\
    every_bin (fun i x d y e => (0 <= y /\ 0 <= e)%Q /\ (kept x d y e \/ present (preKick (guid s')) = true /\ lost x y e)) (incoming g a) (pendingKick s) m (pendingKick s').
Proof. exact conservation. Qed.
Print Assumptions C72_conservation_partial.

(** C72, when the hit passes the test of the next frame (with magnitudes on one scale), which is
    neither silent nor at unity: what was held back is in the next frame, exactly. *)
Theorem C72_restored_partial : forall rate g l a b s ms s1 m1, (8000 <= rate)%Q -> (rate <= 192000)%Q -> newGuide rate false = Some g ->
  Forall (kframe_ok g) l -> kframe_ok g a -> kframe_ok g b -> krun g (kstate0 g) l = Some (s, ms) -> kstep g s a = Some (s1, m1) ->
  checkPotentialKick g (scaleBy (cfft g) (rawNext a)) (current g s a) = Some true -> kunity b <= 0 -> ((1 # 1000000) <= meanOf (cfft g) (scaleBy (cfft g) (rawNext a)))%Q ->
  exists s2 m2, kstep g s1 b = Some (s2, m2) /\ forall i x y, at_ (incoming g a) i = Some x -> at_ m1 i = Some y -> (y < x)%Q ->
    exists x2 y2, at_ (incoming g b) i = Some x2 /\ at_ m2 i = Some y2 /\ (y2 == x2 + (x - y))%Q /\ at_ (pendingKick s2) i = Some 0%Q.
Proof. exact restored. Qed.
Print Assumptions C72_restored_partial.

Definition flat (n : nat) (x : Q) : list Q := repeat x n.
Definition nothing : segmentation := Segmentation 0 7000 7000.
Definition hit : segmentation := Segmentation 300 3000 7000.
Definition kf (now next long : Q) (s : segmentation) : kframe := KFrame (flat 513 now) (flat 513 next) (flat 1025 long) s (3 # 2) 200 0.
Local Ltac frame_ok := split_and!; (split; [vm_compute; reflexivity|apply Forall_forall; intros ? ?%elem_of_list_In%repeat_spec; subst; vm_compute; discriminate]) || (vm_compute; discriminate).
(** A real hit: bin 20 of the longest FFT is played at the level of before and the rest added a
    frame later. *)
Example C72_example : exists g s ms s1 m1 s2 m2, newGuide 16000 false = Some g /\ Forall (kframe_ok g) [kf 1 1 2048 nothing] /\ kframe_ok g (kf 1 1000 4096 hit) /\
  krun g (kstate0 g) [kf 1 1 2048 nothing] = Some (s, ms) /\ kstep g s (kf 1 1000 4096 hit) = Some (s1, m1) /\
  checkPotentialKick g (scaleBy (cfft g) (flat 513 1000)) (current g s (kf 1 1000 4096 hit)) = Some true /\
  Qle_bool (1 # 1000000) (meanOf (cfft g) (scaleBy (cfft g) (flat 513 1000))) = true /\
  kstep g s1 (kf 1 1000 409600 nothing) = Some (s2, m2) /\
  (at_ (incoming g (kf 1 1000 4096 hit)) 20, Qred <$> at_ m1 20, at_ (incoming g (kf 1 1000 409600 nothing)) 20, Qred <$> at_ m2 20) = (Some (4096 # 2048), Some 1, Some (409600 # 2048), Some 201)%Q.
Proof.
  destruct (newGuide 16000 false) as [g|] eqn:E; [|vm_compute in E; discriminate]. exists g. vm_compute in E. injection E as <-.
  eexists _, _, _, _, _, _. split; [reflexivity|]. split; [apply Forall_cons_2; [frame_ok|apply Forall_nil_2]|]. split; [frame_ok|].
  split; [vm_compute; reflexivity|]. split; [vm_compute; reflexivity|]. split; [vm_compute; reflexivity|]. split; [vm_compute; reflexivity|]. split; [vm_compute; reflexivity|]. vm_compute. reflexivity.
Qed.

(** C72 is false: a hit thirty per cent up makes the frame before it hold energy back, as the test
    there compares magnitudes on different scales, but not the frame itself release it.  It is
    still held after the frames that follow, and gone when energy is next held back. *)
Definition played (g : guide) (i : Z) (l : list kframe) : option (list (option Q) * option Q) :=
  '(s, ms) ← krun g (kstate0 g) l; Some (map (fun m => Qred <$> at_ m i) ms, Qred <$> at_ (pendingKick s) i).
Definition weak_hit : list kframe := [kf 100 100 2048 nothing; kf 100 130 4096 hit; kf 130 130 4096 hit; kf 130 130 4096 nothing; kf 130 130 4096 nothing].
Definition again : list kframe := weak_hit ++ [kf 130 130 6144 hit; kf 130 130 6144 hit].
Theorem C72_restored_refuted : exists rate g l1 l2 i, newGuide rate false = Some g /\ Forall (kframe_ok g) (l1 ++ l2) /\
  map (fun a => Qred <$> at_ (incoming g a) i) (l1 ++ l2) = [Some 1; Some 2; Some 2; Some 2; Some 2; Some 3; Some 3]%Q /\
  played g i l1 = Some ([Some 1; Some 1; Some 2; Some 2; Some 2], Some 1)%Q /\
  played g i (l1 ++ l2) = Some ([Some 1; Some 1; Some 2; Some 2; Some 2; Some 2; Some 3], Some 1)%Q.
Proof.
  destruct (newGuide 16000 false) as [g|] eqn:E; [|vm_compute in E; discriminate]. exists 16000%Q, g, weak_hit, [kf 130 130 6144 hit; kf 130 130 6144 hit], 20. split; [exact E|].
  vm_compute in E. injection E as <-. split.
  { unfold weak_hit. cbn [app]. repeat (apply Forall_cons_2; [frame_ok|]). apply Forall_nil_2. }
  split; [vm_compute; reflexivity|]. split; vm_compute; reflexivity.
Qed.
Print Assumptions C72_restored_refuted.
