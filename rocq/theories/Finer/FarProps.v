(** Property C72 at time ratios so low that there is no readahead. *)
From stdpp Require Import prelude list numbers.
From Coq Require Import ZArith QArith Lia.
From Verif Require Import Base.Arith Finer.PeakModel Finer.SegmenterModel Finer.GuideModel Finer.EngineModel Finer.KickModel Finer.KickSpec Finer.KickProofs Finer.FarModel Finer.FarProofs.
From stdpp Require Import list.
Local Open Scope Z_scope.

(** After any frames, with and without readahead, a frame without it plays at every bin what came
    in, or less and holds the rest: nothing that is held, by whatever frame, is ever given back. *)
Theorem C72_without_readahead : forall rate, (8000 <= rate)%Q -> (rate <= 192000)%Q -> exists g, newGuide rate false = Some g /\ forall lim h0 l h a,
  Forall (fun x => kframe_ok g x.2) l -> kframe_ok g a -> lim <= h ->
  exists p s ms s' m, krunAny g lim h0 (kstate0 g) l = Some (p, s, ms) /\ kstepAny g lim p s h a = Some (s', m) /\
    every_bin (fun i x d y e => 0 <= y /\ 0 <= e /\ (y == x /\ e = d \/ present (preKick (guid s')) = true /\ y < x /\ lost x y e))%Q (incoming g a) (pendingKick s) m (pendingKick s').
Proof. exact never_released. Qed.
Print Assumptions C72_without_readahead.

(** C72 is false at such ratios even for a strong hit, here one at a hundred times the level of
    before, at a time ratio of a tenth: bin 20 of the longest FFT comes in at 1, 2, 200, 200 and is
    played at 1, 1, 200, 200, and what the second frame held is still held.  In the last line, the
    hit when it comes again after a pause. *)
Definition flat (n : nat) (x : Q) : list Q := repeat x n.
Definition nothing : segmentation := Segmentation 0 7000 7000.
Definition hit : segmentation := Segmentation 300 3000 7000.
Definition kfar (h : Z) (now long : Q) (s : segmentation) : Z * kframe := (h, KFrame (flat 513 now) (flat 513 now) (flat 1025 long) s (1 # 10) 51 0).
Definition drum (h : Z) : list (Z * kframe) :=
  [kfar h 100 2048 nothing; kfar h 10000 4096 hit; kfar h 10000 409600 hit; kfar h 10000 409600 nothing; kfar h 100 2048 nothing].
Definition playedFar (g : guide) (lim i : Z) (l : list (Z * kframe)) : option (list (option Q) * option Q) :=
  '(_, s, ms) ← krunAny g lim 0 (kstate0 g) l; Some (map (fun m => Qred <$> at_ m i) ms, Qred <$> at_ (pendingKick s) i).
Local Ltac frame_ok := split_and!; (split; [vm_compute; reflexivity|apply Forall_forall; intros ? ?%elem_of_list_In%repeat_spec; subst; vm_compute; discriminate]) || (vm_compute; discriminate).
Theorem C72_without_readahead_refuted : exists rate g E i, newGuide rate false = Some g /\ newShape false false false false rate (fun _ => 64%Q) = Some E /\
  let h := inhopFor E (1 # 10) in maxAhead E <= h /\ Forall (fun x => kframe_ok g x.2) (drum h ++ drum h) /\
  map (fun x => Qred <$> at_ (incoming g x.2) i) (drum h) = [Some 1; Some 2; Some 200; Some 200; Some 1]%Q /\
  playedFar g (maxAhead E) i (drum h) = Some ([Some 1; Some 1; Some 200; Some 200; Some 1], Some 1)%Q /\
  playedFar g (maxAhead E) i (drum h ++ drum h) = Some ([Some 1; Some 1; Some 200; Some 200; Some 1; Some 1; Some 1; Some 200; Some 200; Some 1], Some 1)%Q.
Proof.
  destruct (newGuide 16000 false) as [g|] eqn:Eg; [|vm_compute in Eg; discriminate]. destruct (newShape false false false false 16000 (fun _ => 64%Q)) as [E|] eqn:Es; [|vm_compute in Es; discriminate].
  exists 16000%Q, g, E, 20. split; [exact Eg|]. split; [exact Es|]. vm_compute in Eg. injection Eg as <-. vm_compute in Es. injection Es as <-. cbv zeta.
  split; [vm_compute; discriminate|]. split.
  { unfold drum. cbn [app]. repeat (apply Forall_cons_2; [frame_ok|]). apply Forall_nil_2. }
  split; [vm_compute; reflexivity|]. split; vm_compute; reflexivity.
Qed.
Print Assumptions C72_without_readahead_refuted.
