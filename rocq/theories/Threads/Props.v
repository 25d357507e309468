(** Property C37: worker threads process everything, and end. *)
From stdpp Require Import prelude.
From Coq Require Import Lia.
From Verif Require Import Threads.Model Threads.Spec Threads.Proofs.
From stdpp Require Import list.

(** In whatever order the accesses of client and worker happen: the windows are taken at
    successive multiples of the increment, none short but the last ones of a complete input;
    and a worker that is done (and has not been abandoned) saw the input complete, has taken
    in every sample of it and has emptied its accumulator. *)
Theorem C37_everything_processed z acts : proper z -> let s := run z (start z) acts in
  in_order z s /\
  (at_ s = Done -> closed s = true /\ draining s = true /\ fill s = 0%nat /\ forall i, (i < written s)%nat -> covered s i).
Proof.
  intros Hz s. pose proof (run_inv z Hz acts (start z) (start_inv z Hz)) as K. fold s in K. split; [exact (i_win z s K)|].
  intros Hd. pose proof (i_pc z s K) as Hp. unfold okpc in Hp. rewrite Hd in Hp. destruct Hp as [H1 H2]. destruct (i_drain z s K H1) as (H3 & _ & H4). done.
Qed.
Print Assumptions C37_everything_processed.

(** ... and has marked its channel complete, so that the client learns of the end. *)
Theorem C37_complete_partial z acts : proper z -> overlapping z -> let s := run z (start z) acts in at_ s = Done -> complete s = true.
Proof.
  intros Hz Ho s Hd. destruct (C37_everything_processed z acts Hz) as [_ H]. destruct (H Hd) as (_ & H1 & H2 & _).
  assert (F : Full s) by (apply full_run; [done|done|by apply start_inv|split; [done|cbn; lia]]). by apply F.
Qed.
Print Assumptions C37_complete_partial.

(** Once the input is complete, or the worker has been abandoned, the worker ends, wherever it
    is and whatever else happens, within a number of its own steps fixed at that point.  No
    signal is needed for that. *)
Theorem C37_ends z acts : proper z -> let s := run z (start z) acts in
  closed s = true \/ abandon s = true -> exists N, forall acts', (N <= turns acts')%nat -> ended (run z s acts').
Proof.
  intros Hz s Hca. exists (mu z s). intros acts' Ht. apply ends; try done. by apply run_inv, start_inv.
Qed.
Print Assumptions C37_ends.
(** It is done, not abandoned, unless the client abandons it. *)
Theorem C37_ends_done z acts : proper z -> let s := run z (start z) acts in ended s -> abandon s = false -> at_ s = Done.
Proof.
  intros Hz s [H|H] Ha; [done|]. pose proof (i_pc z s (run_inv z Hz acts (start z) (start_inv z Hz))) as Hp. unfold okpc in Hp. rewrite H in Hp. congruence.
Qed.
Print Assumptions C37_ends_done.

(** A client that waits for room gets it: with a window or more in the input buffer, samples
    are taken out within eleven steps of the worker, unless the client itself ends the input. *)
Theorem C37_room z acts : proper z -> let s := run z (start z) acts in (aw z <= unread s)%nat ->
  forall acts', (11 <= turns acts')%nat -> let s' := run z s acts' in
  (written s - unread s < written s' - unread s')%nat \/ closed s' = true \/ abandon s' = true.
Proof.
  intros Hz s Hu acts' Ht. apply (room z Hz (pos s)); [by apply run_inv, start_inv|done|done|]. unfold far. destruct (at_ s); try lia. destruct (_ <=? _)%nat; lia.
Qed.
Print Assumptions C37_room.

(** Windows of 8 at increments of 2.  The client writes, the worker reads the read space (6),
    the client writes the rest and completes the input, the worker goes on with what it read. *)
Definition small : sizes := Sz 8 8 2 20 (fun _ => 3%nat).
Definition acts : list act := [Write 4] ++ repeat Worker 7 ++ [Write 5; Close] ++ repeat Worker 100.
Example C37_case : proper small /\ overlapping small /\
  let s := run small (start small) acts in (at_ s, written s, complete s, windows s) = (Done, 13%nat, true, [(0, 8); (2, 8); (4, 8); (6, 7); (8, 5)]%nat).
Proof. split; [by constructor; cbn; lia|]. split; [constructor; cbn; intros; lia|]. vm_compute. reflexivity. Qed.

(** Without the overlap the channel is never marked complete: a last full chunk of just the
    synthesis window leaves the accumulator empty before draining begins, and then the
    worker returns early (StretcherProcess.cpp:472-475), so that available() never says that
    the stream has ended. *)
Theorem C37_complete_refuted : exists z acts, proper z /\ let s := run z (start z) acts in
  at_ s = Done /\ closed s = true /\ complete s = false.
Proof.
  exists (Sz 8 8 2 20 (fun _ => 8%nat)), ([Write 9; Close] ++ repeat Worker 100). split; [by constructor; cbn; lia|]. vm_compute. done.
Qed.
Print Assumptions C37_complete_refuted.

(** That the increment is less than half the window is needed: with a larger one, input
    completed between the worker's two reads in testInbufReadSpace (StretcherProcess.cpp:381,
    385) is taken for what was there before, and lost. *)
Theorem C37_large_increment_refuted : exists z acts, (aw z / 2 < inc z < aw z)%nat /\ overlapping z /\ let s := run z (start z) acts in
  at_ s = Done /\ complete s = true /\ (12 < written s)%nat /\ ~ covered s 12.
Proof.
  exists (Sz 8 8 6 20 (fun _ => 3%nat)), ([Write 4] ++ repeat Worker 7 ++ [Write 10; Close] ++ repeat Worker 100).
  split; [cbn; lia|]. split; [constructor; cbn; intros; lia|].
  lazymatch goal with |- let s := ?r in _ => set (x := r) end.
  assert (E1 : at_ x = Done) by (vm_compute; reflexivity). assert (E2 : complete x = true) by (vm_compute; reflexivity).
  assert (E3 : written x = 18%nat) by (vm_compute; reflexivity). assert (E4 : windows x = [(0, 8)]%nat) by (vm_compute; reflexivity).
  clearbody x. cbv zeta. rewrite E1, E2, E3. split; [done|]. split; [done|]. split; [lia|].
  intros (a & n & Hin & Hb). rewrite E4 in Hin. apply elem_of_list_singleton in Hin. injection Hin as -> ->. lia.
Qed.
Print Assumptions C37_large_increment_refuted.
