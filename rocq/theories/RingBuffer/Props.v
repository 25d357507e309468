(** Properties C01-C06: the ring buffer. *)
From stdpp Require Import base list.
From Verif.RingBuffer Require Import Model Spec Proofs Conc ConcSpec ConcProofs.

(** C01. Any history of calls on a new buffer behaves, call for call, like a
    bounded FIFO queue (and never runs into undefined behaviour). *)
Theorem C01_fifo : forall (T : Type) (zero : T) (add : T -> T -> T) (n : nat)
    (junk : list T) (os : list (op T)),
  length junk = n + 1 -> Forall op_ok os ->
  exists b, run zero add (ring_new n junk) os = Some (b, snd (spec_run zero add n [] os)).
Proof. exact @final_fifo. Qed.
Print Assumptions C01_fifo.

(** C01, trace form: accepted samples = delivered samples followed by what is
    still in the buffer. *)
Theorem C01_in_order_once : forall (T : Type) (zero : T) (add : T -> T -> T) (n : nat)
    (junk : list T) (os : list (op T)) b rs,
  length junk = n + 1 -> Forall op_ok os -> Forall transfer_op os ->
  run zero add (ring_new n junk) os = Some (b, rs) ->
  exists rest, accepted zero os rs = delivered os rs ++ rest /\
    length rest = getReadSpace b /\
    forall d, length rest <= length d ->
      exists b', read b d (length rest) = Some (b', rest ++ drop (length rest) d, length rest).
Proof. exact @final_in_order. Qed.
Print Assumptions C01_in_order_once.

Example C01_example :
  let os := [OWrite [1;2;3] 3; ORead [9;9] 2; OWrite [4;5;6] 3; OPeek [0;0;0;0] 4; OReadOne] in
  Forall op_ok os /\
  option_map snd (run 0 Nat.add (ring_new 3 [7;7;7;7]) os) =
  Some [RCount 3; RData [1;2] 2; RCount 2; RData [3;4;5;0] 3; RVal 3].
Proof. split; [repeat constructor | vm_compute; reflexivity]. Qed.

(** C02. *)
Theorem C02_space_and_bounds : forall (T : Type) (zero : T) (add : T -> T -> T) (n : nat) (b : ring T),
  reachable zero add n b ->
  getReadSpace b + getWriteSpace b = getSize b /\ getSize b = n /\
  forall o, op_ok o -> exists b' r, step zero add b o = Some (b', r).
Proof. exact @final_space. Qed.
Print Assumptions C02_space_and_bounds.

(** A reachable buffer whose content wraps around the end of the array. *)
Example C02_example :
  reachable 0 Nat.add 3 (Ring [5;2;3;4] 1 2 4).
Proof.
  exists [7;7;7;7], [OWrite [1;2;3] 3; ORead [9;9] 2; OWrite [4;5;6] 3].
  eexists. split; [done|]. split; [repeat constructor | vm_compute; reflexivity].
Qed.

(** C03. *)
Theorem C03_peek_skip_is_read : forall (T : Type) (zero : T) (add : T -> T -> T) (n : nat)
    (b : ring T) (d : list T) (k : nat),
  reachable zero add n b -> k <= length d ->
  exists d' c b', peek b d k = Some (d', c) /\ skip b k = Some (b', c) /\
             read b d k = Some (b', d', c).
Proof. exact @final_peek_skip. Qed.
Print Assumptions C03_peek_skip_is_read.

Theorem C03_read_splits : forall (T : Type) (zero : T) (add : T -> T -> T) (n : nat)
    (b : ring T) (d1 d2 : list T) (i j : nat),
  reachable zero add n b -> i <= length d1 -> j <= length d2 ->
  exists b1 b2 e1 e2 k1 k2, read b d1 i = Some (b1, e1, k1) /\ read b1 d2 j = Some (b2, e2, k2) /\
    forall d, i + j <= length d -> exists e, read b d (i + j) = Some (b2, e, k1 + k2) /\
      take (k1 + k2) e = take k1 e1 ++ take k2 e2.
Proof. exact @final_read_split. Qed.
Print Assumptions C03_read_splits.

Example C03_example :
  let b := Ring [5;2;3;4] 1 2 4 in
  peek b [0;0;0] 3 = Some ([3;4;5], 3) /\
  skip b 3 = Some (Ring [5;2;3;4] 1 1 4, 3) /\
  read b [0;0;0] 3 = Some (Ring [5;2;3;4] 1 1 4, [3;4;5], 3).
Proof. vm_compute; auto. Qed.

(** C04. *)
Theorem C04_resized_keeps_unread : forall (T : Type) (zero : T) (add : T -> T -> T) (n : nat)
    (b : ring T) (m : nat) (junk : list T) (q : list T),
  reachable zero add n b -> length junk = m + 1 -> drains_to b q ->
  exists nb, resized b m junk = Some nb /\ getSize nb = m /\ drains_to nb (take m q).
Proof. exact @final_resized. Qed.
Print Assumptions C04_resized_keeps_unread.

Theorem C04_resized_continues : forall (T : Type) (zero : T) (add : T -> T -> T) (n : nat)
    (b : ring T) (m : nat) (junk : list T) (os : list (op T)),
  reachable zero add n b -> length junk = m + 1 -> Forall op_ok os ->
  exists nb b' q, drains_to b q /\ resized b m junk = Some nb /\
    run zero add nb os = Some (b', snd (spec_run zero add m (take m q) os)).
Proof. exact @final_resized_future. Qed.
Print Assumptions C04_resized_continues.

Example C04_example :
  resized (Ring [5;2;3;4] 1 2 4) 5 [0;0;0;0;0;0] = Some (Ring [3;4;5;0;0;0] 3 0 6) /\
  resized (Ring [5;2;3;4] 1 2 4) 2 [0;0;0] = Some (Ring [3;4;0] 2 0 3).
Proof. vm_compute; auto. Qed.

(** C05. For every schedule of one writer and one reader thread: no undefined
    behaviour, the consumed stream is a prefix of the accepted stream, the rest
    is still in the buffer, returned counts are truthful, and no slot is being
    written by one thread while the other is reading it. *)
Theorem C05_one_reader_one_writer : forall (T : Type) (n : nat) (junk : list T)
    (blocks : list (list T)) (reqs : list rreq) (sched : list bool),
  length junk = n + 1 ->
  exists s, crun (cinit n junk blocks reqs) sched = Some s /\
    (exists unread, Forall2 agrees (consumed_stream (rlog s))
        (take (length (consumed_stream (rlog s))) (accepted_stream (wlog s))) /\
      accepted_stream (wlog s) = take (length (consumed_stream (rlog s))) (accepted_stream (wlog s)) ++ unread /\
      length unread = readSpaceFor (csize s) (cw s) (cr s) /\ length unread <= n) /\
    Forall count_ok (rlog s) /\
    (forall j, ~ (writing s j /\ reading s j)).
Proof. exact @conc_correct. Qed.
Print Assumptions C05_one_reader_one_writer.

(** A schedule in which the reader works in the middle of the second write. *)
Example C05_example :
  option_map (fun s => (wlog s, rlog s))
    (crun (cinit 3 [0;0;0;0] [[1;2];[3;4;5]] [QRead 2; QSkip 1; QRead 5])
       [true;true;true;true;true; false;false; true;true; false;false;false; true;true;
        true;true; false;false;false; false;false;false;false;false])
  = Some ([([1;2], 2); ([3;4;5], 1)], [(QRead 2, [1;2], 2); (QSkip 1, [], 1); (QRead 5, [], 0)]).
Proof. vm_compute; reflexivity. Qed.

(** C06. The documented zero-fill does not happen: a short read leaves the old
    contents in the destination (here 8, 9). *)
Theorem C06_short_read_zero_fill_refuted :
  exists (b b' : ring nat) (d d' : list nat) (k c i : nat) (x : nat),
    reachable 0 Nat.add 3 b /\ k <= length d /\ read b d k = Some (b', d', c) /\
    c <= i /\ i < k /\ d' !! i = Some x /\ x <> 0.
Proof.
  exists (Ring [1;0;0;0] 1 0 4), (Ring [1;0;0;0] 1 1 4), [7;8;9], [1;8;9], 3, 1, 1, 8.
  split.
  { exists [0;0;0;0], [OWrite [1] 1]. eexists. split; [done|]. split; [repeat constructor|].
    vm_compute; reflexivity. }
  split; [cbn; auto|]. split; [vm_compute; reflexivity|].
  split; [auto|]. split; [auto|]. split; [reflexivity|]. discriminate.
Qed.
Print Assumptions C06_short_read_zero_fill_refuted.

(** What does hold: the available samples arrive, the rest of the destination
    is untouched (hence zero-filled only if the caller zeroed it before). *)
Theorem C06_short_read_partial : forall (T : Type) (zero : T) (add : T -> T -> T) (n : nat)
    (b : ring T) (d : list T) (k : nat) (q : list T),
  reachable zero add n b -> drains_to b q -> length q < k -> k <= length d ->
  (exists b', read b d k = Some (b', q ++ drop (length q) d, length q)) /\
  peek b d k = Some (q ++ drop (length q) d, length q).
Proof. exact @final_short_read. Qed.
Print Assumptions C06_short_read_partial.
