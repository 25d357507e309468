(** Property C94: a timed wait ends when its time is over. *)
From Coq Require Import ZArith Lia.
Local Open Scope Z_scope.

(** ** Model *)
(** common/Thread.cpp:531-542: the time of day in seconds and microseconds, [us] added to the
    microseconds, whole seconds carried; the loop with fuel, [None] when it runs out.  Overflow
    of time_t, suseconds_t and long is not modelled (the calls have 500 and 50000). *)
Fixpoint carried (fuel : nat) (sec usec : Z) : option (Z * Z) :=
  match fuel with
  | O => None
  | S fuel => if 1000000 <? usec then carried fuel (sec + 1) (usec - 1000000) else Some (sec, usec)
  end.
(** common/Thread.cpp:540-542: tv_sec and tv_nsec of the timeout *)
Definition deadline (fuel : nat) (sec usec us : Z) : option (Z * Z) :=
  match carried fuel sec (usec + us) with Some (s, u) => Some (s, u * 1000) | None => None end.

(** ** Spec *)
(** gettimeofday gives less than a million microseconds; pthread_cond_timedwait takes less than
    a thousand million nanoseconds (POSIX), and otherwise returns EINVAL at once. *)
Definition now (usec : Z) : Prop := 0 <= usec < 1000000.
Definition accepted (nsec : Z) : Prop := 0 <= nsec < 1000000000.
(** The wait is over [us] microseconds from now. *)
Definition lasts (sec usec us s nsec : Z) : Prop := (s - sec) * 1000000000 + (nsec - usec * 1000) = us * 1000.

(** ** Proofs *)
Lemma carried_ok fuel : forall sec usec, 0 <= usec < Z.of_nat fuel * 1000000 ->
  exists s u, carried fuel sec usec = Some (s, u) /\ s * 1000000 + u = sec * 1000000 + usec /\ 0 <= u <= 1000000 /\ (u = 1000000 -> exists n, usec = (n + 1) * 1000000) /\
    (u <> 1000000 -> usec mod 1000000 = u).
Proof.
  induction fuel as [|fuel IH]; intros sec usec H; [lia|]. cbn [carried]. destruct (Z.ltb_spec 1000000 usec).
  - destruct (IH (sec + 1) (usec - 1000000)) as (s & u & -> & E & R & F & G); [lia|]. exists s, u. split; [reflexivity|]. split; [lia|]. split; [lia|]. split.
    + intros Hu. destruct (F Hu) as [n Hn]. exists (n + 1). lia.
    + intros Hu. rewrite <- (G Hu). replace usec with (usec - 1000000 + 1 * 1000000) at 1 by lia. now rewrite Z.mod_add.
  - exists sec, usec. split; [reflexivity|]. split; [lia|]. split; [lia|]. split.
    + intros ->. now exists 0.
    + intros Hu. apply Z.mod_small. lia.
Qed.

(** C94: the loop ends, the timeout is [us] microseconds from now, and the wait accepts it
    unless the microseconds add up to whole seconds. *)
Theorem C94_deadline_partial : forall sec usec us, now usec -> 0 < us ->
  exists s nsec, (forall fuel, us < Z.of_nat fuel -> deadline fuel sec usec us = Some (s, nsec)) /\
    lasts sec usec us s nsec /\ ((usec + us) mod 1000000 <> 0 -> accepted nsec).
Proof.
  intros sec usec us [H0 H1] Hus.
  assert (0 <= usec + us < Z.of_nat (S (Z.to_nat us)) * 1000000) as R by lia.
  destruct (carried_ok _ sec _ R) as (s & u & E & S & B & F & G). exists s, (u * 1000). split; [|split].
  - intros fuel Hf. assert (0 <= usec + us < Z.of_nat fuel * 1000000) as R' by lia.
    assert (forall f g x y p, (f <= g)%nat -> carried f x y = Some p -> carried g x y = Some p) as M.
    { induction f as [|f IH]; intros [|g] x y p L C; try discriminate C; [lia|]. cbn [carried] in *. destruct (1000000 <? y); [|exact C]. apply IH; [lia|exact C]. }
    unfold deadline. rewrite (M (Datatypes.S (Z.to_nat us)) fuel sec (usec + us) (s, u)); [reflexivity|lia|exact E].
  - unfold lasts. lia.
  - intros N. unfold accepted. destruct (Z.eq_dec u 1000000) as [U|U]; [|lia]. destruct (F U) as [n Hn]. exfalso. apply N. rewrite Hn. apply Z.mod_mul. lia.
Qed.
Print Assumptions C94_deadline_partial.
Example C94_deadline_example : deadline 2 7 999900 500 = Some (8, 400000) /\ deadline 1 7 900 500 = Some (7, 1400000) /\ accepted 400000 /\ lasts 7 999900 500 8 400000.
Proof. unfold accepted, lasts. repeat split; lia. Qed.

(** C94: when they do, the wait of the worker thread (50000) or of process() (500) is refused
    and returns at once, without having waited. *)
Theorem C94_deadline_refuted : exists usec usec', now usec /\ now usec' /\
  (forall sec, exists nsec, deadline 3 sec usec 50000 = Some (sec, nsec) /\ ~ accepted nsec) /\
  (forall sec, exists nsec, deadline 3 sec usec' 500 = Some (sec, nsec) /\ ~ accepted nsec).
Proof.
  exists 950000, 999500. unfold now, accepted. split; [lia|]. split; [lia|].
  split; intros sec; exists 1000000000; (split; [vm_compute; reflexivity|lia]).
Qed.
Print Assumptions C94_deadline_refuted.
