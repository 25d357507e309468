(** Property C96: telling the duration late. *)
From stdpp Require Import prelude.
From Coq Require Import ZArith QArith Lia.
From Verif Require Import Base.Arith Faster.Sizes Faster.Model Offline.Model Offline.Props.
From Verif Require Calculator.Model.
From stdpp Require Import list.
Local Open Scope Z_scope.

Section Told.
Context {A S R K KS : Type} (D : dsp A S R K) (X : outside A S R KS).
Implicit Types e : engine A S R KS.

(** ** Spec *)
(** Nothing but silence waits to be processed, nothing to be fetched, and no input has been counted. *)
Definition emptied (c : channel A S R) : Prop := Forall (fun x => x = zero D) (inbuf c) /\ outbuf c = [] /\ inCount c = 0 /\ outCount c = 0.
(** A call that tells something new. *)
Definition tells e (a : call (A := A)) : Prop :=
  match a with SetExpected n => n <> expectedIn e | SetMax n => maxProc e < n | _ => False end.

(** ** Proofs *)
Lemma configure_empties p e e' : configure D X p e = Some e' -> Forall emptied (chans e') /\ emode e' = emode e.
Proof.
  unfold configure. destruct (calculateSizes (configOf e)) as [s|]; [|done]. cbn [mbind option_bind]. intros [= <-]. split; [|done].
  cbn [chans with_chans]. apply Forall_fmap, Forall_true. intros c. unfold compose, restart, resetChan, resetChannel, prefill, set_in, emptied. cbn [inbuf outbuf inCount outCount].
  split; [by apply Forall_replicate|done].
Qed.
Lemma reconfigure_empties e e' : reconfigure D X e = Some e' -> Forall emptied (chans e') /\ emode e' = emode e.
Proof.
  unfold reconfigure. intros E. match type of E with (?x ≫= _) = _ => destruct x as [e1|] eqn:E1; [|discriminate] end. cbn [mbind option_bind] in E.
  assert (emode e1 = emode e) as M.
  { destruct (emode e) eqn:Em; try (by injection E1 as <-). destruct (calculateStretch e) as [e2|] eqn:E2; [|discriminate]. cbn [mbind option_bind] in E1. injection E1 as <-. cbn.
    unfold calculateStretch in E2. destruct (Calculator.Model.calculate _ _ _); [|discriminate]. cbn [mbind option_bind] in E2. by injection E2 as <-. }
  destruct (configure D X (Some (sz e1)) e1) as [e2|] eqn:E2; [|discriminate]. cbn [mbind option_bind] in E. apply configure_empties in E2 as [F M2].
  destruct (calculateSizes (configOf e2)) as [s|]; [|discriminate]. cbn [mbind option_bind] in E. destruct (_ && _); [|discriminate]. injection E as <-. split; [done|congruence].
Qed.
Lemma takeOut_empty cs : Forall emptied cs -> forall n, exists got cs', takeOut cs n = (replicate (length cs) [], got, cs').
Proof.
  induction 1 as [|c cs (_ & O & _) _ IH]; intros n; [by exists n, []|]. cbn [takeOut length replicate]. rewrite O.
  destruct (IH (zlen (firstn_z n (@nil A)))) as (got & cs' & ->). exists got. eexists. f_equal. f_equal. f_equal. unfold firstn_z. by rewrite take_nil.
Qed.

(** C96: whenever the duration is told, if it is a new one, or a larger block is announced: the stretcher stays where it
    is, but all that waited to be processed or fetched is gone, on every channel, and retrieve() then gives nothing. *)
Theorem C96_discards : forall e a m rs e', tells e a -> steps D X e [a; Retrieve m] = Some (rs, e') ->
  exists e1 n, step D X e a = Some (Done, e1) /\ emode e1 = emode e /\ Forall emptied (chans e1) /\ rs = [Done; Audio (replicate n [])].
Proof.
  intros e a m rs e' T. cbn [steps].
  assert (forall r e1, step D X e a = Some (r, e1) -> r = Done /\ Forall emptied (chans e1) /\ emode e1 = emode e) as H.
  { intros r e1 E. destruct a; try done; cbn [tells] in T; cbn [step] in E; unfold quietly in E.
    - unfold setExpectedInputDuration in E. assert (n =? expectedIn e = false) as F by lia. rewrite F in E.
      destruct (reconfigure D X _) as [e2|] eqn:E2; [|discriminate]. cbn [mbind option_bind] in E. injection E as <- <-. by apply reconfigure_empties in E2.
    - unfold setMaxProcessSize in E. assert (n <=? maxProc e = false) as F by lia. rewrite F in E.
      destruct (reconfigure D X _) as [e2|] eqn:E2; [|discriminate]. cbn [mbind option_bind] in E. injection E as <- <-. by apply reconfigure_empties in E2. }
  destruct (step D X e a) as [[r e1]|]; [|discriminate]. destruct (H r e1 eq_refl) as (-> & F & M). cbn [mbind option_bind step].
  unfold retrieve. destruct (takeOut_empty (chans e1) F m) as (got & cs' & ->). intros [= <- <-].
  assert (exists n, decoded D e1 (firstn_z got <$> replicate (length (chans e1)) []) = replicate n (@nil A)) as [n Hn].
  { rewrite fmap_replicate. unfold firstn_z. rewrite take_nil. destruct (length (chans e1)) as [|[|k]]; cbn [replicate decoded].
    - by exists 0%nat.
    - by exists 1%nat.
    - exists (Datatypes.S (Datatypes.S k)). by destruct (usesMidSide e1). }
  exists e1, n. split_and!; try done. by rewrite Hn.
Qed.
End Told.
Print Assumptions C96_discards.

(** So telling the duration, even the right one, within the processing pass does not make the length right: of 1024
    frames at twice the duration, told half way, 1024 come out and not 2048. *)
Definition lengths (l : list (answer (A := Z))) : list Z := concat ((fun a => match a with Audio xs => zlen <$> xs | _ => [] end) <$> l).
Definition whole (l : list (call (A := Z))) : option (list Z) :=
  lengths <$> session (plainD 256) (plainX 8) (plainO true) 8000 1 2 1 (l ++ [Available; Retrieve 100000; Available; Retrieve 100000]).
Theorem C96_told_refuted : exists b, zlen b = 512 /\
  whole [SetExpected 1024; Study [b ++ b] true; Process [b] false; Process [b] true] = Some [2048; 0] /\
  whole [Study [b ++ b] true; SetExpected 1024; Process [b] false; Process [b] true] = Some [2048; 0] /\
  whole [Study [b ++ b] true; Process [b] false; SetExpected 1024; Process [b] true] = Some [1024; 0] /\
  whole [Study [b ++ b] true; Process [b] false; Process [b] true; SetExpected 1024] = Some [0; 0].
Proof. exists (ones 512). split_and!; vm_compute; reflexivity. Qed.
Print Assumptions C96_told_refuted.
(** The state in the middle of that session, in which the call tells something new. *)
Example C96_discards_example :
  (e ← create (plainD 256) (plainX 8) (plainO true) 8000 1 2 1;
   x ← steps (plainD 256) (plainX 8) e [Study [ones 1024] true; Process [ones 512] false];
   Some (emode x.2, expectedIn x.2, zlen <$> (outbuf <$> chans x.2))) = Some (Processing, 0, [660]).
Proof. vm_compute. reflexivity. Qed.

(** Nor is it harmless between the passes: it can halve the step in which the input is taken (R2Stretcher.cpp:496-501), while
    the output steps found by the study pass stay.  Of 512 frames at twice the duration, the input is then taken in
    steps of 85 frames, each of which is given 340 frames of the output, until the 1024 frames are full. *)
Definition paces (l : list (call (A := Z))) : option (Z * list (answer (A := Z))) :=
  e ← create (plainD 32768) (plainX 8) (plainO false) 44100 1 2 1; x ← steps (plainD 32768) (plainX 8) e (l ++ [GetIncrements]);
  Some (Sizes.increment (sz x.2), drop (length l) x.1).
Theorem C96_between_refuted : exists b, zlen b = 512 /\
  paces [SetExpected 512; Study [b] true; Process [b] true] = Some (85, [Ints (replicate 7 170)]) /\
  paces [Study [b] true; Process [b] true] = Some (170, [Ints (replicate 4 340)]) /\
  paces [Study [b] true; SetExpected 512; Process [b] true] = Some (85, [Ints (replicate 4 340)]).
Proof. exists (ones 512). split_and!; vm_compute; reflexivity. Qed.
Print Assumptions C96_between_refuted.
