(** Life cycle, reset, mid/side coding and the study pass of an offline R2 stretcher. *)
From stdpp Require Import prelude.
From Coq Require Import ZArith QArith Qcanon Qround Lia Lqa.
From Verif Require Import Base.Arith Faster.Sizes Faster.Model Offline.Model Offline.Spec Offline.Study Offline.Fresh Offline.Length Offline.Whole Offline.Props.
From Verif Require Import Offline.LifeSpec Offline.Life Offline.Partition Offline.MidSide.
Local Open Scope Z_scope.

(** The detection value is the sum of the window, the accumulator is kept. *)
Definition sumX : outside Z unit unit unit :=
  Outside Z unit unit unit (fun l => match l with x :: _ => x | [] => 0 end) (fun _ _ => tt) (fun _ => tt)
    (fun k a => (a, inject_Z (sumZ a), false, k)) (fun _ => tt) (fun s => s) tt (fun r => r).
(** Silence, and silence with a loud place after 50 ms at 8 kHz. *)
Definition quiet : list Z := replicate (Z.to_nat 808) 0.
Definition bump : list Z := replicate (Z.to_nat 400) 0 ++ replicate 8 5000 ++ replicate (Z.to_nat 400) 0.

(** C33: calls that come too late do nothing at all: leaving them out changes no other answer. *)
Theorem C33_late_calls_partial : forall {A S R K KS} (D : dsp A S R K) (X : outside A S R KS) o rt n t p l rs,
  session D X o rt n t p l = Some rs -> session D X o rt n t p (heeded Idle l) = Some (answered Idle l rs).
Proof. intros A S R K KS D X. exact (session_heeded D X). Qed.
Print Assumptions C33_late_calls_partial.

(** C33: the getters give the last value accepted, whatever the calls in between. *)
Theorem C33_getters_partial : forall {A S R K KS} (D : dsp A S R K) (X : outside A S R KS) o rt n t p l rs,
  session D X o rt n t p l = Some rs -> Forall2 agrees (told Idle (sensible t) (sensible p) l) rs.
Proof. intros A S R K KS D X. exact (session_told D X). Qed.
Print Assumptions C33_getters_partial.

Definition late : list (call (A := Z)) :=
  [SetTime (3 # 2); GetTime; Study [quiet] true; SetTime 7; Process [quiet] false; SetPitch 2; SetMap [(1, 2)]; Study [quiet] false; GetTime; GetPitch].
Example C33_example : heeded Idle late = [SetTime (3 # 2); GetTime; Study [quiet] true; Process [quiet] false; GetTime; GetPitch] /\
  told Idle 1 1 late = [None; Some (3 # 2); None; None; None; None; None; None; Some (3 # 2); Some 1]%Q /\
  session (plainD 256) sumX (plainO true) 8000 1 1 1 late = Some [Done; Ratio (3 # 2); Done; Done; Done; Done; Done; Done; Ratio (3 # 2); Ratio 1].
Proof. split; [reflexivity|]. split; [reflexivity|]. vm_compute. reflexivity. Qed.

(** C33 is false after the last block: the ratio can then be changed, and that throws away the
    output not yet retrieved, 1616 sample frames here. *)
Theorem C33_ratio_after_end_refuted : exists l0 n q, 0 < n /\
  session (plainD 256) sumX (plainO true) 8000 1 2 1 (l0 ++ [Process [quiet] true; GetTime; Available]) = Some [Done; Done; Ratio 2; Int n] /\
  session (plainD 256) sumX (plainO true) 8000 1 2 1 (l0 ++ [Process [quiet] true; GetTime; Available; SetTime q; GetTime; Available; Retrieve n]) =
    Some [Done; Done; Ratio 2; Int n; Done; Ratio 3; Int 0; Audio [[]]].
Proof. exists [Study [quiet] true], 1616, 3%Q. split; [done|]. vm_compute. split; reflexivity. Qed.
Print Assumptions C33_ratio_after_end_refuted.

(** C35: reset keeps the ratios and opens them for changes again, after any history. *)
Theorem C35_reset_ratios_partial : forall {A S R K KS} (D : dsp A S R K) (X : outside A S R KS) o rt n t p l q rs,
  session D X o rt n t p (l ++ [GetTime; GetPitch; Reset; GetTime; GetPitch; SetTime q; GetTime]) = Some rs ->
  exists rs0 x y x' y' z, rs = rs0 ++ [Ratio x; Ratio y; Done; Ratio x'; Ratio y'; Done; Ratio z] /\
    (x' == x)%Q /\ (y' == y)%Q /\ (z == sensible q)%Q.
Proof.
  intros A S R K KS D X o rt n t p l q rs E. unfold session in E.
  destruct (create D X o rt n t p) as [e|] eqn:Ec; [|discriminate]. change (Some ?x ≫= ?f) with (f x) in E. cbv beta in E.
  destruct (create_idle D X _ _ _ _ _ _ Ec) as (Hp & _).
  destruct (steps D X e _) as [[rs' e']|] eqn:Es; [|discriminate]. injection E as <-.
  assert (G : forall l e rs e', positive e -> steps D X e (l ++ [GetTime; GetPitch; Reset; GetTime; GetPitch; SetTime q; GetTime]) = Some (rs, e') ->
    exists rs0 e1 rs1, positive e1 /\ rs = rs0 ++ rs1 /\ steps D X e1 [GetTime; GetPitch; Reset; GetTime; GetPitch; SetTime q; GetTime] = Some (rs1, e')).
  { clear. induction l as [|a l IH]; intros e rs e' Hp E; [by exists [], e, rs|].
    cbn [app steps] in E. destruct (step D X e a) as [[r e1]|] eqn:E1; [|discriminate]. change (Some ?x ≫= ?f) with (f x) in E. cbv beta iota in E.
    match type of E with (?x ≫= _) = _ => destruct x as [[rs1 e2]|] eqn:E2; [|discriminate] end.
    change (Some ?x ≫= ?f) with (f x) in E. cbv beta iota in E. injection E as <- <-.
    destruct (step_life D X e a r e1 Hp E1) as (Hp1 & _). destruct (IH e1 rs1 e2 Hp1 E2) as (rs0 & e3 & rs2 & H1 & -> & H3).
    by exists (r :: rs0), e3, rs2. }
  destruct (G l e rs' e' Hp Es) as (rs0 & e1 & rs1 & Hp1 & -> & E1). clear G Es.
  exists rs0. cbn [steps step] in E1. unfold quietly in E1. repeat (change (Some ?x ≫= ?f) with (f x) in E1; cbv beta iota in E1).
  destruct (reset D X e1) as [e2|] eqn:E2; [|discriminate]. repeat (change (Some ?x ≫= ?f) with (f x) in E1; cbv beta iota in E1).
  destruct (setTimeRatio D X e2 q) as [e3|] eqn:E3; [|discriminate]. repeat (change (Some ?x ≫= ?f) with (f x) in E1; cbv beta iota in E1).
  injection E1 as <- <-. exists (time e1), (pitch e1), (time e2), (pitch e2), (time e3). split; [done|].
  assert (S2 : step D X e1 Reset = Some (Done, e2)) by (cbn [step]; unfold quietly; by rewrite E2).
  destruct (step_life D X _ _ _ _ Hp1 S2) as (Hp2 & Hph & Ht & Hpi & _).
  assert (S3 : step D X e2 (SetTime q) = Some (Done, e3)) by (cbn [step]; unfold quietly; by rewrite E3).
  destruct (step_life D X _ _ _ _ Hp2 S3) as (_ & _ & Ht3 & _). rewrite Hph in Ht3. done.
Qed.
Print Assumptions C35_reset_ratios_partial.
(** A client's use of a stretcher on one recording. *)
Definition once (b : list Z) : list (call (A := Z)) := [Study [b] true; Process [b] true; Available; GetIncrements].
Example C35_example : exists rs0 rs, session (plainD 256) sumX (plainO true) 8000 1 2 1 (once quiet ++ [GetTime; GetPitch; Reset; GetTime; GetPitch; SetTime 3; GetTime]) =
  Some (rs0 ++ rs) /\ rs = [Ratio 2; Ratio 1; Done; Ratio 2; Ratio 1; Done; Ratio 3].
Proof.
  destruct (session (plainD 256) sumX (plainO true) 8000 1 2 1 (once quiet ++ [GetTime; GetPitch; Reset; GetTime; GetPitch; SetTime 3; GetTime])) as [rs|] eqn:E;
    [|vm_compute in E; discriminate].
  assert (H : skipn 4 rs = [Ratio 2; Ratio 1; Done; Ratio 2; Ratio 1; Done; Ratio 3]) by (vm_compute in E; injection E as <-; reflexivity).
  exists (firstn 4 rs), (skipn 4 rs). split; [|exact H]. by rewrite firstn_skipn.
Qed.

(** C35 is false: the stretch profile of the recording before stays.  After a recording with a
    loud place the profile for silence has that place in it, though a new stretcher at the same
    ratio has none: the phases of the second recording are reset where the first was loud. *)
Theorem C35_reset_refuted : exists profile profile1 profile2,
  session (plainD 256) sumX (plainO true) 8000 1 2 1 (once quiet) = Some [Done; Done; Int 1616; Ints profile] /\
  Forall (fun x => 0 <= x) profile /\ length profile = 39%nat /\
  session (plainD 256) sumX (plainO true) 8000 1 2 1 (once bump ++ Reset :: once quiet) =
    Some ([Done; Done; Int 1616; Ints profile1] ++ Done :: [Done; Done; Int 1616; Ints profile2]) /\
  firstn 39 profile2 = profile1 /\ nth_error profile2 19 = Some (-21) /\ length profile2 = 117%nat.
Proof.
  eexists (replicate 39 42), _, _. split; [vm_compute; reflexivity|].
  split; [by apply Forall_replicate|]. split; [done|]. split; [vm_compute; reflexivity|]. split; [reflexivity|]. split; reflexivity.
Qed.
Print Assumptions C35_reset_refuted.

(** C38: with OptionChannelsTogether the stretcher does exactly what a client could do without
    it: code the first two channels before process and decode them after retrieve, in
    whatever blocks, and further channels as they are. *)
Theorem C38_midside : forall {A S R K KS} (D : dsp A S R K) (X : outside A S R KS) o rt n t p l,
  together o = true -> (2 <= n)%nat ->
  session D X o rt n t p l =
    map (decodedAnswer (add D) (sub D)) <$> session D X (apart o) rt n t p (map (codedCall (add D) (sub D) (half D)) l).
Proof. intros A S R K KS D X. exact (session_bare D X). Qed.
Print Assumptions C38_midside.
(** C38: the coding loses nothing where arithmetic is exact. *)
Theorem C38_codec : forall {A} (add sub : A -> A -> A) (half : A -> A),
  (forall a b, add (half (add a b)) (half (sub a b)) = a) -> (forall a b, sub (half (add a b)) (half (sub a b)) = b) ->
  forall n len bs, block n len bs -> fromMidSide add sub (toMidSide add sub half bs) = bs.
Proof. intros A. exact from_to. Qed.
Print Assumptions C38_codec.
(** 8 and 2 give mid 5 and side 3; the third channel stays as it is. *)
Example C38_example :
  toMidSide Z.add Z.sub (fun a => a / 2) [[8; 6]; [2; 0]; [9; 9]] = [[5; 3]; [3; 3]; [9; 9]] /\
  fromMidSide Z.add Z.sub [[5; 3]; [3; 3]; [9; 9]] = [[8; 6]; [2; 0]; [9; 9]] /\
  exists rs, session (plainD 256) sumX (Options true false false false false false true) 8000 2 2 1
    [Study [bump; quiet] true; Process [bump; quiet] true; Available; Retrieve 800] = Some rs /\ allFrames rs = 800.
Proof. split; [reflexivity|]. split; [reflexivity|]. eexists. split; vm_compute; reflexivity. Qed.
(** The rationals are such numbers. *)
Example C38_codec_example : forall l r : list Qc, length l = length r ->
  let half x := Qcmult x (Q2Qc (1 # 2)) in fromMidSide Qcplus Qcminus (toMidSide Qcplus Qcminus half [l; r]) = [l; r].
Proof.
  intros l r Hl half. assert (H1 : Qcplus (Q2Qc (1 # 2)) (Q2Qc (1 # 2)) = Q2Qc 1) by (by apply Qc_is_canon).
  apply (C38_codec Qcplus Qcminus half) with (n := 2%nat) (len := zlen l).
  - intros a b. unfold half. transitivity (Qcmult a (Qcplus (Q2Qc (1 # 2)) (Q2Qc (1 # 2)))); [ring|rewrite H1; ring].
  - intros a b. unfold half. transitivity (Qcmult b (Qcplus (Q2Qc (1 # 2)) (Q2Qc (1 # 2)))); [ring|rewrite H1; ring].
  - split; [done|]. constructor; [done|]. constructor; [unfold zlen; lia|constructor].
Qed.

(** C70: however a signal is divided over the calls of study, as long as the last of them has
    between one and 256 sample frames, every later answer is the same. *)
Theorem C70_study_partition_partial : forall {A S R K KS} (D : dsp A S R K) (X : outside A S R KS),
  (forall k a, zlen (fst (fst (fst (onset X k a)))) = zlen a) -> (forall x, mix X [x] = x) ->
  forall o rt n t sets T l b bs T' l' b' bs' rest,
  8000 <= rt <= 192000 -> (1 <= n)%nat -> highC o = false -> (1 <= inject_Z (2 ^ 40) * t)%Q -> (t <= inject_Z (2 ^ 40))%Q ->
  Forall setting sets ->
  studies n T l -> block n b bs -> 0 < b <= 256 -> studies n T' l' -> block n b' bs' -> 0 < b' <= 256 ->
  heard n (l ++ [Study bs true]) = heard n (l' ++ [Study bs' true]) ->
  exists answers : option (list (answer (A := A))),
    session D X o rt n t 1 (sets ++ (l ++ [Study bs true]) ++ rest) = app (replicate (length sets + length l + 1) Done) <$> answers /\
    session D X o rt n t 1 (sets ++ (l' ++ [Study bs' true]) ++ rest) = app (replicate (length sets + length l' + 1) Done) <$> answers.
Proof.
  intros A S R K KS D X Hons Hmix o rt n t sets T l b bs T' l' b' bs' rest Hrt Hn Hhc Ht1 Ht2 Hsets Hl Hb Hb0 Hl' Hb' Hb0' Heq.
  destruct (create_fresh D X o rt n t Hrt Ht1 Ht2 Hhc Hn) as (e & c & E & HF & Ho & Hr & Hnc & Ht & He).
  destruct (settings_fresh D X sets e c HF Hsets) as (e0 & c0 & E0 & HF0 & Ho0 & Hr0 & Hn0 & _).
  assert (Hne : nch e0 = n) by congruence. pose proof (fresh_window D e0 c0 HF0) as Hw.
  destruct (study_partition D X Hons Hmix e0 c0 l b bs l' b' bs' T T' HF0) as (e1 & E1 & E1'); try (rewrite ?Hne; done); try lia.
  exists (fst <$> steps D X e1 rest).
  assert (Happ : forall l2 e rs e1, steps D X e l2 = Some (rs, e1) -> forall l3, steps D X e (l2 ++ l3) = (fun x => (rs ++ fst x, snd x)) <$> steps D X e1 l3).
  { clear. induction l2 as [|a l2 IH]; intros e rs e1 E l3.
    - injection E as <- <-. cbn [app]. by destruct (steps D X e l3) as [[]|].
    - cbn [app steps] in *. destruct (step D X e a) as [[r e2]|]; [|discriminate]. change (Some ?x ≫= ?f) with (f x) in *. cbv beta iota in *.
      destruct (steps D X e2 l2) as [[rs2 e3]|] eqn:E2; [|discriminate]. change (Some ?x ≫= ?f) with (f x) in *. cbv beta iota in *. injection E as <- <-.
      rewrite (IH e2 rs2 e3 E2 l3). by destruct (steps D X e3 l3) as [[]|]. }
  assert (Hrep : forall i j k, replicate i (Done (A := A)) ++ (replicate j Done ++ [Done]) ++ k = replicate (i + j + 1) Done ++ k).
  { intros i j k. rewrite <- Nat.add_assoc, !replicate_add, <- !app_assoc. done. }
  split; unfold session; rewrite E; change (Some ?x ≫= ?f) with (f x); cbv beta; rewrite (Happ _ _ _ _ E0).
  - rewrite (Happ _ _ _ _ E1). destruct (steps D X e1 rest) as [[rs e2]|]; [|done]. cbn [fmap option_fmap option_map fst snd]. by rewrite Hrep.
  - rewrite (Happ _ _ _ _ E1'). destruct (steps D X e1 rest) as [[rs e2]|]; [|done]. cbn [fmap option_fmap option_map fst snd]. by rewrite Hrep.
Qed.
Print Assumptions C70_study_partition_partial.
Lemma list_block (x : list Z) : block 1 (zlen x) [x].
Proof. split; [done|]. constructor; [done|constructor]. Qed.
(** The loud place studied in two blocks and in three. *)
Example C70_example : exists answers,
  session (plainD 256) sumX (plainO true) 8000 1 2 1 ([SetTime 3] ++ ([Study [firstn 600 bump] false] ++ [Study [skipn 600 bump] true]) ++ [Process [quiet] true; GetIncrements]) =
    app (replicate 3 Done) <$> answers /\
  session (plainD 256) sumX (plainO true) 8000 1 2 1 ([SetTime 3] ++ ([Study [firstn 100 bump] false; Study [firstn 607 (skipn 100 bump)] false] ++ [Study [skipn 707 bump] true]) ++ [Process [quiet] true; GetIncrements]) =
    app (replicate 4 Done) <$> answers.
Proof.
  apply (C70_study_partition_partial (plainD 256) sumX) with (sets := [SetTime 3] : list (call (A := Z))) (l := [Study [firstn 600 bump] false])
    (l' := [Study [firstn 100 bump] false; Study [firstn 607 (skipn 100 bump)] false])
    (T := 600 + 0) (b := 208) (T' := 100 + (607 + 0)) (b' := 101).
  - intros k a. reflexivity.
  - intros x. reflexivity.
  - lia.
  - lia.
  - reflexivity.
  - vm_compute. discriminate.
  - vm_compute. discriminate.
  - constructor; [|constructor]. apply set_time; vm_compute; discriminate.
  - apply studies_cons; [|constructor]. split; [reflexivity|]. constructor; [vm_compute; reflexivity|constructor].
  - split; [reflexivity|]. constructor; [vm_compute; reflexivity|constructor].
  - lia.
  - apply studies_cons; [|apply studies_cons; [|constructor]]; (split; [reflexivity|]; constructor; [vm_compute; reflexivity|constructor]).
  - split; [reflexivity|]. constructor; [vm_compute; reflexivity|constructor].
  - lia.
  - vm_compute. reflexivity.
Qed.

(** C70 is false for a longer last block: where it does not fit into the buffer, the windows at
    the end of what does are analysed with the end of an older window instead of the signal
    that follows.  A loud place after 50 ms is then found at chunk 19, not 13. *)
Theorem C70_long_last_block_refuted : exists p q, heard 1 [Study [bump] true] = heard 1 ([Study [firstn 700 bump] false] ++ [Study [skipn 700 bump] true]) /\
  session (plainD 256) sumX (plainO true) 8000 1 2 1 [Study [bump] true; Process [quiet] true; GetIncrements] = Some [Done; Done; Ints p] /\
  session (plainD 256) sumX (plainO true) 8000 1 2 1 [Study [firstn 700 bump] false; Study [skipn 700 bump] true; Process [quiet] true; GetIncrements] = Some [Done; Done; Done; Ints q] /\
  nth_error p 19 = Some (-21) /\ nth_error q 13 = Some (-21) /\ Forall (fun x => 0 <= x) (firstn 19 p).
Proof.
  eexists _, _. split; [vm_compute; reflexivity|]. split; [vm_compute; reflexivity|]. split; [vm_compute; reflexivity|].
  split; [reflexivity|]. split; [reflexivity|]. repeat (constructor; [discriminate|]). constructor.
Qed.
Print Assumptions C70_long_last_block_refuted.
(** C70 is false for an empty last block, too: then the last windows are not analysed at all. *)
Theorem C70_empty_last_block_refuted : exists p q, heard 1 [Study [bump] true] = heard 1 ([Study [bump] false] ++ [Study [[]] true]) /\
  session (plainD 256) sumX (plainO true) 8000 1 2 1 [Study [bump] true; Process [quiet] true; GetIncrements] = Some [Done; Done; Ints p] /\
  session (plainD 256) sumX (plainO true) 8000 1 2 1 [Study [bump] false; Study [[]] true; Process [quiet] true; GetIncrements] = Some [Done; Done; Done; Ints q] /\
  length p = 39%nat /\ length q = 33%nat.
Proof. eexists _, _. split; [vm_compute; reflexivity|]. split; [vm_compute; reflexivity|]. split; [vm_compute; reflexivity|]. split; reflexivity. Qed.
Print Assumptions C70_empty_last_block_refuted.
