(** C88: the command-line program. *)
From stdpp Require Import prelude list numbers.
From Coq Require Import ZArith QArith Qround Qabs Qminmax Lia Lqa.
From Verif.Command Require Import Model Spec Proofs More.
From stdpp Require Import list numbers list_numbers.
Local Open Scope Z_scope.

(** ** From the pieces to the session *)
Notation isSetup := (fun c => match c with Study _ _ | Keys => True | _ => False end).
Notation isFed := (fun c => match c with Pitch _ | Process _ _ => True | _ => False end).
Lemma setup_app a b : Forall isSetup a -> Forall isFed b -> setup (a ++ b) = a.
Proof.
  intros F G. induction F as [|c a H _ IH]; cbn [app].
  - destruct G as [|c b H _]; [done|]. destruct c; cbn in *; done.
  - destruct c; cbn in *; try done; by rewrite IH.
Qed.
Lemma sofar_setup D past a : Forall isSetup a -> sofar D past a = [].
Proof. intros F. revert past. induction F as [|c a H _ IH]; intros past; [done|]. destruct c; cbn in *; try done; apply IH. Qed.
Lemma given_setup a : Forall isSetup a -> given a = [].
Proof. induction 1 as [|c a H _ IH]; [done|]. destruct c; cbn in *; done. Qed.
Lemma studied_fed a : Forall isFed a -> studied a = [].
Proof. induction 1 as [|c a H _ IH]; [done|]. destruct c; cbn in *; done. Qed.
Lemma sung_setup p a b : Forall isSetup a -> sung p (a ++ b) = sung p b.
Proof. induction 1 as [|c a H _ IH]; [done|]. destruct c; cbn in *; done. Qed.
Lemma sung_pads p a b : Forall (fun c => exists b, c = Process b false) a -> sung p (a ++ b) = (pair p <$> given a) ++ sung p b.
Proof. induction 1 as [|c a [x ->] _ IH]; [done|]. cbn. change (flat_map _ a) with (given a). rewrite IH, fmap_app, <- app_assoc. done. Qed.

Lemma plan_fed j : forall fuel m data ci, Forall isFed (plan fuel j m data ci).
Proof.
  induction fuel as [|fuel IH]; intros m data ci; cbn [plan]; [constructor|].
  destruct (pitches_log (frequencyshift j) m ci bs []) as (m' & block & l & _ & E & FL & B). rewrite E.
  apply Forall_app_2; [eapply Forall_impl; [exact FL|]; intros c [s ->]; done|].
  constructor; [done|]. destruct (_ || _); [constructor|apply IH].
Qed.
Lemma before_setup D j lg0 pads : before D j lg0 pads -> Forall isSetup lg0 /\ Forall isFed pads /\
  (honest j -> realtime j = false -> studied lg0 = content j).
Proof.
  intros (A & B & C & E). split_and!.
  - destruct (realtime j).
    + rewrite (A eq_refl). destruct (timeMap j); repeat constructor.
    + destruct (B eq_refl) as (l & -> & F & _). apply Forall_app_2; [|destruct (timeMap j); repeat constructor].
      eapply Forall_impl; [exact F|]. intros c (b & f & ->). done.
  - eapply Forall_impl; [exact C|]. intros c (b & ->). done.
  - intros Hh Hr. destruct (B Hr) as (l & -> & _ & G). rewrite studied_app, (G Hh). destruct (timeMap j); cbn; by rewrite app_nil_r.
Qed.

Lemma clamp_mm x : (clamp x == Qmin 1 (Qmax (- (1)) x))%Q.
Proof.
  unfold clamp. destruct (gtq x 1) eqn:E.
  - apply gtq_true in E. destruct (gtq (- (1)) 1) eqn:E'; [apply gtq_true in E'; lra|].
    rewrite Q.max_r by lra. rewrite Q.min_l by lra. lra.
  - apply gtq_false in E. destruct (gtq (- (1)) x) eqn:E'.
    + apply gtq_true in E'. rewrite Q.max_l by lra. rewrite Q.min_r by lra. lra.
    + apply gtq_false in E'. rewrite Q.max_r by lra. rewrite Q.min_r by lra. lra.
Qed.
Lemma same_app a b c d : same a b -> same c d -> same (a ++ c) (b ++ d).
Proof. apply Forall2_app. Qed.
Lemma same_map (f g : Q -> Q) l : (forall x, f x == g x)%Q -> same (map (map f) l) (map (map g) l).
Proof.
  intros H. induction l as [|x l IH]; constructor; [|exact IH]. induction x as [|y x IHx]; constructor; [apply H|exact IHx].
Qed.
Lemma wrote_scaled ig g W g' f : wrote ig g false W [] g' false f -> same f (scaled ig g W) /\ Forall (Forall inScale) f.
Proof.
  intros [(-> & _ & _ & ->)|[(-> & _ & _ & -> & F)|(_ & ? & _)]]; [..|discriminate]; cbn [app]; unfold scaled, times.
  - split; [apply same_map, (fun x => clamp_mm _)|]. apply Forall_fmap, Forall_true. intros l. apply Forall_fmap, Forall_true. intros x. apply clamp_range.
  - split; [by apply same_map|]. apply Forall_fmap. eapply Forall_impl; [exact F|]. intros l Fl. apply Forall_fmap.
    eapply Forall_impl; [exact Fl|]. intros x [A B]. unfold inScale. cbn. lra.
Qed.

Local Opaque program passes.
(** What the program does, in one statement *)
Lemma program_session D j ig0 : shaped (channels j) D ->
  exists n g ig s, program D j ig0 = Some (file s, n, g, ig, s) /\ (n <= 289)%nat /\ clipping s = false /\
    pass D j g ig = Some s /\ Forall (Forall inScale) (file s) /\
    (3 # 4 <= g <= 1)%Q /\ (ig0 = true -> ig = true /\ g = 1%Q) /\ (ig0 = false -> ig = true -> g = 3 # 4) /\
    exists W, same (file s) (scaled ig g W ++ scaled true g (late D (log s))) /\
    (ig0 = false -> Forall (Forall quiet) W -> n = 1%nat /\ g = 1%Q /\ ig = false) /\
    (ig0 = false -> ~ Forall (Forall quiet) W -> (1 < n)%nat /\ (g <= 999 # 1000)%Q) /\
    (honest j ->
       (given (log s) = (if realtime j then silence (channels j) (startPad D (setup (log s))) else []) ++ content j /\
        endsOnce (log s) /\ (realtime j = false -> studied (log s) = content j) /\
        sung (frequencyshift j) (log s) =
          (pair (frequencyshift j) <$> (if realtime j then silence (channels j) (startPad D (setup (log s))) else [])) ++
          imap (fun k f => (pitchAt (frequencyshift j) (frequencyshift j) (freqMap j) (Z.of_nat k), f)) (content j)) /\
       (realtime j = false -> W = sound D (log s)) /\
       (realtime j = true -> exists k, (k <= length (drop (Z.to_nat (startDelay D (setup (log s)))) (sofar D [] (removelast (log s)))))%nat /\
          W = take (Nat.max k (ideal j)) (sound D (log s)))).
Proof.
  intros Hsh. destruct (pass_ok D j Hsh) as (lg0 & pads & Hb & PASS). cbv zeta in PASS.
  set (N := S (length (content j))) in *. set (cs := plan N j (freqMap j) (content j) 0) in *.
  set (W := outcome _ _ _ _ _ _ _ _ _ _) in *.
  destruct (program_ok D j lg0 pads W cs PASS ig0) as (n & g & ig & s & E & Hn & G & H34 & I1 & I2).
  destruct G as (G1 & G2 & _ & _ & _ & G6 & f & Hw & Ef).
  destruct (wrote_scaled _ _ _ _ _ Hw) as [S1 S2].
  destruct (before_setup D j lg0 pads Hb) as (FA & FB & FS).
  assert (FC : Forall isFed cs) by apply plan_fed.
  assert (Es : setup (log s) = lg0). { rewrite G6. apply setup_app; [exact FA|by apply Forall_app_2]. }
  exists n, g, ig, s. split_and!; try done; try tauto.
  { rewrite Ef. apply Forall_app_2; [exact S2|]. apply Forall_fmap, Forall_true. intros l. apply Forall_fmap, Forall_true. intros x. apply clamp_range. }
  assert (Q1 : forall x, quiet x <-> fits 1 x).
  { intros x. unfold quiet, fits. rewrite !Qmult_1_l. done. }
  assert (Q2 : Forall (Forall quiet) W <-> Forall (Forall (fits 1)) W).
  { split; intros F; (eapply Forall_impl; [exact F|]); intros l Fl; (eapply Forall_impl; [exact Fl|]); intros x; apply Q1. }
  exists W. split_and!.
  - rewrite Ef. apply same_app; [exact S1|]. unfold scaled. apply same_map. intros x. apply clamp_mm.
  - intros -> F. apply Q2 in F. destruct (program_quiet D j lg0 pads W cs PASS F) as (s' & E'). rewrite E in E'. injection E' as _ -> -> -> _. done.
  - intros -> F. rewrite Q2 in F. eapply (program_loud D j lg0 pads W cs PASS F). exact E.
  - intros Hh. unfold honest in Hh.
    destruct (plan_feeds j N (freqMap j) (content j) 0 ltac:(lia) ltac:(lia)) as [P1 (l' & b' & P2 & P3)]. fold cs in P1, P2.
    destruct Hb as (B1 & B2 & B3 & B4).
    assert (Eg : given (lg0 ++ pads) = (if realtime j then silence (channels j) (startPad D lg0) else [])).
    { rewrite given_app, (given_setup _ FA), B4. done. }
    split; [|split].
    + rewrite Es. split_and!.
      * rewrite G6, app_assoc, given_app, Eg, P1. done.
      * exists (lg0 ++ pads ++ l'), b'. rewrite G6, P2, <- !app_assoc. split; [done|].
        apply Forall_app_2; [eapply Forall_impl; [exact FA|]; intros c; by destruct c|].
        apply Forall_app_2; [eapply Forall_impl; [exact B3|]; intros c (b & ->); done|done].
      * intros Hr. rewrite G6, studied_app, (studied_fed (pads ++ cs)) by (by apply Forall_app_2). rewrite app_nil_r. by apply FS.
      * rewrite G6, sung_setup, sung_pads, B4 by done. f_equal. unfold cs. rewrite plan_sung by lia. done.
    + intros Hr. unfold sound. rewrite Es, G6. unfold W. rewrite outcome_offline by (done || lia). fold cs.
      rewrite sofar_app, (sofar_setup D [] lg0 FA), sofar_app. cbn [app]. done.
    + intros Hr. destruct (outcome_realtime D j Hr N (freqMap j) (content j) 0 (lg0 ++ pads) (sofar D lg0 pads) (startDelay D lg0) 0 ltac:(lia) ltac:(lia)) as (k & Lk & Ek).
      fold W cs in Ek, Lk. exists k. unfold sound. rewrite Es, G6. split.
      * rewrite !app_assoc, removelast_app by (rewrite P2; by destruct l').
        rewrite <- app_assoc. rewrite sofar_app, (sofar_setup D [] lg0 FA), sofar_app. cbn [app]. exact Lk.
      * rewrite sofar_app, (sofar_setup D [] lg0 FA), sofar_app. cbn [app]. rewrite Ek. unfold ideal. f_equal. f_equal. rewrite Z.sub_0_r, Z.add_0_l. done.
Qed.

(** ** The properties *)
(** Whatever the stretcher puts out, the program ends, after at most 289 passes, and with a pass that
    it did not break off. *)
Theorem C88_ends D j ig0 : shaped (channels j) D ->
  exists disk n g ig s, program D j ig0 = Some (disk, n, g, ig, s) /\ (1 <= n <= 289)%nat /\ clipping s = false.
Proof.
  intros H. destruct (program_session D j ig0 H) as (n & g & ig & s & E & Hn & C & _ & _ & _ & _ & _ & W & _ & A & B & _).
  exists (file s), n, g, ig, s. split_and!; try done. destruct n; [|lia]. exfalso.
  apply program_count in E. lia.
Qed.
Print Assumptions C88_ends.

(** Every sample in the finished file lies within full scale. *)
Theorem C88_in_range D j ig0 disk n g ig s : shaped (channels j) D -> program D j ig0 = Some (disk, n, g, ig, s) ->
  Forall (Forall inScale) disk.
Proof.
  intros H E. destruct (program_session D j ig0 H) as (n' & g' & ig' & s' & E' & _ & _ & _ & A & _).
  rewrite E in E'. injection E' as -> -> -> -> ->. exact A.
Qed.
Print Assumptions C88_in_range.

(** The file is what a single pass with the last gain writes, from its first frame to its last: nothing
    of the passes broken off is left in it. The gain lies between 3/4 and 1; it is 1 if clipping is
    ignored from the start, and 3/4 if the program itself has decided to ignore it. *)
Theorem C88_restart D j ig0 disk n g ig s : shaped (channels j) D -> program D j ig0 = Some (disk, n, g, ig, s) ->
  pass D j g ig = Some s /\ clipping s = false /\ disk = file s /\ (3 # 4 <= g <= 1)%Q /\
  (ig0 = true -> ig = true /\ g = 1%Q) /\ (ig0 = false -> ig = true -> g = 3 # 4).
Proof.
  intros H E. destruct (program_session D j ig0 H) as (n' & g' & ig' & s' & E' & _ & C & P & A & B & I1 & I2 & _).
  rewrite E in E'. injection E' as -> -> -> -> ->. done.
Qed.
Print Assumptions C88_restart.

(** Offline: the file is all that the stretcher has put out, each sample times one and the same gain.
    If nothing of it reaches full scale, the gain is 1 after one pass; if something does, it is less. *)
Theorem C88_output D j ig0 disk n g ig s : shaped (channels j) D -> honest j -> realtime j = false ->
  program D j ig0 = Some (disk, n, g, ig, s) ->
  same disk (scaled ig g (sound D (log s)) ++ scaled true g (late D (log s))) /\
  (ig0 = false -> Forall (Forall quiet) (sound D (log s)) -> n = 1%nat /\ g = 1%Q /\ ig = false) /\
  (ig0 = false -> ~ Forall (Forall quiet) (sound D (log s)) -> (1 < n)%nat /\ (g <= 999 # 1000)%Q).
Proof.
  intros H Hh Hr E. destruct (program_session D j ig0 H) as (n' & g' & ig' & s' & E' & _ & C & P & A & B & I1 & I2 & W & S1 & S2 & S3 & R).
  rewrite E in E'. injection E' as -> -> -> -> ->. destruct (R Hh) as (_ & R1 & _). rewrite (R1 Hr) in *. done.
Qed.
Print Assumptions C88_output.

(** Real time: likewise, and no more than the length asked for, provided the stretcher has not put out
    more than that before its last call. *)
Theorem C88_length D j ig0 disk n g ig s : shaped (channels j) D -> honest j -> realtime j = true ->
  program D j ig0 = Some (disk, n, g, ig, s) ->
  (length (drop (Z.to_nat (startDelay D (setup (log s)))) (sofar D [] (removelast (log s)))) <= ideal j)%nat ->
  same disk (scaled ig g (take (ideal j) (sound D (log s))) ++ scaled true g (late D (log s))).
Proof.
  intros H Hh Hr E L. destruct (program_session D j ig0 H) as (n' & g' & ig' & s' & E' & _ & C & P & A & B & I1 & I2 & W & S1 & S2 & S3 & R).
  rewrite E in E'. injection E' as -> -> -> -> ->. destruct (R Hh) as (_ & _ & R1). destruct (R1 Hr) as (k & Lk & ->).
  rewrite Nat.max_r in S1 by lia. exact S1.
Qed.
Print Assumptions C88_length.

(** The stretcher is given the whole input once and in order (after the silence it asks for, in real
    time), is told once, at the end, that it is the end, and has studied all of it before (offline). *)
Theorem C88_feeds D j ig0 disk n g ig s : shaped (channels j) D -> honest j ->
  program D j ig0 = Some (disk, n, g, ig, s) ->
  given (log s) = (if realtime j then silence (channels j) (startPad D (setup (log s))) else []) ++ content j /\
  endsOnce (log s) /\ (realtime j = false -> studied (log s) = content j).
Proof.
  intros H Hh E. destruct (program_session D j ig0 H) as (n' & g' & ig' & s' & E' & _ & C & P & A & B & I1 & I2 & W & S1 & S2 & S3 & R).
  rewrite E in E'. injection E' as -> -> -> -> ->. destruct (R Hh) as (R1 & _). tauto.
Qed.
Print Assumptions C88_feeds.

(** Each frame of the input is given while the pitch that the pitch map has for it is set: changes fall
    on the very frame, not on the next block. *)
Theorem C88_pitch D j ig0 disk n g ig s : shaped (channels j) D -> honest j ->
  program D j ig0 = Some (disk, n, g, ig, s) ->
  sung (frequencyshift j) (log s) =
    (pair (frequencyshift j) <$> (if realtime j then silence (channels j) (startPad D (setup (log s))) else [])) ++
    imap (fun k f => (pitchAt (frequencyshift j) (frequencyshift j) (freqMap j) (Z.of_nat k), f)) (content j).
Proof.
  intros H Hh E. destruct (program_session D j ig0 H) as (n' & g' & ig' & s' & E' & _ & C & P & A & B & I1 & I2 & W & S1 & S2 & S3 & R).
  rewrite E in E'. injection E' as -> -> -> -> ->. destruct (R Hh) as (R1 & _). tauto.
Qed.
Print Assumptions C88_pitch.

Local Transparent program passes.
(** ** Cases *)
Definition lastBlock (l : list call) : list frame := match last l with Some (Process b _) => b | _ => [] end.
(** Puts out what it is given *)
Definition wire (pad delay : Z) : device := Device lastBlock (fun _ => []) (fun _ => delay) (fun _ => pad).
(** Loses nothing but puts it all out late *)
Definition tardy : device := Device (fun _ => []) given (fun _ => 0) (fun _ => 0).
Definition mono (rt : bool) (r : Q) (m : list (Z * Q)) (c : Z) (l : list Q) : job := Job rt 1 r 1 false m c ((fun x => [x]) <$> l).

Definition loudJob : job := mono false 1 [] 3 [1 # 2; - (5 # 4); 1 # 4]%Q.
Example C88_output_example :
  match program (wire 0 0) loudJob false with
  | Some (disk, n, g, ig, s) => n = 2%nat /\ ig = false /\ (g == 1998 # 2500)%Q /\
      forallb (fun p => Qeq_bool (fst p) (snd p)) (zip (concat disk) [999 # 2500; - (999 # 1000); 999 # 5000]%Q) = true
  | None => False
  end.
Proof. vm_compute. done. Qed.
(** Far too loud: with 3/4 the program gives up and cuts off. *)
Example C88_restart_example :
  match program (wire 0 0) (mono false 1 [] 2 [1 # 2; 8]%Q) false with
  | Some (disk, n, g, ig, s) => n = 2%nat /\ ig = true /\ (g == 3 # 4)%Q /\
      forallb (fun p => Qeq_bool (fst p) (snd p)) (zip (concat disk) [3 # 8; 1]%Q) = true
  | None => False
  end.
Proof. vm_compute. done. Qed.
(** Two changes of pitch within one block of 1024, in real time, with two frames of silence before. *)
Example C88_pitch_example :
  match program (wire 2 2) (mono true 1 [(1, 2%Q); (2, 3%Q)] 4 [1 # 2; 1 # 3; 1 # 4; 1 # 5]%Q) false with
  | Some (disk, n, g, ig, s) => n = 1%nat /\ length disk = 4%nat /\
      (sung 1 (log s)).*1 = [1; 1; 1; 2 # 1; 3 # 1; 3 # 1]%Q /\ length (log s) = 6%nat
  | None => False
  end.
Proof. vm_compute. done. Qed.
(** In real time half the length: the rest of the last call's output is left out. *)
Example C88_length_example :
  match program (wire 0 0) (mono true (1 # 2) [] 4 [1 # 2; 1 # 3; 1 # 4; 1 # 5]%Q) false with
  | Some (disk, n, g, ig, s) => length disk = 2%nat
  | None => False
  end.
Proof. vm_compute. done. Qed.
(** Without the proviso the file is longer: of 2048 frames at ratio 1/4, 1024 are written, not 512. *)
Example C88_length_tight :
  match program (wire 0 0) (mono true (1 # 4) [] 2048 (replicate (Z.to_nat 2048) 0%Q)) false with
  | Some (disk, n, g, ig, s) => Z.of_nat (length disk) = 1024 /\
      Z.of_nat (ideal (mono true (1 # 4) [] 2048 (replicate (Z.to_nat 2048) 0%Q))) = 512
  | None => False
  end.
Proof. vm_compute. done. Qed.
(** Devices that meet [shaped]: one frame of one channel for each call, quiet or loud, and one late *)
Definition blip (x : Q) : device := Device (fun _ => [[x]]) (fun _ => [[4 # 1]%Q]) (fun _ => 0) (fun _ => 0).
Example C88_shaped_example : (forall x, shaped 1 (blip x)) /\ honest loudJob /\
  match program (blip (1 # 2)) loudJob false with Some (disk, n, g, ig, s) => length disk = 2%nat /\ n = 1%nat /\ g = 1%Q | None => False end /\
  match program (blip (5 # 4)) loudJob false with Some (disk, n, g, ig, s) => length disk = 2%nat /\ n = 2%nat /\ (g == 1998 # 2500)%Q /\ ig = false | None => False end /\
  match program (blip 3) loudJob false with Some (disk, n, g, ig, s) => length disk = 2%nat /\ n = 2%nat /\ (g == 3 # 4)%Q /\ ig = true | None => False end /\
  match program (blip 3) loudJob true with Some (disk, n, g, ig, s) => length disk = 2%nat /\ n = 1%nat /\ (g == 1)%Q /\ ig = true | None => False end.
Proof. split; [|vm_compute; done]. intros x l. split; repeat constructor. Qed.

(** ** Findings *)
(** What arrives late is cut off at full scale although clipping is not to be ignored: no new pass, no
    lower gain, and the file does not have the shape of the stretcher's output. *)
Theorem C88_late_refuted : exists D j disk n g s, shaped (channels j) D /\ honest j /\
  program D j false = Some (disk, n, g, false, s) /\ n = 1%nat /\ g = 1%Q /\
  late D (log s) = [[4 # 1]]%Q /\ last disk = Some [1%Q].
Proof.
  exists (blip (1 # 2)), (mono false 1 [] 1 [1 # 2]%Q). eexists _, _, _, _. split; [intros l; split; repeat constructor|].
  split; [vm_compute; done|]. split; [vm_compute; reflexivity|]. split_and!; vm_compute; reflexivity.
Qed.
Print Assumptions C88_late_refuted.

(** If the header understates the length, the frames beyond the block in which it ends are not read. *)
Theorem C88_header_refuted : exists D j disk n g ig s, shaped (channels j) D /\
  program D j false = Some (disk, n, g, ig, s) /\
  Z.of_nat (length (content j)) = 1026 /\ Z.of_nat (length (given (log s))) = 1024.
Proof.
  exists (blip (1 # 2)), (mono false 1 [] 0 (replicate (Z.to_nat 1026) 0%Q)).
  assert (Hs : shaped (channels (mono false 1 [] 0 (replicate (Z.to_nat 1026) 0%Q))) (blip (1 # 2))) by (intros l; split; repeat constructor).
  destruct (C88_ends _ _ false Hs) as (disk & n & g & ig & s & E & _). exists disk, n, g, ig, s.
  split; [exact Hs|]. split; [exact E|]. split; [vm_compute; reflexivity|].
  assert (G : match program (blip (1 # 2)) (mono false 1 [] 0 (replicate (Z.to_nat 1026) 0%Q)) false with
              | Some (_, _, _, _, s) => Z.of_nat (length (given (log s))) | None => 0 end = 1024) by (vm_compute; reflexivity).
  rewrite E in G. exact G.
Qed.
Print Assumptions C88_header_refuted.

(** The ratio that the stretcher is made with is positive if no duration is asked for, or a positive one. *)
Theorem C88_ratio_partial ratios duration frames rate r : (0 <= duration)%Q -> 0 <= frames -> 0 < rate ->
  settle ratios duration frames rate = Some r -> (0 < r)%Q.
Proof.
  intros Hd Hf Hr. unfold settle. destruct (Qle_bool _ 0) eqn:E; [done|].
  assert (P : (0 < fold_left Qmult ratios 1)%Q).
  { apply Qnot_le_lt. intros G. apply Qle_bool_iff in G. congruence. }
  destruct (Qeq_bool duration 0) eqn:Ed; [intros [= <-]; exact P|].
  destruct (frames =? 0) eqn:Ef; [done|]. apply Z.eqb_neq in Ef. intros [= <-].
  match goal with |- (0 < (if ?b then _ else _))%Q => destruct b end; [exact P|].
  assert (Hd' : (0 < duration)%Q). { apply Qeq_bool_neq in Ed. destruct (Qlt_le_dec 0 duration); [done|]. exfalso. apply Ed. lra. }
  assert (I1 : (0 < inject_Z frames)%Q) by (change 0%Q with (inject_Z 0); rewrite <- Zlt_Qlt; lia).
  assert (I2 : (0 < inject_Z rate)%Q) by (change 0%Q with (inject_Z 0); rewrite <- Zlt_Qlt; lia).
  apply Qlt_shift_div_l; [apply Qlt_shift_div_l; [exact I2|lra]|lra].
Qed.
Print Assumptions C88_ratio_partial.
(** The ratio is the product of those asked for with -t and -T, or else what makes the input as
    long as -D says. *)
Definition product (l : list Q) : Q := foldr Qmult 1%Q l.
Lemma product_fold l : forall x, (fold_left Qmult l x == x * product l)%Q.
Proof. induction l as [|y l IH]; intros x; cbn [fold_left product foldr]; [ring|]. rewrite IH. unfold product. ring. Qed.
Theorem C88_duration ratios duration frames rate r : 0 < rate -> settle ratios duration frames rate = Some r ->
  ((duration == 0)%Q -> (r == product ratios)%Q) /\
  (~ (duration == 0)%Q -> frames <> 0 /\ (r * (inject_Z frames / inject_Z rate) == duration)%Q).
Proof.
  intros Hr. unfold settle. destruct (Qle_bool _ 0) eqn:E; [done|].
  assert (N : ~ (inject_Z rate == 0)%Q) by (change 0%Q with (inject_Z 0); rewrite inject_Z_injective; lia).
  destruct (Qeq_bool duration 0) eqn:Ed.
  { intros [= <-]. apply Qeq_bool_iff in Ed. split; [intros _|done]. rewrite product_fold. ring. }
  destruct (frames =? 0) eqn:Ef; [done|]. apply Z.eqb_neq in Ef. apply Qeq_bool_neq in Ed.
  assert (M : ~ (inject_Z frames == 0)%Q) by (change 0%Q with (inject_Z 0); rewrite inject_Z_injective; lia).
  intros [= <-]. split; [done|]. intros _. split; [done|].
  match goal with |- ((if ?b then _ else _) * _ == _)%Q => destruct b eqn:Eb end.
  { exfalso. apply Qeq_bool_iff in Eb. apply M. rewrite <- (Qmult_div_r (inject_Z frames) (inject_Z rate)); [|exact N]. rewrite Eb. ring. }
  field. done.
Qed.
Print Assumptions C88_duration.
Example C88_duration_example : settle [2; 3 # 2]%Q 0 441000 44100 = Some (1 * 2 * (3 # 2))%Q /\ settle [2]%Q 25 441000 44100 = Some (25 / (441000 / 44100))%Q
  /\ (25 / (441000 / 44100) == 5 # 2)%Q.
Proof. split_and!; vm_compute; reflexivity. Qed.
(** A negative duration is not refused: the check comes before the ratio is worked out from it. *)
Theorem C88_ratio_refuted : exists duration frames rate r, 0 < frames /\ 0 < rate /\ settle [] duration frames rate = Some r /\ (r < 0)%Q.
Proof. exists (- (5))%Q, 441000, 44100. eexists. split_and!; [done..|vm_compute; reflexivity|]. vm_compute. reflexivity. Qed.
Print Assumptions C88_ratio_refuted.
