(** The calls of a pass, what a pass writes, and the passes. *)
From stdpp Require Import prelude list numbers.
From Coq Require Import ZArith QArith Qround Qabs Lia Lqa Qpower.
From Verif.Command Require Import Model Spec Proofs.
From stdpp Require Import list numbers list_numbers.
Local Open Scope Z_scope.
Local Opaque bs.

Lemma given_app a b : given (a ++ b) = given a ++ given b.
Proof. unfold given. by rewrite flat_map_app. Qed.
Lemma studied_app a b : studied (a ++ b) = studied a ++ studied b.
Proof. unfold studied. by rewrite flat_map_app. Qed.

(** ** The calls *)
Lemma pitches_given l : Forall (fun c => exists s, c = Pitch s) l -> given l = [].
Proof. induction 1 as [|c l [s ->] _ IH]; cbn; done. Qed.

Lemma plan_feeds j : forall fuel m data ci, (length data < fuel)%nat -> ci + Z.of_nat (length data) <= count j ->
  given (plan fuel j m data ci) = data /\ endsOnce (plan fuel j m data ci).
Proof.
  pose proof bs_pos as Hbs. induction fuel as [|fuel IH]; intros m data ci Hl Hn; [lia|]. cbn [plan].
  destruct (pitches_log (frequencyshift j) m ci bs []) as (m' & block & l & _ & E & FL & B). rewrite E. specialize (B Hbs).
  set (b := take (Z.to_nat block) data). set (final := _ || _).
  rewrite given_app, (pitches_given l FL). cbn [app given flat_map].
  change (flat_map _ ?x) with (given x).
  destruct final eqn:Ef.
  - assert (b = data) as ->.
    { unfold b. apply orb_true_iff in Ef as [Ef|Ef].
      - apply Z.leb_le in Ef. apply take_ge. lia.
      - apply Z.eqb_eq in Ef. unfold b in Ef. rewrite take_length in Ef. destruct data; [by rewrite take_nil|cbn in Ef; lia]. }
    cbn [given flat_map]. rewrite app_nil_r. split; [done|]. exists l, data. split; [done|].
    eapply Forall_impl; [exact FL|]. intros c [s ->]. done.
  - apply orb_false_iff in Ef as [E1 E2]. apply Z.eqb_neq in E2. unfold b in E2. rewrite take_length in E2.
    destruct (IH m' (drop (Z.to_nat block) data) (ci + Z.of_nat (length b))) as [G (l' & b' & E' & F')].
    { rewrite drop_length. lia. } { unfold b. rewrite take_length, drop_length. lia. }
    rewrite G. split; [unfold b; apply take_drop|]. exists (l ++ Process b false :: l'), b'. split.
    + rewrite E', <- app_assoc. done.
    + apply Forall_app_2; [|by constructor]. eapply Forall_impl; [exact FL|]. intros c [s ->]. done.
Qed.

(** Pitch *)
Lemma pitches_sung shift m p : forall ci block m' block' l, pitches shift m ci block [] = (m', block', l) ->
  exists p', (forall rest, sung p (l ++ rest) = sung p' rest) /\
    (forall i, ci <= i -> pitchAt shift p m i = pitchAt shift p' m' i) /\
    (forall i, ci <= i < ci + block' -> pitchAt shift p' m' i = p').
Proof.
  revert p. induction m as [|[f x] m IH]; intros p ci block m' block' l E; cbn [pitches] in E.
  - injection E as <- <- <-. exists p. split_and!; done.
  - destruct (Z.leb_spec f ci) as [H|H].
    + destruct (pitches_log shift m ci block ([] ++ [Pitch (shift * x)])) as (m1 & b1 & l1 & E1 & E1' & _).
      rewrite E1 in E. injection E as <- <- <-.
      destruct (IH (shift * x)%Q ci block m1 b1 l1 E1') as (p' & A & B & C).
      exists p'. split_and!; [|intros i Hi|exact C].
      * intros rest. cbn. apply A.
      * cbn [pitchAt]. rewrite decide_True by lia. by apply B.
    + injection E as <- <- <-. exists p. split_and!; [done|done|]. intros i Hi. cbn [pitchAt]. rewrite decide_False; [done|].
      destruct (Z.ltb_spec f (ci + block)); lia.
Qed.

Lemma sung_at p b : forall ci (h : Z -> Q), (forall i, ci <= i < ci + Z.of_nat (length b) -> h i = p) ->
  ((pair p : frame -> Q * frame) <$> b) = imap (fun k f => (h (ci + Z.of_nat k), f)) b.
Proof.
  induction b as [|f b IH]; intros ci h H; [done|]. rewrite fmap_cons. cbn [imap].
  rewrite (H (ci + Z.of_nat 0)) by (cbn; lia). f_equal. rewrite (IH (ci + 1) h).
  - apply imap_ext. intros i x _. cbn. do 2 f_equal. lia.
  - intros i Hi. apply H. cbn [length]. lia.
Qed.

Lemma plan_sung j : forall fuel m p data ci, (length data < fuel)%nat -> ci + Z.of_nat (length data) <= count j ->
  sung p (plan fuel j m data ci) = imap (fun k f => (pitchAt (frequencyshift j) p m (ci + Z.of_nat k), f)) data.
Proof.
  pose proof bs_pos as Hbs. induction fuel as [|fuel IH]; intros m p data ci Hl Hn; [lia|]. cbn [plan].
  destruct (pitches_log (frequencyshift j) m ci bs []) as (m' & block & l & _ & E & FL & B). rewrite E. specialize (B Hbs).
  set (b := take (Z.to_nat block) data). set (final := _ || _).
  destruct (pitches_sung _ m p ci bs m' block l E) as (p' & A1 & A2 & A3).
  rewrite A1. cbn [sung].
  assert (Lb : Z.of_nat (length b) <= block) by (unfold b; rewrite take_length; lia).
  rewrite (sung_at p' b ci (pitchAt (frequencyshift j) p m)).
  2:{ intros i Hi. rewrite A2 by lia. apply A3. lia. }
  rewrite <- (take_drop (Z.to_nat block) data) at 2. rewrite imap_app. fold b. f_equal.
  destruct final eqn:Ef.
  - assert (drop (Z.to_nat block) data = []) as ->; [|done].
    apply orb_true_iff in Ef as [Ef|Ef].
    + apply Z.leb_le in Ef. apply drop_ge. lia.
    + apply Z.eqb_eq in Ef. unfold b in Ef. rewrite take_length in Ef. destruct data; [by rewrite drop_nil|cbn in Ef; lia].
  - apply orb_false_iff in Ef as [E1 E2]. apply Z.eqb_neq in E2. unfold b in E2. rewrite take_length in E2.
    rewrite IH; [|rewrite drop_length; lia|unfold b; rewrite take_length, drop_length; lia].
    apply imap_ext. intros i x Hx. apply lookup_lt_Some in Hx. f_equal.
    rewrite <- A2 by (unfold b; lia). f_equal. unfold b. lia.
Qed.

(** ** What is written *)
Lemma sofar_app D past a b : sofar D past (a ++ b) = sofar D past a ++ sofar D (past ++ a) b.
Proof.
  revert past. induction a as [|c a IH]; intros past; cbn [sofar app]; [by rewrite app_nil_r|].
  rewrite IH, <- !app_assoc. done.
Qed.
Lemma sofar_pitches D past l : Forall (fun c => exists s, c = Pitch s) l -> sofar D past l = [].
Proof. intros F. revert past. induction F as [|c l [s ->] _ IH]; intros past; cbn; done. Qed.

Lemma dropsLeft_0 d : dropsLeft d [] = d.
Proof. unfold dropsLeft. cbn [length]. destruct (Z.ltb_spec 0 d); lia. Qed.
Lemma drop_left d (q r : list frame) : drop (Z.to_nat d) q ++ drop (Z.to_nat (dropsLeft d q)) r = drop (Z.to_nat d) (q ++ r).
Proof.
  unfold dropsLeft. destruct (Z.ltb_spec 0 d) as [H|H].
  - destruct (decide (Z.to_nat d <= length q)%nat) as [L|L].
    + rewrite drop_app_le by lia. replace (Z.to_nat (Z.max 0 (d - Z.of_nat (length q)))) with O by lia. done.
    + rewrite drop_app_ge by lia. rewrite (drop_ge q) by lia. cbn [app]. f_equal. lia.
  - replace (Z.to_nat d) with O by lia. done.
Qed.

(** Offline: everything but the start delay (which is zero). *)
Lemma outcome_offline D j : realtime j = false -> forall fuel m data ci lg q d co, (length data < fuel)%nat ->
  outcome fuel D j m data ci lg q d co = drop (Z.to_nat d) (q ++ sofar D lg (plan fuel j m data ci)).
Proof.
  intros Hr. pose proof bs_pos as Hbs. induction fuel as [|fuel IH]; intros m data ci lg q d co Hl; [lia|].
  cbn [outcome plan]. destruct (pitches_log (frequencyshift j) m ci bs lg) as (m' & block & l & E & E' & FL & B).
  rewrite E, E'. specialize (B Hbs). set (b := take (Z.to_nat block) data). set (final := _ || _).
  rewrite sofar_app, (sofar_pitches D lg l FL). cbn [app sofar].
  destruct final eqn:Ef.
  - unfold written, cutoff. rewrite Hr. cbn [andb sofar]. rewrite app_nil_r. done.
  - apply orb_false_iff in Ef as [E1 E2]. apply Z.eqb_neq in E2. unfold b in E2. rewrite take_length in E2.
    rewrite IH by (rewrite drop_length; lia). cbn [app]. rewrite drop_left, <- app_assoc. done.
Qed.

(** Real time: the same, cut to the ideal length unless more had been written before the last call. *)
Lemma outcome_realtime D j : realtime j = true -> forall fuel m data ci lg q d co, (length data < fuel)%nat ->
  ci + Z.of_nat (length data) <= count j ->
  let ideal := Qfloor (inject_Z (ci + Z.of_nat (length data)) * ratio j) in
  exists n, (n <= length (drop (Z.to_nat d) (q ++ sofar D lg (removelast (plan fuel j m data ci)))))%nat /\
  outcome fuel D j m data ci lg q d co =
    take (Nat.max n (Z.to_nat (ideal - co))) (drop (Z.to_nat d) (q ++ sofar D lg (plan fuel j m data ci))).
Proof.
  intros Hr. pose proof bs_pos as Hbs. induction fuel as [|fuel IH]; intros m data ci lg q d co Hl Hn; [lia|].
  cbn [outcome plan]. destruct (pitches_log (frequencyshift j) m ci bs lg) as (m' & block & l & E & E' & FL & B).
  rewrite E, E'. specialize (B Hbs). set (b := take (Z.to_nat block) data). set (final := _ || _).
  rewrite sofar_app, (sofar_pitches D lg l FL). cbn [app sofar].
  destruct final eqn:Ef.
  - assert (b = data) as ->.
    { unfold b. apply orb_true_iff in Ef as [Ef|Ef].
      - apply Z.leb_le in Ef. apply take_ge. lia.
      - apply Z.eqb_eq in Ef. unfold b in Ef. rewrite take_length in Ef. destruct data; [by rewrite take_nil|cbn in Ef; lia]. }
    exists O. cbv zeta. split; [lia|].
    unfold written, cutoff. rewrite Hr. cbn [andb sofar]. rewrite app_nil_r. done.
  - apply orb_false_iff in Ef as [E1 E2]. apply Z.eqb_neq in E2. unfold b in E2. rewrite take_length in E2.
    set (lg1 := (lg ++ l) ++ [Process b false]). set (q1 := q ++ output D lg1).
    set (H := drop (Z.to_nat d) q1).
    destruct (IH m' (drop (Z.to_nat block) data) (ci + Z.of_nat (length b)) lg1 [] (dropsLeft d q1) (co + Z.of_nat (length H)))
      as (n & Hnn & Et).
    { rewrite drop_length. lia. } { unfold b. rewrite take_length, drop_length. lia. }
    replace (ci + Z.of_nat (length b) + Z.of_nat (length (drop (Z.to_nat block) data))) with (ci + Z.of_nat (length data)) in Et
      by (unfold b; rewrite take_length, drop_length; lia).
    destruct (plan_feeds j fuel m' (drop (Z.to_nat block) data) (ci + Z.of_nat (length b))) as [_ (l' & b' & Ep & _)].
    { rewrite drop_length. lia. } { unfold b. rewrite take_length, drop_length. lia. }
    cbv zeta. cbn [app] in *. rewrite Et. set (P := plan _ _ _ _ _) in *. set (R := sofar D lg1 P) in *.
    assert (EH : forall r, drop (Z.to_nat d) (q ++ output D lg1 ++ r) = H ++ drop (Z.to_nat (dropsLeft d q1)) r).
    { intros r. unfold H. rewrite drop_left. unfold q1. by rewrite <- app_assoc. }
    rewrite (removelast_app l) by done. cbn [removelast]. assert (NE : P <> []) by (rewrite Ep; by destruct l').
    replace (match P with [] => [] | _ => Process b false :: removelast P end) with (Process b false :: removelast P) by (by destruct P).
    rewrite sofar_app, (sofar_pitches D lg l FL). cbn [app sofar]. fold lg1.
    rewrite !EH. set (ideal := Qfloor _).
    exists (length H + n)%nat. split; [rewrite app_length; lia|].
    rewrite take_app_ge by lia. f_equal. f_equal. lia.
Qed.

(** ** Study and padding *)
Lemma study_ok j : forall fuel data ci lg, (length data < fuel)%nat ->
  exists l, studyLoop fuel (count j) data ci lg = Some (lg ++ l) /\ Forall (fun c => exists b f, c = Study b f) l /\
    (ci + Z.of_nat (length data) <= count j -> studied l = data).
Proof.
  pose proof bs_pos as Hbs. induction fuel as [|fuel IH]; intros data ci lg Hl; [lia|].
  cbn [studyLoop read]. unfold read. set (b := take (Z.to_nat bs) data). set (final := _ || _).
  destruct final eqn:Ef.
  - exists [Study b true]. split_and!; [done|constructor; [by eexists _, _|done]|]. intros Hn. cbn. rewrite app_nil_r. unfold b.
    apply orb_true_iff in Ef as [Ef|Ef].
    + apply Z.leb_le in Ef. apply take_ge. lia.
    + apply Z.eqb_eq in Ef. unfold b in Ef. rewrite take_length in Ef. destruct data; [by rewrite take_nil|cbn in Ef; lia].
  - apply orb_false_iff in Ef as [E1 E2]. apply Z.eqb_neq in E2. apply Z.leb_gt in E1. unfold b in E2. rewrite take_length in E2.
    destruct (IH (drop (Z.to_nat bs) data) (ci + bs) (lg ++ [Study b false])) as (l & E & G & S1).
    { rewrite drop_length. lia. }
    exists (Study b false :: l). rewrite E, <- app_assoc. split_and!; [done|constructor; [by eexists _, _|done]|]. intros Hn.
    cbn. change (flat_map _ l) with (studied l). rewrite S1; [apply take_drop|]. rewrite drop_length. lia.
Qed.

Lemma pad_ok D j : shaped (channels j) D -> forall fuel p lg q, (Z.to_nat p <= fuel)%nat ->
  Forall (fun x => length x = channels j) q ->
  exists l, padLoop fuel D j p lg q = Some (lg ++ l, q ++ sofar D lg l) /\
    Forall (fun c => exists b, c = Process b false) l /\ given l = silence (channels j) p /\
    Forall (fun x => length x = channels j) (q ++ sofar D lg l).
Proof.
  intros Hsh. pose proof bs_pos as Hbs. induction fuel as [|fuel IH]; intros p lg q Hf Fq; cbn [padLoop]; destruct (Z.leb_spec p 0) as [L|L].
  1,3: exists []; cbn [sofar]; rewrite !app_nil_r; split_and!; try done; unfold silence; replace (Z.to_nat p) with O by lia; done.
  { lia. }
  rewrite cap_min. set (k := Z.min p bs). set (c := Process (silence (channels j) k) false).
  destruct (IH (p - k) (lg ++ [c]) (q ++ output D (lg ++ [c]))) as (l & E & F & G & Fq').
  { lia. } { apply Forall_app_2; [done|apply Hsh]. }
  exists (c :: l). rewrite E. cbn [sofar]. rewrite <- !app_assoc in *. cbn [app] in *. split_and!; try done.
  - constructor; [by eexists|done].
  - cbn. change (flat_map _ l) with (given l). rewrite G. unfold silence. rewrite <- replicate_add. f_equal. lia.
Qed.

(** ** One pass *)
(** What comes before the processing loop, and what is heard from it on *)
Definition before (D : device) (j : job) (lg0 pads : list call) : Prop :=
  (realtime j = true -> lg0 = (if timeMap j then [Keys] else [])) /\
  (realtime j = false -> exists l, lg0 = l ++ (if timeMap j then [Keys] else []) /\ Forall (fun c => exists b f, c = Study b f) l /\
     (Z.of_nat (length (content j)) <= count j -> studied l = content j)) /\
  Forall (fun c => exists b, c = Process b false) pads /\
  given pads = (if realtime j then silence (channels j) (startPad D lg0) else []).

Lemma pass_ok D j : shaped (channels j) D ->
  exists lg0 pads, before D j lg0 pads /\
  let cs := plan (S (length (content j))) j (freqMap j) (content j) 0 in
  let W := outcome (S (length (content j))) D j (freqMap j) (content j) 0 (lg0 ++ pads) (sofar D lg0 pads) (startDelay D lg0) 0 in
  forall g ig, (0 < g)%Q -> exists s', pass D j g ig = Some s' /\
    ((clipping s' = false /\ log s' = lg0 ++ pads ++ cs /\
      exists f, wrote ig g false W [] (gain s') false f /\
        file s' = f ++ map (map (fun x => clamp (gain s' * x))) (late D (log s'))) \/
     (clipping s' = true /\ less ig g (gain s') /\ (length (file s') <= length W)%nat /\ ~ Forall (Forall (fits g)) W)).
Proof.
  intros Hsh. set (n := length (content j)).
  assert (P1 : exists lgA, (if realtime j then Some [] else studyLoop (S n) (count j) (content j) 0 []) = Some lgA /\
     let lg0 := if timeMap j then lgA ++ [Keys] else lgA in
     (realtime j = true -> lg0 = (if timeMap j then [Keys] else [])) /\
     (realtime j = false -> exists l, lg0 = l ++ (if timeMap j then [Keys] else []) /\ Forall (fun c => exists b f, c = Study b f) l /\
       (Z.of_nat n <= count j -> studied l = content j))).
  { cbv zeta. destruct (realtime j).
    - exists []. split_and!; [done| |done]. done.
    - destruct (study_ok j (S n) (content j) 0 []) as (l & E & G & S1); [lia|]. cbn [app] in E.
      exists l. split_and!; [exact E|done|].
      intros _. exists l. split_and!; [destruct (timeMap j); by rewrite ?app_nil_r|done|]. intros H. apply S1. lia. }
  destruct P1 as (lgA & E0 & B1 & B2). set (lg0 := if timeMap j then lgA ++ [Keys] else lgA) in *.
  assert (P2 : exists pads, (if realtime j then padLoop (Z.to_nat (startPad D lg0)) D j (startPad D lg0) lg0 [] else Some (lg0, []))
      = Some (lg0 ++ pads, sofar D lg0 pads) /\ Forall (fun c => exists b, c = Process b false) pads /\
      given pads = (if realtime j then silence (channels j) (startPad D lg0) else []) /\
      Forall (fun x => length x = channels j) (sofar D lg0 pads)).
  { destruct (realtime j).
    - destruct (pad_ok D j Hsh (Z.to_nat (startPad D lg0)) (startPad D lg0) lg0 []) as (l & E & F & G & Fq); [done|constructor|].
      exists l. cbn [app] in *. split_and!; done.
    - exists []. rewrite app_nil_r. split_and!; try done. constructor. }
  destruct P2 as (pads & E1 & B3 & B4 & Fq).
  exists lg0, pads. split; [split_and!; done|]. cbv zeta. intros g1 ig1 Hg.
  unfold pass. cbv zeta. fold n. rewrite E0. cbn [mbind option_bind]. fold lg0. rewrite E1. cbn [mbind option_bind].
  destruct (feed_ok D j ig1 Hsh (S n) (freqMap j) (content j) (St (lg0 ++ pads) (sofar D lg0 pads) (startDelay D lg0) 0 0 g1 false [])) as (s' & E & R);
    [lia|exact Hg|reflexivity|exact Fq|]. cbn [countIn log queue toDrop countOut gain file] in *.
  rewrite E. cbn [mbind option_bind]. destruct R as [(C1 & C2 & C3 & C4)|(C1 & C2 & C3 & C4)]; rewrite C1.
  - eexists. split; [reflexivity|]. left. cbn [clipping log gain file finish]. split_and!; [exact C1|by rewrite C2, app_assoc|].
    exists (file s'). split; [exact C4|done].
  - eexists. split; [reflexivity|]. right. split_and!; [exact C1|exact C2| |exact C4]. cbn [length] in C3. lia.
Qed.

(** ** The passes *)
Fixpoint pw (i : nat) : Q := match i with O => 1%Q | S i => ((999 # 1000) * pw i)%Q end.
Lemma pw_pos i : (0 < pw i)%Q.
Proof. induction i; cbn [pw]; [done|]. lra. Qed.
Lemma pw_antitone i k : (pw (k + i) <= pw i)%Q.
Proof. induction k; [cbn; lra|]. cbn [pw Nat.add]. pose proof (pw_pos (k + i)). lra. Qed.
Lemma pw_288 : (pw 288 < 3 # 4)%Q.
Proof. vm_compute. reflexivity. Qed.
Lemma pw_bound i g : (g <= pw i)%Q -> (3 # 4 <= g)%Q -> (i < 288)%nat.
Proof.
  intros H1 H2. destruct (decide (i < 288)%nat) as [|N]; [done|]. exfalso.
  pose proof (pw_antitone 288 (i - 288)) as A. replace (i - 288 + 288)%nat with i in A by lia. pose proof pw_288. lra.
Qed.

Lemma wrote_length ig g W g' f : wrote ig g false W [] g' false f -> length f = length W /\ g' = g.
Proof.
  intros [(_ & -> & _ & ->)|[(_ & -> & _ & -> & _)|(_ & ? & _)]]; [..|discriminate]; unfold times; cbn [app]; by rewrite map_length.
Qed.

Lemma passes_S fuel D j g ignore disk k : passes (S fuel) D j g ignore disk k =
    (s ← pass D j g ignore;
    let disk := overwrite disk (file s) in
    if clipping s then
      if gtq (3 # 4) (gain s) then passes fuel D j (3 # 4) true disk (S k)
      else passes fuel D j (gain s) ignore disk (S k)
    else Some (disk, S k, gain s, ignore, s)).
Proof. reflexivity. Qed.

Lemma passes_count D j : forall fuel g ig disk k disk' n' g' ig' s', passes fuel D j g ig disk k = Some (disk', n', g', ig', s') -> (k < n')%nat.
Proof.
  induction fuel as [|fuel IH]; intros g ig disk k disk' n' g' ig' s'; [done|]. rewrite passes_S.
  destruct (pass D j g ig) as [s|]; [|done]. cbn [mbind option_bind]. cbv zeta. destruct (clipping s).
  - destruct (gtq _ _); intros H; apply IH in H; lia.
  - intros H. injection H as _ <- _ _ _. lia.
Qed.

Section passes.
  Context (D : device) (j : job) (lg0 pads : list call) (W : list frame) (cs : list call).
  Hypothesis PASS : forall g ig, (0 < g)%Q -> exists s', pass D j g ig = Some s' /\
    ((clipping s' = false /\ log s' = lg0 ++ pads ++ cs /\
      exists f, wrote ig g false W [] (gain s') false f /\
        file s' = f ++ map (map (fun x => clamp (gain s' * x))) (late D (log s'))) \/
     (clipping s' = true /\ less ig g (gain s') /\ (length (file s') <= length W)%nat /\ ~ Forall (Forall (fits g)) W)).

  Definition good (g : Q) (ig : bool) (disk : list frame) (gf : Q) (s : st) : Prop :=
    pass D j g ig = Some s /\ clipping s = false /\ disk = file s /\ gain s = gf /\ gf = g /\ log s = lg0 ++ pads ++ cs /\
    exists f, wrote ig g false W [] g false f /\ file s = f ++ map (map (fun x => clamp (g * x))) (late D (log s)).

  Lemma overwrite_length old new : (length old <= length W)%nat -> (length new <= length W)%nat -> (length (overwrite old new) <= length W)%nat.
  Proof. intros A B. unfold overwrite. rewrite app_length, drop_length. lia. Qed.
  Lemma overwrite_all old new : (length old <= length new)%nat -> overwrite old new = new.
  Proof. intros A. unfold overwrite. rewrite drop_ge by lia. apply app_nil_r. Qed.

  Lemma passes_last g ig disk k fuel : (0 < g)%Q -> (length disk <= length W)%nat -> forall s, pass D j g ig = Some s -> clipping s = false ->
    passes (S fuel) D j g ig disk k = Some (file s, S k, g, ig, s) /\ good g ig (file s) g s.
  Proof.
    intros Hg Hd s E C. destruct (PASS g ig Hg) as (s' & E' & R). rewrite E in E'. injection E' as <-.
    destruct R as [(_ & L & f & Hw & Hf)|(C' & _)]; [|congruence].
    destruct (wrote_length _ _ _ _ _ Hw) as [Lf Eg]. rewrite Eg in *.
    rewrite passes_S, E. cbn [mbind option_bind]. rewrite C. cbv zeta. rewrite overwrite_all, Eg.
    - split; [reflexivity|]. split_and!; try done. exists f. done.
    - rewrite Hf, app_length, Lf. lia.
  Qed.

  Lemma passes_ignoring g disk k fuel : (0 < g)%Q -> (length disk <= length W)%nat ->
    exists s, passes (S fuel) D j g true disk k = Some (file s, S k, g, true, s) /\ good g true (file s) g s.
  Proof.
    intros Hg Hd. destruct (PASS g true Hg) as (s' & E' & R). exists s'. apply passes_last; [done..|].
    destruct R as [(C & _)|(_ & [? _] & _)]; [exact C|discriminate].
  Qed.

  Lemma passes_ok : forall fuel i g disk, (0 < fuel)%nat -> (289 <= fuel + i)%nat -> (g <= pw i)%Q -> (3 # 4 <= g)%Q -> (length disk <= length W)%nat ->
    exists n gf ig s, passes fuel D j g false disk i = Some (file s, n, gf, ig, s) /\ (n <= 289)%nat /\
      good gf ig (file s) gf s /\ (3 # 4 <= gf <= g)%Q /\ (ig = true -> gf = 3 # 4).
  Proof.
    induction fuel as [|fuel IH]; intros i g disk Hf Hi Hp H34 Hd; [lia|].
    assert (Hg : (0 < g)%Q) by lra. pose proof (pw_bound i g Hp H34) as Bi.
    destruct (PASS g false Hg) as (s & E & R).
    destruct R as [R|(C & [_ [L1 L2]] & L & _)].
    - destruct (passes_last g false disk i fuel Hg Hd s E ltac:(tauto)) as [E' G].
      exists (S i), g, false, s. split_and!; [exact E'|lia|exact G|exact H34|lra|done].
    - rewrite passes_S, E. cbn [mbind option_bind]. rewrite C. cbv zeta.
      assert (Hd' : (length (overwrite disk (file s)) <= length W)%nat) by (by apply overwrite_length).
      destruct (gtq (3 # 4) (gain s)) eqn:Eg.
      + destruct fuel as [|fuel]; [lia|]. destruct (passes_ignoring (3 # 4) (overwrite disk (file s)) (S i) fuel ltac:(done) Hd') as (s' & E' & G).
        exists (S (S i)), (3 # 4)%Q, true, s'. split_and!; [exact E'|lia|exact G|lra|lra|done].
      + apply gtq_false in Eg. destruct (IH (S i) (gain s) (overwrite disk (file s))) as (n & gf & ig & s' & E' & N & G & [G1 G2] & G3); try done.
        { lia. } { lia. } { cbn [pw]. lra. }
        exists n, gf, ig, s'. split_and!; [exact E'|exact N|exact G|exact G1|lra|exact G3].
  Qed.

  Lemma program_ok ig0 : exists n gf ig s, program D j ig0 = Some (file s, n, gf, ig, s) /\ (n <= 289)%nat /\
      good gf ig (file s) gf s /\ (3 # 4 <= gf <= 1)%Q /\ (ig0 = true -> ig = true /\ gf = 1%Q) /\ (ig0 = false -> ig = true -> gf = 3 # 4).
  Proof.
    unfold program. destruct ig0.
    - destruct (passes_ignoring 1 [] 0 288 ltac:(done) ltac:(cbn; lia)) as (s & E & G).
      exists 1%nat, 1%Q, true, s. split_and!; [exact E|lia|exact G|done..].
    - destruct (passes_ok 289 0 1 [] ltac:(lia) ltac:(lia) ltac:(cbn; lra) ltac:(done) ltac:(cbn; lia)) as (n & gf & ig & s & E & N & G & P & P').
      exists n, gf, ig, s. split_and!; [exact E|exact N|exact G|tauto|tauto|done|done].
  Qed.

  Lemma program_quiet : Forall (Forall (fits 1)) W -> exists s, program D j false = Some (file s, 1%nat, 1%Q, false, s).
  Proof.
    intros F. destruct (PASS 1 false ltac:(done)) as (s & E & [R|(_ & _ & _ & N)]); [|tauto].
    exists s. unfold program. apply (passes_last 1 false [] 0 288 ltac:(done) ltac:(cbn; lia) s E). tauto.
  Qed.
  Lemma program_loud : ~ Forall (Forall (fits 1)) W -> forall disk n g ig s, program D j false = Some (disk, n, g, ig, s) -> (1 < n)%nat /\ (g <= 999 # 1000)%Q.
  Proof.
    intros F disk n g ig s. unfold program.
    destruct (PASS 1 false ltac:(done)) as (s1 & E & [(C & _ & f & Hw & _)|(C & [_ [L1 L2]] & L & _)]).
    - destruct Hw as [(? & _)|[(_ & _ & _ & _ & F')|(_ & ? & _)]]; [discriminate| |discriminate]. tauto.
    - rewrite (passes_S 288), E. cbn [mbind option_bind]. rewrite C. cbv zeta.
      assert (Hd' : (length (overwrite [] (file s1)) <= length W)%nat) by (apply overwrite_length; [cbn; lia|done]).
      destruct (gtq (3 # 4) (gain s1)) eqn:Eg.
      + destruct (passes_ignoring (3 # 4) (overwrite [] (file s1)) 1 287 ltac:(done) Hd') as (s' & E' & G).
        rewrite E'. intros H. injection H as <- <- <- <- <-. split; [lia|]. unfold Qle; cbn; lia.
      + apply gtq_false in Eg. destruct (passes_ok 288 1 (gain s1) (overwrite [] (file s1))) as (n' & gf & ig' & s' & E' & N & G & [G1 G2] & G3).
        { lia. } { lia. } { cbn [pw]. lra. } { exact Eg. } { exact Hd'. }
        rewrite E'. intros H. injection H as <- <- <- <- <-. split; [|lra]. eapply passes_count. exact E'.
  Qed.
End passes.

Lemma program_count D j ig0 disk n g ig s : program D j ig0 = Some (disk, n, g, ig, s) -> (1 <= n)%nat.
Proof. unfold program. intros E. apply passes_count in E. lia. Qed.
