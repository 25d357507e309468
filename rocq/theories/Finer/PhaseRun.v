(** Proofs about runs of the phase advance of the R3 engine. *)
From stdpp Require Import prelude list numbers.
From Coq Require Import ZArith QArith Qround Lia Lqa.
From Verif Require Import Base.Arith Finer.PeakModel Finer.PeakSpec Finer.SegmenterModel Finer.GuideModel Finer.PhaseModel Finer.PhaseSpec Finer.PhaseProofs.
From Verif Require Phases.Model Phases.Spec Phases.Proofs.
From stdpp Require Import list numbers.
Local Open Scope Z_scope.
Ltac go := change (Some ?a ≫= ?g) with (g a); cbv beta iota.

(** ** The three ways to a new phase *)
Lemma newPhase_cases s k ms2 c m2 a i : newPhase s (inhop k) (outhop k) (sideOf k) ms2 (inputs k) c m2 a i =
  (ph ← (if afresh s k c a i then at_ (phase a) i else if free s k a i then at_ (unlocked m2) i else locked ms2 (inputs k) c i (hz s i) m2 a); Some (princ ph)).
Proof.
  unfold newPhase, afresh, free, hz. f_equal. destruct (inRange _ (phaseReset (guid a)) || inRange _ (kick (guid a))); cbn [orb]; [done|].
  unfold sideOf. destruct (midSide k && (length (inputs k) =? 2)%nat); cbn [andb]; [|done].
  destruct (inputs k !! 1%nat) as [b|]; [go; done|]. change (None ≫= ?g) with (@None range). cbv beta. by rewrite andb_false_r.
Qed.

(** ** Shapes *)
Lemma create_ok s n : 0 < pfft s -> Forall (shaped s) (create s n) /\ length (create s n) = n.
Proof.
  intros H. split; [|apply replicate_length]. apply Forall_replicate. assert (0 <= binCount s) by (unfold binCount; pose proof (Z.div_pos (pfft s) 2); lia).
  constructor; cbn; rewrite ?replicate_length, ?fmap_length, ?seq_length; try lia.
  apply Forall_lookup. intros j x. rewrite list_lookup_fmap. destruct (seq 0 (Z.to_nat (binCount s)) !! j) eqn:E; [|done]. cbn. intros [= <-]. apply lookup_seq in E as [-> ?]. lia.
Qed.
Lemma reset_shaped s m : 0 < pfft s -> shaped s m -> shaped s (resetMemory s m).
Proof.
  intros H [M1 M2 M3 M4 M5 M6]. assert (0 < binCount s) by (unfold binCount; pose proof (Z.div_pos (pfft s) 2); lia).
  constructor; cbn; rewrite ?replicate_length; try lia. apply Forall_replicate. lia.
Qed.
Definition good (s : setup) (n : nat) (ms : list memory) : Prop := length ms = n /\ Forall (shaped s) ms.
Lemma advance_good s lo hi n ms k : setupOk s lo hi -> callOk s lo hi n k -> good s n ms -> exists ms' outs, advanceAll s ms k = Some (ms', outs) /\ good s n ms' /\ length outs = n.
Proof.
  intros HS HC [Hn Hs]. destruct (advance_spec s lo hi n ms k HS HC Hn Hs) as (ms2 & ms' & outs & E & L1 & L2 & L3 & _ & G). exists ms', outs. split; [done|]. split; [|done]. split; [done|].
  apply Forall_lookup. intros c m' Hm'. assert (Hc : (c < n)%nat) by (apply lookup_lt_Some in Hm'; lia). pose proof (co_count _ _ _ _ _ HC) as HL.
  destruct (lookup_lt_is_Some_2 ms c) as [m Hm]; [lia|]. destruct (lookup_lt_is_Some_2 (inputs k) c) as [a Ha]; [lia|]. destruct (lookup_lt_is_Some_2 ms2 c) as [m2 Hm2]; [lia|].
  destruct (G _ _ _ _ Hm Ha Hm2) as (m'' & out & H1 & _ & H2 & _). rewrite Hm' in H1. injection H1 as <-. done.
Qed.
Lemma reset_good s n ms : 0 < pfft s -> good s n ms -> good s n (resetMemory s <$> ms).
Proof. intros H [H1 H2]. split; [by rewrite fmap_length|]. apply Forall_fmap. eapply List.Forall_impl; [|exact H2]. intros m Hm. by apply reset_shaped. Qed.
Lemma run_good s lo hi n os : setupOk s lo hi -> forall ms, Forall (opOk s lo hi n) os -> good s n ms ->
  exists ms' r, runOps s ms os = Some (ms', r) /\ good s n ms' /\ length r = length (callsOf os).
Proof.
  intros HS. induction os as [|o os IH]; intros ms Ho Hg; [by exists ms, []|]. apply Forall_cons_1 in Ho as [H1 H2]. destruct o as [k|]; cbn [runOps callsOf].
  - destruct (advance_good s lo hi n ms k HS H1 Hg) as (ms1 & o & -> & Hg1 & _). go. destruct (IH ms1 H2 Hg1) as (ms' & r & -> & Hg' & Hl). go. exists ms', (o :: r). split; [done|]. split; [done|]. cbn. lia.
  - destruct (IH (resetMemory s <$> ms) H2) as (ms' & r & E & Hg' & Hl); [apply reset_good; [apply HS|done]|]. by exists ms', r.
Qed.
Lemma run_app s os os' ms : runOps s ms (os ++ os') = ('(ms1, r1) ← runOps s ms os; '(ms2, r2) ← runOps s ms1 os'; Some (ms2, r1 ++ r2)).
Proof.
  revert ms. induction os as [|[k|] os IH]; intros ms; cbn [app runOps].
  - go. by destruct (runOps s ms os') as [[]|].
  - destruct (advanceAll s ms k) as [[ms1 o]|]; [|reflexivity]. go. rewrite IH. destruct (runOps s ms1 os) as [[ms2 r]|]; [|reflexivity]. cbn. destruct (runOps s ms2 os') as [[ms3 r']|]; reflexivity.
  - apply IH.
Qed.

(** One channel of one call. *)
Lemma channel_view s lo hi n ms k ms' outs c m a : setupOk s lo hi -> callOk s lo hi n k -> good s n ms -> advanceAll s ms k = Some (ms', outs) -> ms !! c = Some m -> inputs k !! c = Some a ->
  exists ms2 m2 m' out, (forall c m a m2, ms !! c = Some m -> inputs k !! c = Some a -> ms2 !! c = Some m2 -> ready s lo hi k m a m2) /\ length ms2 = n /\ ms2 !! c = Some m2 /\ ms' !! c = Some m' /\ outs !! c = Some out /\
    Z.of_nat (length out) = binCount s /\
    (forall i, at_ out i = if inside lo hi i then newPhase s (inhop k) (outhop k) (sideOf k) ms2 (inputs k) c m2 a i else at_ (outPhase a) i) /\
    (forall i, at_ (prevIn m') i = if inside lo hi i then at_ (phase a) i else at_ (prevIn m) i) /\
    (forall i, at_ (prevOut m') i = if inside lo hi i then at_ out i else at_ (prevOut m) i) /\
    curPeaks m' = curPeaks m2 /\ prevPeaks m' = prevPeaks m2 /\ unlocked m' = unlocked m2.
Proof.
  intros HS HC [Hn Hs] E Hm Ha. destruct (advance_spec s lo hi n ms k HS HC Hn Hs) as (ms2 & ms1 & outs1 & E1 & L1 & L2 & L3 & R & G). rewrite E in E1. injection E1 as <- <-.
  destruct (lookup_lt_is_Some_2 ms2 c) as [m2 Hm2]; [apply lookup_lt_Some in Hm; lia|]. destruct (G _ _ _ _ Hm Ha Hm2) as (m' & out & H1 & H2 & H3 & H4).
  exists ms2, m2, m', out. done.
Qed.
Lemma newPhase_eq s k ms2 c m2 a i x : newPhase s (inhop k) (outhop k) (sideOf k) ms2 (inputs k) c m2 a i = Some x -> exists ph, x = princ ph /\
  (if afresh s k c a i then at_ (phase a) i else if free s k a i then at_ (unlocked m2) i else locked ms2 (inputs k) c i (hz s i) m2 a) = Some ph.
Proof. rewrite newPhase_cases. intros H. apply bind_Some in H as (ph & H1 & H2). injection H2 as <-. by exists ph. Qed.

(** ** How phases go on *)
Lemma inj_pos z : 0 < z -> (0 < inject_Z z)%Q.
Proof. intros H. change 0%Q with (inject_Z 0). by rewrite <- Zlt_Qlt. Qed.
Lemma onward_unity s k i p' p : 0 < inhop k -> inhop k = outhop k -> same (onward s k i p' p) (p - p').
Proof.
  intros H1 H2. unfold onward. rewrite <- H2. set (w := (inject_Z (inhop k) / inject_Z (pfft s) * inject_Z i)%Q). destruct (Phases.Proofs.princ_same (p - (p' + w))) as [z Hz]. exists z. rewrite Hz.
  pose proof (inj_pos _ H1). field. lra.
Qed.
Lemma onward_tone s k i f p' p : 0 < inhop k -> 0 < pfft s -> tone s k i f p' p -> (onward s k i p' p == f * inject_Z (outhop k))%Q.
Proof.
  intros H1 H0 [Ht Hr]. unfold onward. set (w := (inject_Z (inhop k) / inject_Z (pfft s) * inject_Z i)%Q). pose proof (inj_pos _ H1) as P1. pose proof (inj_pos _ H0) as P2.
  assert (Hd : (inject_Z (inhop k) * (f - inject_Z i / inject_Z (pfft s)) == f * inject_Z (inhop k) - w)%Q) by (unfold w; field; lra).
  assert (E : (princ (p - (p' + w)) == f * inject_Z (inhop k) - w)%Q).
  { apply Phases.Proofs.same_near; [|apply Phases.Proofs.princ_range|by rewrite <- Hd]. eapply Phases.Proofs.same_trans; [apply Phases.Proofs.princ_same|].
    apply Phases.Proofs.same_sym. destruct Ht as [z Hz]. exists z.
    assert ((f * inject_Z (inhop k) == p + inject_Z z - p')%Q) as -> by (rewrite <- Hz; ring). ring. }
  rewrite E. field. lra.
Qed.

Lemma locked_view ms2 xs c i f m2 a ph : locked ms2 xs c i f m2 a = Some ph -> exists p q pc pm pa u o o' x y b,
  at_ (curPeaks m2) i = Some p /\ at_ (prevPeaks m2) p = Some q /\ peakChannel ms2 xs c i f (guid a) q = Some pc /\ ms2 !! pc = Some pm /\ xs !! pc = Some pa /\
  at_ (unlocked pm) p = Some u /\ at_ (prevOut pm) p = Some o /\ at_ (prevOut pm) q = Some o' /\ at_ (phase a) i = Some x /\ at_ (phase pa) p = Some y /\
  betaAt f (lockBands (guid a)) = Some b /\ ph = (o' + (u - o) + b * (x - y))%Q.
Proof.
  unfold locked. intros H. do 11 (apply bind_Some in H as (? & ? & H)). apply (inj Some) in H. do 11 eexists. repeat (split; [eassumption|]). by symmetry.
Qed.
(** ** A bin that leads *)
Lemma own_channel s lo hi n k (ms ms2 : list memory) c m2 a i q : setupOk s lo hi -> callOk s lo hi n k -> inputs k !! c = Some a -> ms2 !! c = Some m2 -> lo <= i <= hi ->
  length ms = n -> length ms2 = n -> (forall c m a m2, ms !! c = Some m -> inputs k !! c = Some a -> ms2 !! c = Some m2 -> ready s lo hi k m a m2) ->
  onItsOwn s lo hi k c a i q -> peakChannel ms2 (inputs k) c i (hz s i) (guid a) q = Some c.
Proof.
  intros [S1 S2 S3 S4 S5] HC Ha Hm2 Hi L1 L2 R Hch. unfold peakChannel. destruct Hch as [->|Hch]; [done|]. destruct (inRange _ (channelLock (guid a))); [|done].
  destruct (greatestChannel_spec s (inputs k) i) as (oc & -> & Hoc); [apply HC| |lia|]. { intros En. rewrite En in Ha. done. }
  go. destruct Hch as [Hlo|(o & b & Hlo & Hb & Hch)]; rewrite (loudest_eq _ _ _ _ Hoc Hlo).
  - rewrite Ha. go. rewrite Hm2. go. by rewrite Nat.eqb_refl.
  - assert (o < n)%nat by (apply lookup_lt_Some in Hb; rewrite (co_count _ _ _ _ _ HC) in Hb; done). destruct (lookup_lt_is_Some_2 ms2 o) as [om2 Hom2]; [lia|]. destruct (lookup_lt_is_Some_2 ms o) as [om Hom]; [lia|].
    rewrite Hb. go. rewrite Hom2. go. destruct (R _ _ _ _ Hom Hb Hom2) as [R1 R2 R3 R4 R5 R6 R7 R8]. destruct Hch as [->|(po & qo & P1 & P2 & P3 & P4)]; [by rewrite andb_false_r|].
    destruct (negb (o =? c)%nat && inRange (hz s i) (channelLock (guid b))); [|done]. destruct (R4 i Hi) as (pk & E1 & E2 & E3). rewrite (peakOf_eq _ _ _ _ _ _ E2 P1) in *. rewrite E1. go.
    destruct (R5 po ltac:(lia)) as (qk & Q1 & Q2 & Q3). rewrite (closest_eq _ _ _ _ Q2 P3) in *. rewrite Q1. go. by rewrite (proj2 (Z.eqb_neq qo q)).
Qed.
Lemma leads_step s lo hi n ms k ms' outs c m i q : setupOk s lo hi -> callOk s lo hi n k -> good s n ms -> advanceAll s ms k = Some (ms', outs) -> ms !! c = Some m -> lo <= i <= hi -> leadsFrom s lo hi k c i q ->
  exists m' p' p o x, at_ (prevIn m) i = Some p' /\ phaseIn k c i p /\ at_ (prevOut m) q = Some o /\ phaseOut outs c i x /\ same x (o + onward s k i p' p)%Q /\
    ms' !! c = Some m' /\ at_ (prevIn m') i = Some p /\ at_ (prevOut m') i = Some x.
Proof.
  intros HS HC Hg E Hm Hi (a & Ha & Hf & Hl). destruct (channel_view s lo hi n ms k ms' outs c m a HS HC Hg E Hm Ha) as (ms2 & m2 & m' & out & R & L2 & Hm2 & Hm' & Ho & Hol & Go & Gi & Gp & _).
  pose proof (R _ _ _ _ Hm Ha Hm2) as [R1 R2 R3 R4 R5 R6 R7 R8]. destruct (R7 i Hi) as (p' & p & o & P1 & P2 & P3 & P4).
  pose proof HS as [S1 S2 S3 S4 S5]. destruct (at_some out i) as [x Hx]; [lia|].
  pose proof (proj2 (inside_spec lo hi i) Hi) as Hin. pose proof (Go i) as Gx. rewrite Hin, Hx in Gx. symmetry in Gx. apply newPhase_eq in Gx as (ph & -> & Hph). rewrite Hf in Hph.
  assert (K : exists o', at_ (prevOut m) q = Some o' /\ (ph == o' + onward s k i p' p)%Q).
  { destruct Hl as [[Ef ->]|(Ef & Hpk & Hold & Hch)]; rewrite Ef in Hph.
    - exists o. split; [done|]. rewrite P4 in Hph. injection Hph as <-. done.
    - apply locked_view in Hph as (p1 & q1 & pc1 & pm1 & pa1 & u1 & o1 & o1' & x1 & y1 & b1 & V1 & V2 & V3 & V4 & V5 & V6 & V7 & V8 & V9 & V10 & V11 & V12).
      destruct (R4 i Hi) as (pk & E1 & E2 & E3). rewrite (peakOf_eq _ _ _ _ _ _ E2 Hpk) in *. rewrite V1 in E1. injection E1 as ->.
      destruct (R5 i Hi) as (qk & Q1 & Q2 & Q3). rewrite (closest_eq _ _ _ _ Q2 Hold) in *. rewrite V2 in Q1. injection Q1 as ->.
      rewrite (own_channel s lo hi n k ms ms2 c m2 a i q) in V3; try done; [|apply Hg]. injection V3 as <-. rewrite Hm2 in V4. injection V4 as <-. rewrite Ha in V5. injection V5 as <-.
      rewrite R3 in *. exists o1'. split; [done|]. rewrite V12. rewrite P4 in V6. injection V6 as <-. rewrite P3 in V7. injection V7 as <-. rewrite V9 in V10. injection V10 as <-. ring. }
  destruct K as (o' & K1 & K2). exists m', p', p, o', (princ ph).
  split; [done|]. split; [by exists a|]. split; [done|]. split; [by exists out|]. split; [|split; [done|]; split; [by rewrite Gi, Hin|by rewrite Gp, Hin]].
  eapply Phases.Proofs.same_trans; [apply Phases.Proofs.princ_same|]. by apply Phases.Proofs.same_refl.
Qed.

(** What one bin of a channel remembers. *)
Definition holds (ms : list memory) (c : nat) (i : Z) (p e : Q) : Prop := exists m, ms !! c = Some m /\ at_ (prevIn m) i = Some p /\ at_ (prevOut m) i = Some e.
Lemma holds_after s lo hi n ms k ms' outs c i : setupOk s lo hi -> callOk s lo hi n k -> good s n ms -> advanceAll s ms k = Some (ms', outs) -> (c < n)%nat -> lo <= i <= hi ->
  exists p e, phaseIn k c i p /\ phaseOut outs c i e /\ holds ms' c i p e.
Proof.
  intros HS HC Hg E Hc Hi. pose proof HS as [S1 S2 S3 S4 S5]. destruct (lookup_lt_is_Some_2 ms c) as [m Hm]; [destruct Hg; lia|]. destruct (lookup_lt_is_Some_2 (inputs k) c) as [a Ha]; [rewrite (co_count _ _ _ _ _ HC); lia|].
  destruct (channel_view s lo hi n ms k ms' outs c m a HS HC Hg E Hm Ha) as (ms2 & m2 & m' & out & R & L2 & Hm2 & Hm' & Ho & Hol & Go & Gi & Gp & _).
  pose proof (proj2 (inside_spec lo hi i) Hi) as Hin. destruct (at_some out i) as [x Hx]; [lia|]. pose proof (co_in _ _ _ _ _ HC) as HI. rewrite Forall_lookup in HI. destruct (HI _ _ Ha) as [A1 A2 A3 A4 A5]. destruct (at_some (phase a) i) as [p Hp]; [lia|].
  exists p, x. split; [by exists a|]. split; [by exists out|]. exists m'. by rewrite Gi, Gp, Hin.
Qed.
Lemma phaseIn_eq k c i p p' : phaseIn k c i p -> phaseIn k c i p' -> p = p'.
Proof. intros (a & H1 & H2) (a' & H3 & H4). congruence. Qed.
Lemma phaseOut_eq o c i p p' : phaseOut o c i p -> phaseOut o c i p' -> p = p'.
Proof. intros (a & H1 & H2) (a' & H3 & H4). congruence. Qed.

Lemma lead_run s lo hi n c i f : setupOk s lo hi -> lo <= i <= hi -> forall ks ms p0 e0 ms' r, good s n ms -> holds ms c i p0 e0 ->
  Forall (fun k => callOk s lo hi n k /\ leads s lo hi k c i) ks ->
  (forall k p, ks !! 0%nat = Some k -> phaseIn k c i p -> tone s k i f p0 p) ->
  (forall j k k' p p', ks !! j = Some k -> ks !! S j = Some k' -> phaseIn k c i p -> phaseIn k' c i p' -> tone s k' i f p p') ->
  runOps s ms (Do <$> ks) = Some (ms', r) -> forall j outs e, r !! j = Some outs -> phaseOut outs c i e -> same e (e0 + f * inject_Z (covered (take (S j) ks)))%Q.
Proof.
  intros HS Hi. induction ks as [|k ks IH]; intros ms p0 e0 ms' r Hg Hh HF H0 Hn Hr j outs e Hj He; cbn [fmap list_fmap runOps] in Hr.
  { injection Hr as <- <-. done. }
  apply Forall_cons_1 in HF as [[HC HL] HF]. apply bind_Some in Hr as ([ms1 o1] & E1 & Hr). apply bind_Some in Hr as ([ms2 r2] & E2 & Hr). injection Hr as <- <-.
  destruct Hh as (m & Hm & Hp & Ho). destruct (leads_step s lo hi n ms k ms1 o1 c m i i HS HC Hg E1 Hm Hi HL) as (m' & p' & p & o & x & P1 & P2 & P3 & P4 & P5 & P6 & P7 & P8).
  rewrite P1 in Hp. injection Hp as ->. rewrite P3 in Ho. injection Ho as ->.
  assert (Hx : same x (e0 + f * inject_Z (outhop k))%Q).
  { eapply Phases.Proofs.same_trans; [exact P5|]. apply Phases.Proofs.same_refl. rewrite (onward_tone s k i f p0 p); [done|apply HC|apply HS|]. by apply H0. }
  assert (Hg1 : good s n ms1). { destruct (advance_good s lo hi n ms k HS HC Hg) as (? & ? & E1' & ? & _). rewrite E1 in E1'. injection E1' as <- <-. done. }
  destruct j as [|j]; cbn in Hj.
  - injection Hj as ->. rewrite (phaseOut_eq _ _ _ _ _ He P4). eapply Phases.Proofs.same_trans; [exact Hx|]. apply Phases.Proofs.same_refl. cbn [take]. unfold covered. cbn. by rewrite Z.add_0_r.
  - assert (Hrec : same e (x + f * inject_Z (covered (take (S j) ks)))%Q).
    { eapply (IH ms1 p x ms2 r2 Hg1); try done; [by exists m'| |].
      - intros k' q Hk' Hq. by eapply (Hn 0%nat k k').
      - intros j' k1 k2 q1 q2 H1 H2. exact (Hn (S j') k1 k2 q1 q2 H1 H2). }
    eapply Phases.Proofs.same_trans; [exact Hrec|].
    replace (covered (take (S (S j)) (k :: ks))) with (outhop k + covered (take (S j) ks)) by done. rewrite inject_Z_plus.
    destruct Hx as [z Hz]. exists z. rewrite Hz. ring.
Qed.

(** ** Ratio 1 *)
Definition agree (lo hi : Z) (ms : list memory) : Prop := forall c m i, ms !! c = Some m -> lo <= i <= hi -> exists a b, at_ (prevIn m) i = Some a /\ at_ (prevOut m) i = Some b /\ same b a.
Lemma unity_step s lo hi n ms k ms' outs : setupOk s lo hi -> callOk s lo hi n k -> good s n ms -> inhop k = outhop k -> agree lo hi ms -> advanceAll s ms k = Some (ms', outs) ->
  agree lo hi ms' /\ forall c i p x, lo <= i <= hi -> phaseIn k c i p -> phaseOut outs c i x -> same x p.
Proof.
  intros HS HC Hg Hu Hag E.
  assert (K : forall c m a i, ms !! c = Some m -> inputs k !! c = Some a -> lo <= i <= hi -> exists m' out p x, ms' !! c = Some m' /\ outs !! c = Some out /\ at_ (phase a) i = Some p /\ at_ out i = Some x /\ same x p /\
    at_ (prevIn m') i = Some p /\ at_ (prevOut m') i = Some x).
  { intros c m a i Hm Ha Hi. destruct (channel_view s lo hi n ms k ms' outs c m a HS HC Hg E Hm Ha) as (ms2 & m2 & m' & out & R & L2 & Hm2 & Hm' & Ho & Hol & Go & Gi & Gp & _).
    pose proof (R _ _ _ _ Hm Ha Hm2) as [R1 R2 R3 R4 R5 R6 R7 R8]. destruct (R7 i Hi) as (p' & p & o & P1 & P2 & P3 & P4).
    pose proof HS as [S1 S2 S3 S4 S5]. destruct (at_some out i) as [x Hx]; [lia|]. pose proof (proj2 (inside_spec lo hi i) Hi) as Hin.
    exists m', out, p, x. do 4 (split; [done|]). split; [|by rewrite Gi, Gp, Hin].
    pose proof (Go i) as Gx. rewrite Hin, Hx in Gx. symmetry in Gx. apply newPhase_eq in Gx as (ph & -> & Hph). eapply Phases.Proofs.same_trans; [apply Phases.Proofs.princ_same|].
    destruct (afresh s k c a i). { rewrite P2 in Hph. injection Hph as <-. by apply Phases.Proofs.same_refl. }
    assert (free s k a i = true) as Ef by (unfold free; rewrite Hu, Z.eqb_refl; done). rewrite Ef, P4 in Hph. injection Hph as <-.
    destruct (Hag c m i Hm Hi) as (p1 & o1 & A1 & A2 & [z A3]). rewrite P1 in A1. injection A1 as <-. rewrite P3 in A2. injection A2 as <-.
    destruct (onward_unity s k i p' p) as [y Hy]; [apply HC|done|]. exists (z + y). rewrite Hy, A3, inject_Z_plus. ring. }
  split.
  - intros c m' i Hm' Hi. destruct (advance_good s lo hi n ms k HS HC Hg) as (? & ? & E' & [Hl' _] & _). rewrite E in E'. injection E' as <- <-.
    assert (Hc : (c < n)%nat) by (apply lookup_lt_Some in Hm'; lia). destruct (lookup_lt_is_Some_2 ms c) as [m Hm]; [destruct Hg; lia|]. destruct (lookup_lt_is_Some_2 (inputs k) c) as [a Ha]; [rewrite (co_count _ _ _ _ _ HC); lia|].
    destruct (K c m a i Hm Ha Hi) as (m1 & out & p & x & K1 & K2 & K3 & K4 & K5 & K6 & K7). rewrite Hm' in K1. injection K1 as <-. by exists p, x.
  - intros c i p x Hi (a & Ha & Hp) (out & Ho & Hx). destruct (lookup_lt_is_Some_2 ms c) as [m Hm]; [apply lookup_lt_Some in Ha; rewrite (co_count _ _ _ _ _ HC) in Ha; destruct Hg; lia|].
    destruct (K c m a i Hm Ha Hi) as (m1 & out1 & p1 & x1 & K1 & K2 & K3 & K4 & K5 & _). congruence.
Qed.
Lemma zeros_at n i : 0 <= i < Z.of_nat n -> at_ (replicate n 0%Q) i = Some 0%Q.
Proof. intros H. rewrite at_lookup by lia. apply lookup_replicate_2. lia. Qed.
Lemma create_agree s lo hi n : setupOk s lo hi -> agree lo hi (create s n).
Proof. intros [S1 S2 S3 S4 S5] c m i Hm Hi. apply lookup_replicate in Hm as [-> _]. exists 0%Q, 0%Q. cbn. rewrite zeros_at by lia. split; [done|]. split; [done|]. by apply Phases.Proofs.same_refl. Qed.
Lemma reset_agree s lo hi ms : setupOk s lo hi -> agree lo hi (resetMemory s <$> ms).
Proof. intros [S1 S2 S3 S4 S5] c m i Hm Hi. rewrite list_lookup_fmap in Hm. apply fmap_Some in Hm as (m0 & _ & ->). exists 0%Q, 0%Q. cbn. rewrite zeros_at by lia. split; [done|]. split; [done|]. by apply Phases.Proofs.same_refl. Qed.
Lemma unity_run s lo hi n os : setupOk s lo hi -> forall ms ms' r, Forall (opOk s lo hi n) os -> Forall (fun k => inhop k = outhop k) (callsOf os) -> good s n ms -> agree lo hi ms ->
  runOps s ms os = Some (ms', r) -> agree lo hi ms' /\ forall j k outs c i p x, callsOf os !! j = Some k -> r !! j = Some outs -> lo <= i <= hi -> phaseIn k c i p -> phaseOut outs c i x -> same x p.
Proof.
  intros HS. induction os as [|o os IH]; intros ms ms' r Ho Hu Hg Ha Hr; cbn [runOps] in Hr.
  { injection Hr as <- <-. split; [done|]. done. }
  apply Forall_cons_1 in Ho as [H1 H2]. destruct o as [k|].
  - cbn [callsOf] in Hu. apply Forall_cons_1 in Hu as [U1 U2]. apply bind_Some in Hr as ([ms1 o1] & E1 & Hr). apply bind_Some in Hr as ([ms2 r2] & E2 & Hr). injection Hr as <- <-.
    destruct (unity_step s lo hi n ms k ms1 o1 HS H1 Hg U1 Ha E1) as [Ha1 Hs].
    assert (Hg1 : good s n ms1). { destruct (advance_good s lo hi n ms k HS H1 Hg) as (? & ? & E1' & ? & _). rewrite E1 in E1'. injection E1' as <- <-. done. }
    destruct (IH ms1 ms2 r2 H2 U2 Hg1 Ha1 E2) as [Ha2 Hs2]. split; [done|]. intros [|j] k' outs c i p x; cbn [callsOf]; cbn.
    + intros [= <-] [= <-]. apply Hs.
    + apply Hs2.
  - cbn [callsOf] in Hu |- *. exact (IH (resetMemory s <$> ms) ms' r H2 Hu (reset_good s n ms (so_fft _ _ _ HS) Hg) (reset_agree s lo hi ms HS) Hr).
Qed.

(** ** Bins that follow a peak *)
Lemma vertical_step s lo hi n ms k ms' outs c a i p q : setupOk s lo hi -> callOk s lo hi n k -> good s n ms -> advanceAll s ms k = Some (ms', outs) -> inputs k !! c = Some a ->
  lo <= i <= hi -> lo <= p <= hi -> peakOf s hi a i p -> peakOf s hi a p p -> oldPeakOf lo hi a p q ->
  (forall j, j = i \/ j = p -> afresh s k c a j = false /\ free s k a j = false /\ onItsOwn s lo hi k c a j q) ->
  exists xi xp pi pp b, phaseOut outs c i xi /\ phaseOut outs c p xp /\ phaseIn k c i pi /\ phaseIn k c p pp /\ betaAt (hz s i) (lockBands (guid a)) = Some b /\ same xi (xp + b * (pi - pp))%Q.
Proof.
  intros HS HC Hg E Ha Hi Hp Pi Pp Hold Hj. pose proof HS as [S1 S2 S3 S4 S5]. destruct (lookup_lt_is_Some_2 ms c) as [m Hm]; [apply lookup_lt_Some in Ha; rewrite (co_count _ _ _ _ _ HC) in Ha; destruct Hg; lia|].
  destruct (channel_view s lo hi n ms k ms' outs c m a HS HC Hg E Hm Ha) as (ms2 & m2 & m' & out & R & L2 & Hm2 & Hm' & Ho & Hol & Go & _).
  pose proof (R _ _ _ _ Hm Ha Hm2) as [R1 R2 R3 R4 R5 R6 R7 R8]. destruct (at_some out i) as [xi Hxi]; [lia|]. destruct (at_some out p) as [xp Hxp]; [lia|].
  pose proof (Go i) as Gi. rewrite (proj2 (inside_spec lo hi i) Hi), Hxi in Gi. symmetry in Gi. apply newPhase_eq in Gi as (hi' & -> & Hhi).
  pose proof (Go p) as Gp. rewrite (proj2 (inside_spec lo hi p) Hp), Hxp in Gp. symmetry in Gp. apply newPhase_eq in Gp as (hp & -> & Hhp).
  destruct (Hj i (or_introl eq_refl)) as (F1 & F2 & F3). destruct (Hj p (or_intror eq_refl)) as (G1 & G2 & G3). rewrite F1, F2 in Hhi. rewrite G1, G2 in Hhp.
  apply locked_view in Hhi as (p1 & q1 & pc1 & pm1 & pa1 & u1 & o1 & o1' & x1 & y1 & b1 & V1 & V2 & V3 & V4 & V5 & V6 & V7 & V8 & V9 & V10 & V11 & V12).
  apply locked_view in Hhp as (p2 & q2 & pc2 & pm2 & pa2 & u2 & o2 & o2' & x2 & y2 & b2 & W1 & W2 & W3 & W4 & W5 & W6 & W7 & W8 & W9 & W10 & W11 & W12).
  destruct (R4 i Hi) as (r1 & A1 & A2 & _). rewrite V1 in A1. injection A1 as <-. rewrite (peakOf_eq _ _ _ _ _ _ A2 Pi) in *.
  destruct (R4 p Hp) as (r2 & A3 & A4 & _). rewrite W1 in A3. injection A3 as <-. rewrite (peakOf_eq _ _ _ _ _ _ A4 Pp) in *.
  destruct (R5 p Hp) as (qk & Q1 & Q2 & Q3). rewrite (closest_eq _ _ _ _ Q2 Hold) in *. rewrite V2 in Q1. injection Q1 as ->. rewrite V2 in W2. injection W2 as <-.
  rewrite (own_channel s lo hi n k ms ms2 c m2 a i q) in V3; try done; [|apply Hg]. injection V3 as <-. rewrite (own_channel s lo hi n k ms ms2 c m2 a p q) in W3; try done; [|apply Hg]. injection W3 as <-.
  rewrite Hm2 in V4, W4. injection V4 as <-. injection W4 as <-. rewrite Ha in V5, W5. injection V5 as <-. injection W5 as <-.
  exists (princ hi'), (princ hp), x1, y1, b1. split; [by exists out|]. split; [by exists out|]. split; [by exists a|]. split; [by exists a|]. split; [done|].
  eapply Phases.Proofs.same_trans; [apply Phases.Proofs.princ_same|]. eapply Phases.Proofs.same_trans; [|eapply Phases.Proofs.same_add; [apply Phases.Proofs.same_sym, Phases.Proofs.princ_same|apply Phases.Proofs.same_refl; reflexivity]].
  apply Phases.Proofs.same_refl. rewrite V12, W12. rewrite V6 in W6. injection W6 as <-. rewrite V7 in W7. injection W7 as <-. rewrite V8 in W8. injection W8 as <-. rewrite V10 in W10, W9. rewrite W10 in W9. injection W9 as <-. injection W10 as <-. ring.
Qed.

(** Two channels, one following the other. *)
Lemma channels_step s lo hi n ms k ms' outs c o a b i p q : setupOk s lo hi -> callOk s lo hi n k -> good s n ms -> advanceAll s ms k = Some (ms', outs) ->
  inputs k !! c = Some a -> inputs k !! o = Some b -> lo <= i <= hi -> lo <= p <= hi -> loudest (inputs k) i o -> c <> o ->
  inRange (hz s i) (channelLock (guid a)) = true -> inRange (hz s i) (channelLock (guid b)) = true ->
  peakOf s hi a i p -> peakOf s hi b i p -> oldPeakOf lo hi a p q -> oldPeakOf lo hi b p q ->
  afresh s k c a i = false -> free s k a i = false -> afresh s k o b i = false -> free s k b i = false -> betaAt (hz s i) (lockBands (guid a)) = betaAt (hz s i) (lockBands (guid b)) ->
  exists xc xo pc po be, phaseOut outs c i xc /\ phaseOut outs o i xo /\ phaseIn k c i pc /\ phaseIn k o i po /\ betaAt (hz s i) (lockBands (guid a)) = Some be /\ same xc (xo + be * (pc - po))%Q.
Proof.
  intros HS HC Hg E Ha Hb Hi Hp Hlo Hne L1 L2 P1 P2 Q1 Q2 F1 F2 G1 G2 HB. pose proof HS as [S1 S2 S3 S4 S5].
  destruct (lookup_lt_is_Some_2 ms c) as [m Hm]; [apply lookup_lt_Some in Ha; rewrite (co_count _ _ _ _ _ HC) in Ha; destruct Hg; lia|].
  destruct (lookup_lt_is_Some_2 ms o) as [mo Hmo]; [apply lookup_lt_Some in Hb; rewrite (co_count _ _ _ _ _ HC) in Hb; destruct Hg; lia|].
  destruct (advance_spec s lo hi n ms k HS HC) as (ms2 & ms1 & outs1 & E1 & Z1 & Z2 & Z3 & R & G); [apply Hg|apply Hg|]. rewrite E in E1. injection E1 as <- <-.
  destruct (lookup_lt_is_Some_2 ms2 c) as [m2 Hm2]; [apply lookup_lt_Some in Hm; destruct Hg; lia|]. destruct (lookup_lt_is_Some_2 ms2 o) as [mo2 Hmo2]; [apply lookup_lt_Some in Hmo; destruct Hg; lia|].
  destruct (G _ _ _ _ Hm Ha Hm2) as (m' & out & _ & Ho & _ & Hol & Go & _). destruct (G _ _ _ _ Hmo Hb Hmo2) as (mo' & outo & _ & Hoo & _ & Hool & Goo & _).
  destruct (at_some out i) as [xc Hxc]; [lia|]. destruct (at_some outo i) as [xo Hxo]; [lia|].
  pose proof (proj2 (inside_spec lo hi i) Hi) as Hin. pose proof (Go i) as Gi. rewrite Hin, Hxc in Gi. symmetry in Gi. apply newPhase_eq in Gi as (hc & -> & Hhc). rewrite F1, F2 in Hhc.
  pose proof (Goo i) as Gj. rewrite Hin, Hxo in Gj. symmetry in Gj. apply newPhase_eq in Gj as (ho & -> & Hho). rewrite G1, G2 in Hho.
  apply locked_view in Hhc as (p1 & q1 & pc1 & pm1 & pa1 & u1 & o1 & o1' & x1 & y1 & b1 & V1 & V2 & V3 & V4 & V5 & V6 & V7 & V8 & V9 & V10 & V11 & V12).
  apply locked_view in Hho as (p2 & q2 & pc2 & pm2 & pa2 & u2 & o2 & o2' & x2 & y2 & b2 & W1 & W2 & W3 & W4 & W5 & W6 & W7 & W8 & W9 & W10 & W11 & W12).
  pose proof (R _ _ _ _ Hm Ha Hm2) as [A1 A2 A3 A4 A5 A6 A7 A8]. pose proof (R _ _ _ _ Hmo Hb Hmo2) as [B1 B2 B3 B4 B5 B6 B7 B8].
  destruct (A4 i Hi) as (r1 & D1 & D2 & _). rewrite V1 in D1. injection D1 as <-. rewrite (peakOf_eq _ _ _ _ _ _ D2 P1) in *.
  destruct (B4 i Hi) as (r2 & D3 & D4 & _). rewrite W1 in D3. injection D3 as <-. rewrite (peakOf_eq _ _ _ _ _ _ D4 P2) in *.
  destruct (A5 p Hp) as (s1 & D5 & D6 & _). rewrite V2 in D5. injection D5 as <-. rewrite (closest_eq _ _ _ _ D6 Q1) in *.
  destruct (B5 p Hp) as (s2 & D7 & D8 & _). rewrite W2 in D7. injection D7 as <-. rewrite (closest_eq _ _ _ _ D8 Q2) in *.
  rewrite (own_channel s lo hi n k ms ms2 o mo2 b i q) in W3; try done; [|apply Hg|right; by left]. injection W3 as <-.
  assert (peakChannel ms2 (inputs k) c i (hz s i) (guid a) q = Some o) as Hpc.
  { unfold peakChannel. rewrite L1. destruct (greatestChannel_spec s (inputs k) i) as (oc & -> & Hoc); [apply HC| |lia|]. { intros En. rewrite En in Ha. done. }
    go. rewrite (loudest_eq _ _ _ _ Hoc Hlo). rewrite Hb. go. rewrite Hmo2. go. rewrite L2. rewrite (proj2 (Nat.eqb_neq o c)) by congruence. cbn [negb andb]. rewrite W1. go. rewrite W2. go. by rewrite Z.eqb_refl. }
  rewrite Hpc in V3. injection V3 as <-. rewrite Hmo2 in V4, W4. injection V4 as <-. injection W4 as <-. rewrite Hb in V5, W5. injection V5 as <-. injection W5 as <-.
  exists (princ hc), (princ ho), x1, x2, b1. split; [by exists out|]. split; [by exists outo|]. split; [by exists a|]. split; [by exists b|]. split; [done|].
  eapply Phases.Proofs.same_trans; [apply Phases.Proofs.princ_same|]. eapply Phases.Proofs.same_trans; [|eapply Phases.Proofs.same_add; [apply Phases.Proofs.same_sym, Phases.Proofs.princ_same|apply Phases.Proofs.same_refl; reflexivity]].
  apply Phases.Proofs.same_refl. rewrite V12, W12. rewrite V6 in W6. injection W6 as <-. rewrite V7 in W7. injection W7 as <-. rewrite V8 in W8. injection W8 as <-. rewrite V10 in W10. injection W10 as <-.
  rewrite HB, W11 in V11. injection V11 as <-. ring.
Qed.

(** ** reset() *)
Definition quietBelow (lo : Z) (m : memory) : Prop := forall i, 0 <= i < lo -> at_ (prevOut m) i = Some 0%Q /\ at_ (unlocked m) i = Some 0%Q /\ exists q, at_ (prevPeaks m) i = Some q /\ 0 <= q < lo.
Definition alike (lo hi : Z) (m m' : memory) : Prop := (forall i, lo <= i <= hi -> at_ (prevIn m) i = at_ (prevIn m') i /\ at_ (prevOut m) i = at_ (prevOut m') i) /\ quietBelow lo m /\ quietBelow lo m'.
Definition allAlike (lo hi : Z) (ms ms' : list memory) : Prop := forall c m m', ms !! c = Some m -> ms' !! c = Some m' -> alike lo hi m m'.
Lemma ready_quiet s lo hi k m a m2 : 0 <= lo -> ready s lo hi k m a m2 -> quietBelow lo m -> quietBelow lo m2.
Proof.
  intros H0 [R1 R2 R3 R4 R5 R6 R7 R8] Hq i Hi. destruct (Hq i Hi) as (Q1 & Q2 & Q3). rewrite R3, R6, R8 by lia. done.
Qed.
Lemma ready_alike s lo hi k m m' a m2 m2' : ready s lo hi k m a m2 -> ready s lo hi k m' a m2' -> alike lo hi m m' -> forall i, lo <= i <= hi ->
  at_ (curPeaks m2) i = at_ (curPeaks m2') i /\ at_ (prevPeaks m2) i = at_ (prevPeaks m2') i /\ at_ (unlocked m2) i = at_ (unlocked m2') i /\ at_ (prevOut m2) i = at_ (prevOut m2') i.
Proof.
  intros [R1 R2 R3 R4 R5 R6 R7 R8] [T1 T2 T3 T4 T5 T6 T7 T8] [Ha _] i Hi. destruct (Ha i Hi) as [Ha1 Ha2].
  destruct (R4 i Hi) as (p & P1 & P2 & _). destruct (T4 i Hi) as (p' & P1' & P2' & _). rewrite P1, P1', (peakOf_eq _ _ _ _ _ _ P2 P2'). split; [done|].
  destruct (R5 i Hi) as (q & Q1 & Q2 & _). destruct (T5 i Hi) as (q' & Q1' & Q2' & _). rewrite Q1, Q1', (closest_eq _ _ _ _ Q2 Q2'). split; [done|].
  destruct (R7 i Hi) as (x & y & o & X1 & X2 & X3 & X4). destruct (T7 i Hi) as (x' & y' & o' & X1' & X2' & X3' & X4'). rewrite R3, T3. split; [|done]. rewrite X4, X4'. congruence.
Qed.
Lemma locked_alike s lo hi n k ms ms' ms2 ms2' c m2 m2' a i ph : setupOk s lo hi -> callOk s lo hi n k -> bare lo k -> length ms = n -> length ms' = n -> length ms2 = n -> length ms2' = n -> allAlike lo hi ms ms' ->
  (forall c m a m2, ms !! c = Some m -> inputs k !! c = Some a -> ms2 !! c = Some m2 -> ready s lo hi k m a m2) ->
  (forall c m a m2, ms' !! c = Some m -> inputs k !! c = Some a -> ms2' !! c = Some m2 -> ready s lo hi k m a m2) ->
  inputs k !! c = Some a -> ms2 !! c = Some m2 -> ms2' !! c = Some m2' -> lo <= i <= hi ->
  locked ms2 (inputs k) c i (hz s i) m2 a = Some ph -> locked ms2' (inputs k) c i (hz s i) m2' a = Some ph.
Proof.
  intros HS HC HB L1 L2 L3 L4 Hal R R' Ha Hm2 Hm2' Hi Hph. pose proof HS as [S1 S2 S3 S4 S5]. pose proof (co_count _ _ _ _ _ HC) as HL.
  assert (V : forall d b d2 d2', inputs k !! d = Some b -> ms2 !! d = Some d2 -> ms2' !! d = Some d2' -> exists d0 d0', ready s lo hi k d0 b d2 /\ ready s lo hi k d0' b d2' /\ alike lo hi d0 d0').
  { intros d b d2 d2' Hb H2 H2'. assert (d < n)%nat by (apply lookup_lt_Some in H2; lia). destruct (lookup_lt_is_Some_2 ms d) as [d0 Hd0]; [lia|]. destruct (lookup_lt_is_Some_2 ms' d) as [d0' Hd0']; [lia|].
    exists d0, d0'. split; [by eapply R|]. split; [by eapply R'|]. by eapply Hal. }
  assert (HX : exists ph', locked ms2' (inputs k) c i (hz s i) m2' a = Some ph').
  { assert (c < n)%nat by (apply lookup_lt_Some in Hm2; lia). destruct (lookup_lt_is_Some_2 ms' c) as [m' Hm']; [lia|]. destruct (locked_spec s lo hi k ms' ms2' c i (hz s i) a m' m2') as [y Hy]; try done; try lia; [apply HC|by exists y]. }
  destruct HX as [ph' Hph']. rewrite Hph'. f_equal.
  apply locked_view in Hph as (p1 & q1 & pc1 & pm1 & pa1 & u1 & o1 & o1' & x1 & y1 & b1 & V1 & V2 & V3 & V4 & V5 & V6 & V7 & V8 & V9 & V10 & V11 & V12).
  apply locked_view in Hph' as (p2 & q2 & pc2 & pm2 & pa2 & u2 & o2 & o2' & x2 & y2 & b2 & W1 & W2 & W3 & W4 & W5 & W6 & W7 & W8 & W9 & W10 & W11 & W12).
  destruct (V c a m2 m2' Ha Hm2 Hm2') as (m & m' & RR & RR' & AL).
  pose proof (ready_alike s lo hi k m m' a m2 m2' RR RR' AL) as EQ. destruct (EQ i Hi) as (E1 & _). rewrite V1, W1 in E1. injection E1 as <-.
  rewrite V9 in W9. injection W9 as <-. rewrite V11 in W11. injection W11 as <-. rewrite V12, W12.
  assert (Hp1 : 0 <= p1 <= hi). { destruct (rd_peak _ _ _ _ _ _ _ RR i Hi) as (r & Hr & _ & Hr2). rewrite V1 in Hr. injection Hr as <-. done. }
  assert (Qt : forall d d2 d2', ms2 !! d = Some d2 -> ms2' !! d = Some d2' -> quietBelow lo d2 /\ quietBelow lo d2').
  { intros d d2 d2' H2 H2'. destruct (lookup_lt_is_Some_2 (inputs k) d) as [b Hb]; [apply lookup_lt_Some in H2; lia|]. destruct (V d b d2 d2' Hb H2 H2') as (d0 & d0' & X1 & X2 & X3 & X4 & X5). split; eapply ready_quiet; eauto. }
  assert (Ex : forall d d2, ms2 !! d = Some d2 -> exists d2', ms2' !! d = Some d2') by (intros d d2 H2; apply lookup_lt_is_Some_2; apply lookup_lt_Some in H2; lia).
  assert (Ex' : forall d d2, ms2' !! d = Some d2 -> exists d2', ms2 !! d = Some d2') by (intros d d2 H2; apply lookup_lt_is_Some_2; apply lookup_lt_Some in H2; lia).
  destruct (decide (p1 < lo)) as [Hlow|Hlow].
  - (* a peak below the bins: nothing there, whichever channel is followed *)
    destruct (Ex _ _ V4) as [pm1' V4']. destruct (Ex' _ _ W4) as [pm2' W4'].
    destruct (Qt _ _ _ Hm2 Hm2') as [Z1 Z2]. destruct (Qt _ _ _ V4 V4') as [Z3 _]. destruct (Qt _ _ _ W4' W4) as [_ Z4].
    destruct (Z1 p1 ltac:(lia)) as (_ & _ & r1 & Y1 & Y2). rewrite V2 in Y1. injection Y1 as <-. destruct (Z2 p1 ltac:(lia)) as (_ & _ & r2 & Y3 & Y4). rewrite W2 in Y3. injection Y3 as <-.
    destruct (Z3 p1 ltac:(lia)) as (C1 & C2 & _). destruct (Z3 q1 Y2) as (C3 & _). destruct (Z4 p1 ltac:(lia)) as (D1 & D2 & _). destruct (Z4 q2 Y4) as (D3 & _).
    pose proof (HB _ _ p1 V5 ltac:(lia)) as C4. pose proof (HB _ _ p1 W5 ltac:(lia)) as D4. congruence.
  - destruct (EQ p1 ltac:(lia)) as (_ & E2 & _). rewrite V2, W2 in E2. injection E2 as <-.
    assert (Hq1 : lo <= q1 <= hi). { destruct (rd_old _ _ _ _ _ _ _ RR p1 ltac:(lia)) as (r & Hr & _ & Hr2). rewrite V2 in Hr. injection Hr as <-. done. }
    assert (pc1 = pc2) as <-.
    { enough (peakChannel ms2 (inputs k) c i (hz s i) (guid a) q1 = peakChannel ms2' (inputs k) c i (hz s i) (guid a) q1) as EE by congruence.
      clear -Ex V Qt Hi Hq1 S1 S2 S3 S4 S5 L3 L4 HL. unfold peakChannel. destruct (inRange _ _); [|done]. destruct (greatestChannel (inputs k) i) as [oc|]; [|done]. go. destruct (inputs k !! oc) as [ob|] eqn:Hob; [|done]. go.
      destruct (ms2 !! oc) as [om|] eqn:Hom; [|apply lookup_ge_None in Hom; apply lookup_lt_Some in Hob; lia]. destruct (Ex _ _ Hom) as [om' Hom']. rewrite Hom'. go.
      destruct (negb (oc =? c)%nat && inRange (hz s i) (channelLock (guid ob))); [|done].
      destruct (V _ _ _ _ Hob Hom Hom') as (d0 & d0' & X1 & X2 & X3). pose proof (ready_alike s lo hi k d0 d0' ob om om' X1 X2 X3) as EQ. destruct (EQ i Hi) as (E1 & _). rewrite E1.
      destruct (rd_peak _ _ _ _ _ _ _ X2 i Hi) as (op & Hop & _ & Hopr). rewrite Hop. go. destruct (decide (op < lo)) as [Hl|Hl].
      - destruct (Qt _ _ _ Hom Hom') as [Z1 Z2]. destruct (Z1 op ltac:(lia)) as (_ & _ & r1 & -> & Y2). destruct (Z2 op ltac:(lia)) as (_ & _ & r2 & -> & Y4). go. go. rewrite (proj2 (Z.eqb_neq r1 q1)), (proj2 (Z.eqb_neq r2 q1)) by lia. done.
      - destruct (EQ op ltac:(lia)) as (_ & -> & _). done. }
    rewrite V5 in W5. injection W5 as <-. destruct (V _ _ _ _ V5 V4 W4) as (d0 & d0' & X1 & X2 & X3). pose proof (ready_alike s lo hi k d0 d0' pa1 pm1 pm2 X1 X2 X3) as EQ2.
    destruct (EQ2 p1 ltac:(lia)) as (_ & _ & Y1 & Y2). destruct (EQ2 q1 Hq1) as (_ & _ & _ & Y3). congruence.
Qed.
Lemma list_at {A} (l l' : list A) : (forall i, at_ l i = at_ l' i) -> l = l'.
Proof. intros H. apply list_eq. intros j. specialize (H (Z.of_nat j)). rewrite !at_lookup in H by lia. by rewrite Nat2Z.id in H. Qed.
Lemma alike_step s lo hi n ms ms' k r r' outs outs' : setupOk s lo hi -> callOk s lo hi n k -> bare lo k -> good s n ms -> good s n ms' -> allAlike lo hi ms ms' ->
  advanceAll s ms k = Some (r, outs) -> advanceAll s ms' k = Some (r', outs') -> outs = outs' /\ allAlike lo hi r r'.
Proof.
  intros HS HC HB [G1 G2] [G1' G2'] Hal E E'. pose proof HS as [S1 S2 S3 S4 S5]. pose proof (co_count _ _ _ _ _ HC) as HL.
  destruct (advance_spec s lo hi n ms k HS HC G1 G2) as (ms2 & r0 & outs0 & E0 & L1 & L2 & L3 & R & G). rewrite E in E0. injection E0 as <- <-.
  destruct (advance_spec s lo hi n ms' k HS HC G1' G2') as (ms2' & r0 & outs0 & E0 & L1' & L2' & L3' & R' & G'). rewrite E' in E0. injection E0 as <- <-.
  assert (Every : forall c, (c < n)%nat -> exists m m' a m2 m2', ms !! c = Some m /\ ms' !! c = Some m' /\ inputs k !! c = Some a /\ ms2 !! c = Some m2 /\ ms2' !! c = Some m2').
  { intros c Hc. destruct (lookup_lt_is_Some_2 ms c) as [m Hm]; [lia|]. destruct (lookup_lt_is_Some_2 ms' c) as [m' Hm']; [lia|]. destruct (lookup_lt_is_Some_2 (inputs k) c) as [a Ha]; [lia|].
    destruct (lookup_lt_is_Some_2 ms2 c) as [m2 Hm2]; [lia|]. destruct (lookup_lt_is_Some_2 ms2' c) as [m2' Hm2']; [lia|]. by exists m, m', a, m2, m2'. }
  assert (New : forall c m m' a m2 m2' i, ms !! c = Some m -> ms' !! c = Some m' -> inputs k !! c = Some a -> ms2 !! c = Some m2 -> ms2' !! c = Some m2' -> lo <= i <= hi ->
    newPhase s (inhop k) (outhop k) (sideOf k) ms2 (inputs k) c m2 a i = newPhase s (inhop k) (outhop k) (sideOf k) ms2' (inputs k) c m2' a i).
  { intros c m m' a m2 m2' i Hm Hm' Ha Hm2 Hm2' Hi. rewrite !newPhase_cases. destruct (afresh s k c a i); [done|].
    destruct (ready_alike s lo hi k m m' a m2 m2' (R _ _ _ _ Hm Ha Hm2) (R' _ _ _ _ Hm' Ha Hm2') (Hal _ _ _ Hm Hm') i Hi) as (_ & _ & -> & _). destruct (free s k a i); [done|].
    destruct (locked_spec s lo hi k ms ms2 c i (hz s i) a m m2) as [ph Hph]; try done; try lia; [apply HC|]. rewrite Hph. by rewrite (locked_alike s lo hi n k ms ms' ms2 ms2' c m2 m2' a i ph). }
  assert (Outs : forall c out out', outs !! c = Some out -> outs' !! c = Some out' -> out = out').
  { intros c out out' Ho Ho'. assert (Hc : (c < n)%nat) by (apply lookup_lt_Some in Ho; lia). destruct (Every c Hc) as (m & m' & a & m2 & m2' & Hm & Hm' & Ha & Hm2 & Hm2').
    destruct (G _ _ _ _ Hm Ha Hm2) as (d & o & _ & X1 & _ & _ & X2 & _). destruct (G' _ _ _ _ Hm' Ha Hm2') as (d' & o' & _ & X1' & _ & _ & X2' & _). rewrite Ho in X1. injection X1 as <-. rewrite Ho' in X1'. injection X1' as <-.
    apply list_at. intros i. rewrite X2, X2'. destruct (inside lo hi i) eqn:Ei; [|done]. apply inside_spec in Ei. by eapply New. }
  split.
  { apply list_eq. intros c. destruct (decide (c < n)%nat) as [Hc|Hc].
    - destruct (lookup_lt_is_Some_2 outs c) as [o Ho]; [lia|]. destruct (lookup_lt_is_Some_2 outs' c) as [o' Ho']; [lia|]. rewrite Ho, Ho'. by rewrite (Outs c o o').
    - rewrite !lookup_ge_None_2 by lia. done. }
  intros c d d' Hd Hd'. assert (Hc : (c < n)%nat) by (apply lookup_lt_Some in Hd; lia). destruct (Every c Hc) as (m & m' & a & m2 & m2' & Hm & Hm' & Ha & Hm2 & Hm2').
  destruct (G _ _ _ _ Hm Ha Hm2) as (e & o & Y1 & Y2 & _ & _ & _ & Y3 & Y4 & Y5 & Y6 & Y7). destruct (G' _ _ _ _ Hm' Ha Hm2') as (e' & o' & Y1' & Y2' & _ & _ & _ & Y3' & Y4' & Y5' & Y6' & Y7'). rewrite Hd in Y1. injection Y1 as <-. rewrite Hd' in Y1'. injection Y1' as <-.
  rewrite (Outs c o o' Y2 Y2') in *. destruct (Hal _ _ _ Hm Hm') as (A1 & A2 & A3). split; [|split].
  - intros i Hi. rewrite Y3, Y3', Y4, Y4', (proj2 (inside_spec lo hi i) Hi). done.
  - intros i Hi. pose proof (ready_quiet s lo hi k m a m2 S3 (R _ _ _ _ Hm Ha Hm2) A2 i Hi) as (B1 & B2 & B3). destruct (A2 i Hi) as (D1 & _). rewrite Y4, Y6, Y7. assert (inside lo hi i = false) as ->; [|done]. apply not_true_is_false. rewrite inside_spec. lia.
  - intros i Hi. pose proof (ready_quiet s lo hi k m' a m2' S3 (R' _ _ _ _ Hm' Ha Hm2') A3 i Hi) as (B1 & B2 & B3). destruct (A3 i Hi) as (D1 & _). rewrite Y4', Y6', Y7'. assert (inside lo hi i = false) as ->; [|done]. apply not_true_is_false. rewrite inside_spec. lia.
Qed.
Lemma reset_quiet s lo hi m : setupOk s lo hi -> quietBelow lo m -> quietBelow lo (resetMemory s m).
Proof.
  intros [S1 S2 S3 S4 S5] Hq i Hi. destruct (Hq i Hi) as (_ & Q2 & _). cbn [resetMemory prevOut unlocked prevPeaks]. rewrite zeros_at by lia. split; [done|]. split; [done|]. exists 0. split; [|lia]. rewrite at_lookup by lia. apply lookup_replicate_2. lia.
Qed.
Lemma new_quiet s lo hi : setupOk s lo hi -> quietBelow lo (newMemory s).
Proof.
  intros [S1 S2 S3 S4 S5] i Hi. cbn [newMemory prevOut unlocked prevPeaks]. rewrite zeros_at by lia. split; [done|]. split; [done|]. exists i. split; [|lia]. rewrite at_lookup, list_lookup_fmap by lia. rewrite lookup_seq_lt by lia. cbn. f_equal. lia.
Qed.
Lemma reset_alike s lo hi n ms ms' : setupOk s lo hi -> allAlike lo hi ms ms' -> good s n ms -> good s n ms' -> allAlike lo hi (resetMemory s <$> ms) (resetMemory s <$> ms').
Proof.
  intros HS Hal _ _ c m m' Hm Hm'. rewrite list_lookup_fmap in Hm, Hm'. apply fmap_Some in Hm as (d & Hd & ->). apply fmap_Some in Hm' as (d' & Hd' & ->). destruct (Hal _ _ _ Hd Hd') as (A1 & A2 & A3). split; [done|]. split; by eapply reset_quiet.
Qed.
Lemma alike_run s lo hi n os : setupOk s lo hi -> forall ms ms', Forall (fun o => opOk s lo hi n o /\ opBare lo o) os -> good s n ms -> good s n ms' -> allAlike lo hi ms ms' ->
  exists r r' outs, runOps s ms os = Some (r, outs) /\ runOps s ms' os = Some (r', outs) /\ allAlike lo hi r r' /\ good s n r /\ good s n r'.
Proof.
  intros HS. induction os as [|o os IH]; intros ms ms' Ho Hg Hg' Hal; [by exists ms, ms', []|]. apply Forall_cons_1 in Ho as [[H1 H1'] H2]. destruct o as [k|]; cbn [runOps].
  - destruct (advance_good s lo hi n ms k HS H1 Hg) as (r & outs & E & Gr & _). destruct (advance_good s lo hi n ms' k HS H1 Hg') as (r' & outs' & E' & Gr' & _).
    destruct (alike_step s lo hi n ms ms' k r r' outs outs' HS H1 H1' Hg Hg' Hal E E') as [-> Hal']. rewrite E, E'. destruct (IH r r' H2 Gr Gr' Hal') as (t & t' & o & T1 & T2 & T3). exists t, t', (outs' :: o). go. rewrite T1. go. go. rewrite T2. go. done.
  - apply IH; [done|by apply reset_good; [apply HS|]|by apply reset_good; [apply HS|]|by eapply reset_alike].
Qed.
Lemma create_self s lo hi n : setupOk s lo hi -> allAlike lo hi (create s n) (create s n).
Proof. intros HS c m m' Hm Hm'. rewrite Hm in Hm'. injection Hm' as <-. apply lookup_replicate in Hm as [-> _]. split; [done|]. split; by eapply new_quiet. Qed.
Lemma cleared s lo hi n ms ms' : setupOk s lo hi -> good s n ms -> allAlike lo hi ms ms' -> length ms' = n -> allAlike lo hi (resetMemory s <$> ms) (create s n).
Proof.
  intros HS [G1 G2] Hal Hl c m m' Hm Hm'. rewrite list_lookup_fmap in Hm. apply fmap_Some in Hm as (d & Hd & ->). apply lookup_replicate in Hm' as [-> _].
  destruct (lookup_lt_is_Some_2 ms' c) as [d' Hd']; [apply lookup_lt_Some in Hd; lia|]. destruct (Hal _ _ _ Hd Hd') as (A1 & A2 & A3). split; [done|]. split; [by eapply reset_quiet|by eapply new_quiet].
Qed.
