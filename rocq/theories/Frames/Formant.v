(** Property C81: formant preservation. *)
From stdpp Require Import prelude.
From Coq Require Import ZArith QArith Qround Lia Lqa.
From Verif Require Import Base.Arith Frames.FormantModel.
From stdpp Require Import list.
Local Open Scope Z_scope.

Lemma setZ_is {A} (l : list A) i x : 0 <= i < zlen l -> setZ l i x = Some (<[Z.to_nat i := x]> l).
Proof. intros H. unfold setZ. destruct (_ && _) eqn:E; [done|]. apply andb_false_iff in E as [E|E]; [apply Z.leb_gt in E|apply Z.ltb_ge in E]; lia. Qed.
Lemma zlen_insert {A} (l : list A) i x : zlen (<[i := x]> l) = zlen l.
Proof. unfold zlen. by rewrite insert_length. Qed.
Lemma getZ_insert {A} (l : list A) i j x : 0 <= i < zlen l -> getZ (<[Z.to_nat i := x]> l) j = if j =? i then Some x else getZ l j.
Proof.
  intros H. unfold getZ. destruct (Z.eqb_spec j i) as [->|Hne].
  - rewrite (proj2 (Z.leb_le 0 i)) by lia. apply list_lookup_insert. unfold zlen in H. lia.
  - destruct (Z.leb_spec 0 j); [|done]. apply list_lookup_insert_ne. lia.
Qed.
Definition inRange (a n j : Z) : bool := (a <=? j) && (j <? a + n).
Lemma inRange_spec a n j : inRange a n j = true <-> a <= j < a + n.
Proof. unfold inRange. rewrite andb_true_iff, Z.leb_le, Z.ltb_lt. done. Qed.
Lemma inRange_step a k j : inRange a (Z.of_nat (S k)) j = (j =? a) || inRange (a + 1) (Z.of_nat k) j.
Proof. apply eq_true_iff_eq. rewrite orb_true_iff, !inRange_spec, Z.eqb_eq. lia. Qed.
Lemma inRange_out a k : inRange (a + 1) (Z.of_nat k) a = false.
Proof. apply not_true_iff_false. rewrite inRange_spec. lia. Qed.

Lemma over_spec f k : forall a i, 0 <= i -> i + Z.of_nat k <= zlen a ->
  exists a', over f a i k = Some a' /\ zlen a' = zlen a /\ forall j, getZ a' j = if inRange i (Z.of_nat k) j then f <$> getZ a j else getZ a j.
Proof.
  induction k as [|k IH]; intros a i H1 H2; cbn [over].
  - exists a. split; [done|]. split; [done|]. intros j. destruct (inRange _ _ _) eqn:E; [apply inRange_spec in E; lia|done].
  - destruct (getZ_is a i) as [x Hx]; [lia|]. rewrite Hx. cbn [mbind option_bind]. rewrite setZ_is by lia. cbn [mbind option_bind].
    destruct (IH (<[Z.to_nat i := f x]> a) (i + 1)) as (a' & E & L & D); [lia|rewrite zlen_insert; lia|]. exists a'. split; [done|]. split; [by rewrite L, zlen_insert|].
    intros j. rewrite D, inRange_step, getZ_insert by lia. destruct (Z.eqb_spec j i) as [->|Hne]; cbn; [|done]. by rewrite inRange_out, Hx.
Qed.
(** The cepstrum cut for the envelope: halves at both ends, nothing from the cutoff on, all
    divided by the size of the transform. *)
Theorem C81_cepstrum_partial rate c sz : 1400 <= rate -> rate / 700 <= sz -> sz <= zlen c ->
  exists c', cutCepstrum rate c sz = Some c' /\ zlen c' = zlen c /\
    forall j x, 0 <= j < sz -> getZ c j = Some x ->
      exists y, getZ c' j = Some y /\ (y == if rate / 700 <=? j then 0 else (if (j =? 0) || (j =? rate / 700 - 1) then x / 2 else x) * (1 / inject_Z sz))%Q.
Proof.
  intros Hr Hc Hl. assert (H2 : 2 <= rate / 700) by (apply Z.div_le_lower_bound; lia). unfold cutCepstrum. set (k := rate / 700) in *. clearbody k. cbv zeta.
  destruct (over_spec (fun x => x / 2)%Q 1 c 0) as (c1 & -> & L1 & D1); [lia|lia|]. cbn [mbind option_bind].
  destruct (over_spec (fun x => x / 2)%Q 1 c1 (k - 1)) as (c2 & -> & L2 & D2); [lia|lia|]. cbn [mbind option_bind].
  destruct (over_spec (fun _ => 0%Q) (Z.to_nat (sz - k)) c2 k) as (c3 & -> & L3 & D3); [lia|lia|]. cbn [mbind option_bind].
  destruct (over_spec (fun x => x * (1 / inject_Z sz))%Q (Z.to_nat k) c3 0) as (c4 & -> & L4 & D4); [lia|lia|].
  exists c4. split; [done|]. split; [lia|]. intros j x Hj Hx. rewrite D4, D3, D2, D1, Hx.
  destruct (Z.leb_spec k j).
  - assert (E1 : inRange 0 (Z.of_nat (Z.to_nat k)) j = false) by (apply not_true_iff_false; rewrite inRange_spec; lia). assert (E2 : inRange k (Z.of_nat (Z.to_nat (sz - k))) j = true) by (apply inRange_spec; lia).
    rewrite E1, E2. destruct (inRange (k - 1) _ _), (inRange 0 (Z.of_nat 1) j); cbn; by eexists.
  - assert (E1 : inRange 0 (Z.of_nat (Z.to_nat k)) j = true) by (apply inRange_spec; lia). assert (E2 : inRange k (Z.of_nat (Z.to_nat (sz - k))) j = false) by (apply not_true_iff_false; rewrite inRange_spec; lia).
    rewrite E1, E2. assert (E3 : inRange 0 (Z.of_nat 1) j = (j =? 0)) by (apply eq_true_iff_eq; rewrite inRange_spec, Z.eqb_eq; lia). assert (E4 : inRange (k - 1) (Z.of_nat 1) j = (j =? k - 1)) by (apply eq_true_iff_eq; rewrite inRange_spec, Z.eqb_eq; lia).
    rewrite E3, E4. destruct (Z.eqb_spec j 0), (Z.eqb_spec j (k - 1)); cbn; try lia; by eexists.
Qed.
Print Assumptions C81_cepstrum_partial.
(** Below 700 Hz the cutoff is 0 and the access is before the array; from 700 to 1400 Hz the one value
    left is halved twice. *)
Theorem C81_cepstrum_refuted : exists rate rate', cutCepstrum rate [1; 1; 1; 1]%Q 4 = None /\ 0 < rate /\
  (exists c, cutCepstrum rate' [1; 1; 1; 1]%Q 4 = Some c /\ exists y, getZ c 0 = Some y /\ (y == (1 # 4) * (1 # 4))%Q).
Proof. exists 600, 1000. split; [by vm_compute|]. split; [done|]. eexists. split; [vm_compute; reflexivity|]. eexists. split; [reflexivity|]. by vm_compute. Qed.
Print Assumptions C81_cepstrum_refuted.

(** * The envelope *)
Lemma upLoop_spec pitch hs k : (1 <= pitch)%Q -> forall e t, 0 <= t -> t + Z.of_nat k <= zlen e -> hs < zlen e ->
  exists e', upLoop pitch hs e t k = Some e' /\ zlen e' = zlen e /\
    forall j, getZ e' j = if inRange t (Z.of_nat k) j then (if hs <? rint (inject_Z j * pitch) then Some 0%Q else getZ e (rint (inject_Z j * pitch))) else getZ e j.
Proof.
  intros Hp. assert (Hge : forall t, 0 <= t -> t <= rint (inject_Z t * pitch)).
  { intros t Ht. rewrite <- (rint_Z t) at 1. apply rint_le. assert (0 <= inject_Z t)%Q by (change 0%Q with (inject_Z 0); by apply inject_Z_inj_le). nra. }
  induction k as [|k IH]; intros e t H1 H2 H3; cbn [upLoop].
  - exists e. split; [done|]. split; [done|]. intros j. destruct (inRange _ _ _) eqn:E; [apply inRange_spec in E; lia|done].
  - assert (exists v, (if hs <? rint (inject_Z t * pitch) then Some 0%Q else getZ e (rint (inject_Z t * pitch))) = Some v) as [v Hv].
    { destruct (Z.ltb_spec hs (rint (inject_Z t * pitch))); [by eexists|]. apply getZ_is. specialize (Hge t H1). lia. }
    rewrite Hv. cbn [mbind option_bind]. rewrite setZ_is by lia. cbn [mbind option_bind].
    destruct (IH (<[Z.to_nat t := v]> e) (t + 1)) as (e' & E & L & D); [lia|rewrite zlen_insert; lia|rewrite zlen_insert; lia|]. exists e'. split; [done|]. split; [by rewrite L, zlen_insert|].
    intros j. rewrite D, inRange_step, !getZ_insert by lia. destruct (Z.eqb_spec j t) as [->|Hne]; cbn.
    + by rewrite inRange_out.
    + destruct (inRange (t + 1) (Z.of_nat k) j) eqn:Er; [|done]. apply inRange_spec in Er. specialize (Hge j ltac:(lia)). by rewrite (proj2 (Z.eqb_neq (rint (inject_Z j * pitch)) t)) by lia.
Qed.
Lemma downLoop_spec pitch k : (0 < pitch <= 1)%Q -> forall e t, t - Z.of_nat k = 0 -> t <= zlen e ->
  exists e', downLoop pitch e t k = Some e' /\ zlen e' = zlen e /\
    forall j, getZ e' j = if inRange 0 t j then getZ e (rint (inject_Z j * pitch)) else getZ e j.
Proof.
  intros Hp. assert (Hle : forall t, 0 <= t -> 0 <= rint (inject_Z t * pitch) <= t).
  { intros t Ht. assert (0 <= inject_Z t)%Q by (change 0%Q with (inject_Z 0); by apply inject_Z_inj_le). split; [apply rint_nonneg; nra|]. rewrite <- (rint_Z t) at 2. apply rint_le. nra. }
  induction k as [|k IH]; intros e t H1 H2; cbn [downLoop].
  - exists e. split; [done|]. split; [done|]. intros j. destruct (inRange _ _ _) eqn:E; [apply inRange_spec in E; lia|done].
  - pose proof (Hle (t - 1) ltac:(lia)) as Hs. destruct (getZ_is e (rint (inject_Z (t - 1) * pitch))) as [v Hv]; [lia|]. rewrite Hv. cbn [mbind option_bind]. rewrite setZ_is by lia. cbn [mbind option_bind].
    destruct (IH (<[Z.to_nat (t - 1) := v]> e) (t - 1)) as (e' & E & L & D); [lia|rewrite zlen_insert; lia|]. exists e'. split; [done|]. split; [by rewrite L, zlen_insert|].
    intros j. rewrite D, !getZ_insert by lia. destruct (inRange 0 (t - 1) j) eqn:Er.
    + apply inRange_spec in Er. assert (E2 : inRange 0 t j = true) by (apply inRange_spec; lia). rewrite E2. specialize (Hle j ltac:(lia)). by rewrite (proj2 (Z.eqb_neq (rint (inject_Z j * pitch)) (t - 1))) by lia.
    + destruct (Z.eqb_spec j (t - 1)) as [->|Hne].
      * assert (E2 : inRange 0 t (t - 1) = true) by (apply inRange_spec; lia). by rewrite E2.
      * assert (E2 : inRange 0 t j = false) by (apply not_true_iff_false; intros E2%inRange_spec; apply not_true_iff_false in Er; apply Er, inRange_spec; lia). by rewrite E2.
Qed.
Lemma zipInto_spec f k : forall a b i, 0 <= i -> i + Z.of_nat k <= zlen a -> i + Z.of_nat k <= zlen b ->
  exists a', zipInto f a b i k = Some a' /\ zlen a' = zlen a /\ forall j, getZ a' j = if inRange i (Z.of_nat k) j then (x ← getZ a j; y ← getZ b j; Some (f x y)) else getZ a j.
Proof.
  induction k as [|k IH]; intros a b i H1 H2 H3; cbn [zipInto].
  - exists a. split; [done|]. split; [done|]. intros j. destruct (inRange _ _ _) eqn:E; [apply inRange_spec in E; lia|done].
  - destruct (getZ_is a i) as [x Hx]; [lia|]. destruct (getZ_is b i) as [y Hy]; [lia|]. rewrite Hx, Hy. cbn [mbind option_bind]. rewrite setZ_is by lia. cbn [mbind option_bind].
    destruct (IH (<[Z.to_nat i := f x y]> a) b (i + 1)) as (a' & E & L & D); [lia|rewrite zlen_insert; lia|lia|]. exists a'. split; [done|]. split; [by rewrite L, zlen_insert|].
    intros j. rewrite D, inRange_step, getZ_insert by lia. destruct (Z.eqb_spec j i) as [->|Hne]; cbn; [|done]. rewrite inRange_out, Hx, Hy. done.
Qed.

(** C81, R2.  Each bin but the last gets, in place of the envelope there, that at the bin which
    the resampler will move here; nothing from beyond the last bin. *)
Definition moved (pitch : Q) (hs : Z) (env : list Q) (i : Z) : option Q :=
  let source := rint (inject_Z i * pitch) in if hs <? source then Some 0%Q else getZ env source.
Theorem C81_faster_partial pitch hs mag env : (0 < pitch)%Q -> 0 <= hs -> hs < zlen mag -> hs < zlen env ->
  exists env' mag', shiftFormants pitch hs mag env = Some (env', mag') /\
    forall i m e, 0 <= i <= hs -> getZ mag i = Some m -> getZ env i = Some e -> (1 < pitch)%Q \/ i < hs ->
    exists e', moved pitch hs env i = Some e' /\ getZ mag' i = Some (m / e * e')%Q.
Proof.
  intros Hp Hh Hm He. unfold shiftFormants. destruct (zipInto_spec Qdiv (Z.to_nat (hs + 1)) mag env 0) as (m1 & -> & L1 & D1); [lia|lia|lia|]. cbn [mbind option_bind].
  assert (K : exists e2, (if ltQ 1 pitch then upLoop pitch hs env 0 (Z.to_nat (hs + 1)) else downLoop pitch env hs (Z.to_nat hs)) = Some e2 /\ zlen e2 = zlen env /\
    forall i, 0 <= i <= hs -> (1 < pitch)%Q \/ i < hs -> getZ e2 i = moved pitch hs env i).
  { destruct (ltQ 1 pitch) eqn:El.
    - apply ltQ_true in El. destruct (upLoop_spec pitch hs (Z.to_nat (hs + 1))) with (e := env) (t := 0) as (e2 & E & L & D); [lra|lia|lia|lia|]. exists e2. split; [done|]. split; [done|].
      intros i Hi _. rewrite D. by rewrite (proj2 (inRange_spec _ _ _)) by lia.
    - apply ltQ_false in El. destruct (downLoop_spec pitch (Z.to_nat hs)) with (e := env) (t := hs) as (e2 & E & L & D); [lra|lia|lia|]. exists e2. split; [done|]. split; [done|].
      intros i Hi Hc. assert (Hi' : i < hs) by (destruct Hc; [lra|done]). rewrite D. rewrite (proj2 (inRange_spec _ _ _)) by lia. unfold moved.
      rewrite (proj2 (Z.ltb_ge hs _)); [done|]. assert (rint (inject_Z i * pitch) <= i); [|lia]. rewrite <- (rint_Z i) at 2. apply rint_le.
      assert (0 <= inject_Z i)%Q by (change 0%Q with (inject_Z 0); apply inject_Z_inj_le; lia). nra. }
  destruct K as (e2 & -> & L2 & D2). cbn [mbind option_bind]. destruct (zipInto_spec Qmult (Z.to_nat (hs + 1)) m1 e2 0) as (m3 & -> & L3 & D3); [lia|lia|lia|]. cbn [mbind option_bind].
  exists e2, m3. split; [done|]. intros i m e Hi Hmi Hei Hc. rewrite <- (D2 i Hi Hc). destruct (getZ_is e2 i) as [e' He']; [lia|]. exists e'. split; [done|].
  rewrite D3, D1, Hmi, Hei, He'. by rewrite !(proj2 (inRange_spec _ _ _)) by lia.
Qed.
Print Assumptions C81_faster_partial.
(** The last bin keeps its envelope when the pitch goes down. *)
Theorem C81_faster_refuted : exists pitch hs mag env, (0 < pitch)%Q /\ exists env' mag' e', shiftFormants pitch hs mag env = Some (env', mag') /\
  moved pitch hs env hs = Some e' /\ (e' == 2)%Q /\ getZ env hs = Some 8%Q /\ exists m, getZ mag' hs = Some m /\ (m == 8 / 8 * 8)%Q /\ ~ (m == 8 / 8 * e')%Q.
Proof. exists (1 # 2), 4, [8; 8; 8; 8; 8]%Q, [1; 1; 2; 4; 8]%Q. split; [done|]. do 3 eexists. split; [vm_compute; reflexivity|]. split; [reflexivity|]. split; [done|]. split; [reflexivity|]. eexists. split; [reflexivity|]. split; by vm_compute. Qed.
Print Assumptions C81_faster_refuted.
Example C81_faster_case : moved (3 # 2) 4 [1; 2; 4; 8; 16]%Q 2 = Some 8%Q /\ moved (3 # 2) 4 [1; 2; 4; 8; 16]%Q 3 = Some 16%Q /\ moved (3 # 2) 4 [1; 2; 4; 8; 16]%Q 4 = Some 0%Q /\
  snd <$> shiftFormants (3 # 2) 4 [1; 1; 1; 1; 1]%Q [1; 2; 4; 8; 16]%Q = Some [1 / 1 * 1; 1 / 2 * 4; 1 / 4 * 8; 1 / 8 * 16; 1 / 16 * 0]%Q.
Proof. by vm_compute. Qed.
