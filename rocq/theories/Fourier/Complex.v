(** The complex transform of 2^p points computes the discrete Fourier transform. *)
From Coq Require Import ZArith Reals Lia Lra.
From stdpp Require Import list list_numbers.
From Verif Require Import Fourier.Model Fourier.Spec Fourier.Arrays.
Local Open Scope R_scope.

(** ** Reversed bits *)
Lemma revLoop_acc b m k : revLoop b m k = (k * 2 ^ b + revLoop b m 0)%nat.
Proof.
  revert m k. induction b as [|b IH]; intros m k; cbn [revLoop]; [cbn; lia|].
  rewrite IH, (IH (m / 2)%nat (2 * 0 + m mod 2)%nat). rewrite Nat.pow_succ_r'. nia.
Qed.
Lemma rev_even b q : revLoop (S b) (2 * q) 0 = revLoop b q 0.
Proof.
  cbn [revLoop]. replace ((2 * q) / 2)%nat with q by (rewrite Nat.mul_comm, Nat.div_mul; lia).
  replace ((2 * q) mod 2)%nat with 0%nat by (rewrite Nat.mul_comm, Nat.mod_mul; lia). done.
Qed.
Lemma rev_odd b q : revLoop (S b) (2 * q + 1) 0 = (2 ^ b + revLoop b q 0)%nat.
Proof.
  cbn [revLoop]. replace ((2 * q + 1) / 2)%nat with q by (rewrite Nat.mul_comm, Nat.div_add_l by lia; cbn; lia).
  replace ((2 * q + 1) mod 2)%nat with 1%nat by (rewrite Nat.add_comm, Nat.mul_comm, Nat.mod_add; cbn; lia).
  rewrite revLoop_acc. lia.
Qed.
Lemma halves m : exists q, (m = 2 * q \/ m = 2 * q + 1)%nat.
Proof. exists (m / 2)%nat. pose proof (Nat.div_mod m 2 ltac:(lia)). pose proof (Nat.mod_upper_bound m 2 ltac:(lia)). lia. Qed.
Lemma rev_lt b m : (revLoop b m 0 < 2 ^ b)%nat.
Proof.
  revert m. induction b as [|b IH]; intros m; [cbn; lia|]. rewrite Nat.pow_succ_r'.
  destruct (halves m) as (q & [->| ->]); rewrite ?rev_even, ?rev_odd; specialize (IH q); lia.
Qed.
Lemma rev_top b c q : (c < 2)%nat -> (q < 2 ^ b)%nat -> revLoop (S b) (c * 2 ^ b + q) 0 = (2 * revLoop b q 0 + c)%nat.
Proof.
  revert q. induction b as [|b IH]; intros q Hc Hq.
  - assert (q = 0)%nat as -> by (cbn in Hq; lia). destruct c as [|[|c]]; [done|done|lia].
  - rewrite Nat.pow_succ_r' in *. destruct (halves q) as (r & [->| ->]).
    + replace (c * (2 * 2 ^ b) + 2 * r)%nat with (2 * (c * 2 ^ b + r))%nat by lia.
      rewrite rev_even, IH by lia. by rewrite rev_even.
    + replace (c * (2 * 2 ^ b) + (2 * r + 1))%nat with (2 * (c * 2 ^ b + r) + 1)%nat by lia.
      rewrite rev_odd, IH by lia. rewrite rev_odd. rewrite Nat.pow_succ_r'. lia.
Qed.
Lemma rev_rev b m : (m < 2 ^ b)%nat -> revLoop b (revLoop b m 0) 0 = m.
Proof.
  revert m. induction b as [|b IH]; intros m H; [cbn in *; lia|]. rewrite Nat.pow_succ_r' in H.
  destruct (halves m) as (q & [->| ->]); rewrite ?rev_even, ?rev_odd.
  - pose proof (rev_top b 0 (revLoop b q 0) ltac:(lia) (rev_lt b q)) as E.
    rewrite Nat.mul_0_l, Nat.add_0_l in E. rewrite E, IH by lia. lia.
  - pose proof (rev_top b 1 (revLoop b q 0) ltac:(lia) (rev_lt b q)) as E.
    rewrite Nat.mul_1_l in E. rewrite E, IH by lia. lia.
Qed.

Lemma pow2_pos p : (0 < 2 ^ p)%nat.
Proof. apply Nat.neq_0_lt_0. apply Nat.pow_nonzero. lia. Qed.
Lemma pow2_sum a b : (2 ^ (a + b) = 2 ^ a * 2 ^ b)%nat.
Proof. apply Nat.pow_add_r. Qed.
Lemma pow2_INR p : INR (2 ^ p) > 0.
Proof. apply lt_0_INR, pow2_pos. Qed.

Lemma lowestBit_pow p : forall fuel i, (i <= p)%nat -> (p < i + fuel)%nat -> lowestBit fuel i (2 ^ p) = Some p.
Proof.
  induction fuel as [|fuel IH]; intros i Hi Hf; [lia|]. cbn [lowestBit].
  replace (2 ^ p / 2 ^ i)%nat with (2 ^ (p - i))%nat.
  2:{ replace p with ((p - i) + i)%nat at 2 by lia. rewrite pow2_sum, Nat.div_mul; [done|]. pose proof (pow2_pos i). lia. }
  destruct (decide (p = i)) as [->|N].
  - rewrite Nat.sub_diag. done.
  - replace (p - i)%nat with (S (p - i - 1)) by lia. rewrite Nat.pow_succ_r', Nat.odd_mul. cbn [Nat.odd Nat.even negb andb].
    apply IH; lia.
Qed.

Lemma bitTable_pow p : (p < 31)%nat -> bitTable (2 ^ p) = Some (arr (2 ^ p) (fun i => revLoop p i 0)).
Proof. intros H. unfold bitTable. rewrite lowestBit_pow by lia. done. Qed.

Lemma scatter_ok p x o : exists g, scatter (arr (2 ^ p) (fun i => revLoop p i 0)) (arr (2 ^ p) x) (arr (2 ^ p) o) (2 ^ p) = Some (arr (2 ^ p) g) /\
  forall b, (b < 2 ^ p)%nat -> g b = x (revLoop p b 0).
Proof.
  unfold scatter.
  destruct (loop_inv (fun i l => exists g, l = arr (2 ^ p) g /\ forall j, (j < i)%nat -> (j < 2 ^ p)%nat -> g (revLoop p j 0) = x j)
    (fun i out => j ← arr (2 ^ p) (fun i => revLoop p i 0) !! i; v ← arr (2 ^ p) x !! i; put out j v) (2 ^ p) 0 (arr (2 ^ p) o)) as (l & E & g & -> & G).
  - exists o. split; [done|]. intros; lia.
  - intros i l Hi (g & -> & G). rewrite !arr_lookup by lia.
    change (Some ?a ≫= ?g) with (g a). cbv beta. change (Some ?a ≫= ?g) with (g a). cbv beta.
    rewrite put_arr by apply rev_lt. eexists. split; [done|]. eexists. split; [done|].
    intros j Hj Hp. destruct (decide (j = i)) as [->|N]; [by rewrite upd_eq|].
    rewrite upd_ne; [apply G; lia|]. intros E. apply N.
    rewrite <- (rev_rev p j), <- (rev_rev p i) by lia. by rewrite E.
  - exists g. split; [done|]. intros b Hb. rewrite <- (rev_rev p b Hb) at 1. apply G; [|]; apply rev_lt || (cbn; apply rev_lt).
Qed.

(** ** One stage *)

Definition sg (inverse : bool) : R := if inverse then 1 else -1.
(** The factor at place m of a block of the given size. *)
Definition factor (inverse : bool) (size m : nat) : C := cis (sg inverse * (2 * PI * INR m / INR size)).

Lemma cos_next a d : 2 * cos d * cos a - cos (a - d) = cos (a + d).
Proof. rewrite cos_minus, cos_plus. ring. Qed.
Lemma sin_next a d : 2 * cos d * sin a - sin (a - d) = sin (a + d).
Proof. rewrite sin_minus, sin_plus. ring. Qed.

(** ar[1], ai[1] and ar[2], ai[2] when place m is about to be done. *)
Definition turning (inverse : bool) (phi : R) (m : nat) (t : tw) : Prop :=
  t1 t = cis (sg inverse * ((INR m - 1) * phi)) /\ t2 t = cis (sg inverse * ((INR m - 2) * phi)).

Lemma turning_0 (inverse : bool) phi : let f := if inverse then -1 else 1 in
  turning inverse phi 0 (Tw (cos phi, f * sin phi) (cos (2 * phi), f * sin (2 * phi))).
Proof.
  unfold turning, cis, sg. cbn [t1 t2 INR]. destruct inverse; split; f_equal.
  all: match goal with
  | |- cos ?a = cos ?b => (replace b with a by ring; reflexivity) || (replace b with (- a) by ring; by rewrite cos_neg)
  | |- - (1) * sin ?a = sin ?b => replace b with (- a) by ring; rewrite sin_neg; ring
  | |- -1 * sin ?a = sin ?b => replace b with (- a) by ring; rewrite sin_neg; ring
  | |- 1 * sin ?a = sin ?b => replace b with a by ring; ring
  end.
Qed.

Lemma turning_step inverse phi m t : turning inverse phi m t ->
  let a0 := (2 * cos phi * fst (t1 t) - fst (t2 t), 2 * cos phi * snd (t1 t) - snd (t2 t)) in
  a0 = cis (sg inverse * (INR m * phi)) /\ turning inverse phi (S m) (Tw a0 (t1 t)).
Proof.
  intros [E1 E2]. cbv zeta.
  assert ((2 * cos phi * fst (t1 t) - fst (t2 t), 2 * cos phi * snd (t1 t) - snd (t2 t)) = cis (sg inverse * (INR m * phi))) as E.
  { rewrite E1, E2. unfold cis. cbn [fst snd]. set (d := sg inverse * phi).
    replace (cos phi) with (cos d) by (unfold d, sg; destruct inverse; [by rewrite Rmult_1_l|]; replace (-1 * phi) with (- phi) by ring; apply cos_neg).
    set (a := sg inverse * ((INR m - 1) * phi)).
    replace (sg inverse * ((INR m - 2) * phi)) with (a - d) by (unfold a, d; ring).
    replace (sg inverse * (INR m * phi)) with (a + d) by (unfold a, d; ring).
    by rewrite cos_next, sin_next. }
  rewrite E. split; [done|]. split; cbn [t1 t2].
  - f_equal. rewrite S_INR. ring.
  - rewrite E1. f_equal. rewrite S_INR. ring.
Qed.

Lemma oneBlock_ok (inverse : bool) n B i f : (0 < B)%nat -> (i + 2 * B <= n)%nat ->
  let phi := 2 * PI / INR (2 * B) in let s := if inverse then -1 else 1 in
  exists g, oneBlock (s * sin phi) (s * sin (2 * phi)) (cos phi) (cos (2 * phi)) B i (arr n f) = Some (arr n g) /\
    (forall m, (m < B)%nat -> g (i + m)%nat = cadd (f (i + m)%nat) (cmul (factor inverse (2 * B) m) (f (i + B + m)%nat)) /\
                              g (i + B + m)%nat = csub (f (i + m)%nat) (cmul (factor inverse (2 * B) m) (f (i + B + m)%nat))) /\
    (forall x, (x < i \/ i + 2 * B <= x)%nat -> g x = f x).
Proof.
  intros HB Hn phi s. unfold oneBlock.
  destruct (loop_inv (fun m (st : tw * list C) => exists g, snd st = arr n g /\ turning inverse phi m (fst st) /\
      (forall r, (r < m)%nat -> g (i + r)%nat = cadd (f (i + r)%nat) (cmul (factor inverse (2 * B) r) (f (i + B + r)%nat)) /\
                              g (i + B + r)%nat = csub (f (i + r)%nat) (cmul (factor inverse (2 * B) r) (f (i + B + r)%nat))) /\
      (forall x, (x < i \/ i + m <= x < i + B \/ i + B + m <= x)%nat -> g x = f x))
    (butterfly (2 * cos phi) B i) B 0 (Tw (cos phi, s * sin phi) (cos (2 * phi), s * sin (2 * phi)), arr n f)) as ([t l] & E & g & El & T & G1 & G2).
  - exists f. split; [reflexivity|]. split; [apply (turning_0 inverse phi)|]. split; [intros; lia|intros; reflexivity].
  - intros m [t l] Hm (g & El & T & G1 & G2). cbn [fst snd] in *. subst l.
    destruct (turning_step inverse phi m t T) as [A T']. unfold butterfly. cbv zeta.
    rewrite arr_lookup by lia. change (Some ?a ≫= ?g) with (g a). cbv beta.
    rewrite arr_lookup by lia. change (Some ?a ≫= ?g) with (g a). cbv beta.
    rewrite put_arr by lia. change (Some ?a ≫= ?g) with (g a). cbv beta.
    rewrite arr_lookup by lia. change (Some ?a ≫= ?g) with (g a). cbv beta.
    rewrite put_arr by lia. change (Some ?a ≫= ?g) with (g a). cbv beta.
    eexists. split; [reflexivity|]. cbn [fst snd]. eexists. split; [reflexivity|]. split; [exact T'|].
    assert (cis (sg inverse * (INR m * phi)) = factor inverse (2 * B) m) as F.
    { unfold factor. f_equal. unfold phi. field. apply not_0_INR. lia. }
    rewrite F in A. injection A as A1 A2. rewrite A1, A2.
    rewrite (upd_ne g (i + m + B)%nat _ (i + m)%nat) by lia.
    rewrite (G2 (i + m)%nat) by lia. rewrite (G2 (i + m + B)%nat) by lia.
    split.
    + intros r Hr. destruct (decide (r = m)) as [->|N].
      * rewrite upd_eq. rewrite upd_ne by lia. replace (i + B + m)%nat with (i + m + B)%nat by lia. rewrite upd_eq. done.
      * rewrite !upd_ne by lia. apply G1. lia.
    + intros x Hx. rewrite !upd_ne by lia. apply G2. lia.
  - rewrite E. change (Some ?a ≫= ?g) with (g a). cbv beta iota. cbn [snd] in El. subst l. exists g. split; [done|]. split; [exact G1|].
    intros x Hx. apply G2. lia.
Qed.

Lemma oneStage_ok (inverse : bool) q B f : (0 < B)%nat ->
  let n := (q * (2 * B))%nat in
  let phi := 2 * PI / INR (2 * B) in let s := if inverse then -1 else 1 in
  exists g, oneStage (s * sin phi) (s * sin (2 * phi)) (cos phi) (cos (2 * phi)) n B (2 * B) (arr n f) = Some (arr n g) /\
    (forall b m, (b < q)%nat -> (m < B)%nat ->
       g (b * (2 * B) + m)%nat = cadd (f (b * (2 * B) + m)%nat) (cmul (factor inverse (2 * B) m) (f (b * (2 * B) + B + m)%nat)) /\
       g (b * (2 * B) + B + m)%nat = csub (f (b * (2 * B) + m)%nat) (cmul (factor inverse (2 * B) m) (f (b * (2 * B) + B + m)%nat))).
Proof.
  intros HB n phi s. unfold oneStage.
  replace ((n + 2 * B - 1) / (2 * B))%nat with q.
  2:{ unfold n. replace (q * (2 * B) + 2 * B - 1)%nat with (q * (2 * B) + (2 * B - 1))%nat by lia.
      rewrite Nat.div_add_l by lia. rewrite Nat.div_small by lia. lia. }
  destruct (loop_inv (fun b l => exists g, l = arr n g /\
      (forall c m, (c < b)%nat -> (m < B)%nat ->
       g (c * (2 * B) + m)%nat = cadd (f (c * (2 * B) + m)%nat) (cmul (factor inverse (2 * B) m) (f (c * (2 * B) + B + m)%nat)) /\
       g (c * (2 * B) + B + m)%nat = csub (f (c * (2 * B) + m)%nat) (cmul (factor inverse (2 * B) m) (f (c * (2 * B) + B + m)%nat))) /\
      (forall x, (b * (2 * B) <= x)%nat -> g x = f x))
    (fun r => oneBlock (s * sin phi) (s * sin (2 * phi)) (cos phi) (cos (2 * phi)) B (r * (2 * B))) q 0 (arr n f)) as (l & E & g & -> & G1 & G2).
  - exists f. split; [done|]. split; intros; [lia|done].
  - intros b l Hb (g & -> & G1 & G2).
    destruct (oneBlock_ok inverse n B (b * (2 * B)) g HB) as (h & Eh & H1 & H2).
    { unfold n. nia. }
    exists (arr n h). split; [exact Eh|]. exists h. split; [done|]. split.
    + intros c m Hc Hm. destruct (decide (c = b)) as [->|N].
      * destruct (H1 m Hm) as [-> ->]. by rewrite !G2 by lia.
      * rewrite !H2 by nia. apply G1; lia.
    + intros x Hx. rewrite H2 by nia. apply G2. nia.
  - exists g. split; [exact E|]. exact G1.
Qed.

(** ** All stages *)

Section Points.
Context (p : nat) (inverse : bool) (x : nat -> C).

(** The transform of the 2^s points that start at [r] and are 2^(p-s) apart. *)
Definition part (s r m : nat) : C := dft (sg inverse) (2 ^ s) (fun t => x (r + t * 2 ^ (p - s))%nat) m.

Lemma angle_even s u m : turn (2 ^ S s) (2 * u) m = turn (2 ^ s) u m.
Proof.
  unfold turn. rewrite Nat.pow_succ_r', !mult_INR. cbn [INR]. pose proof (pow2_INR s). field. Lra.lra.
Qed.
Lemma angle_odd s u m : turn (2 ^ S s) (2 * u + 1) m = turn (2 ^ s) u m + 2 * PI * INR m / INR (2 * 2 ^ s).
Proof.
  unfold turn. rewrite Nat.pow_succ_r', plus_INR, !mult_INR. cbn [INR]. pose proof (pow2_INR s). field. Lra.lra.
Qed.
Lemma cis_sg_turns (k : nat) : cis (sg inverse * (2 * PI * INR k)) = (1, 0).
Proof.
  unfold sg. destruct inverse; [rewrite Rmult_1_l; apply cis_2PI|].
  replace (-1 * (2 * PI * INR k)) with (- (2 * PI * INR k)) by ring. rewrite cis_neg, cis_2PI. cring.
Qed.
Lemma cis_sg_half : cis (sg inverse * PI) = (-1, 0).
Proof.
  unfold sg. destruct inverse; [rewrite Rmult_1_l; apply cis_PI|].
  replace (-1 * PI) with (- PI) by ring. rewrite cis_neg, cis_PI. cring.
Qed.

Lemma turn_wrap s u m : cis (sg inverse * turn (2 ^ s) u (2 ^ s + m)) = cis (sg inverse * turn (2 ^ s) u m).
Proof.
  replace (sg inverse * turn (2 ^ s) u (2 ^ s + m)) with (sg inverse * turn (2 ^ s) u m + sg inverse * (2 * PI * INR u)).
  - by rewrite cis_add, cis_sg_turns, cmul_1_r.
  - unfold turn. rewrite plus_INR. pose proof (pow2_INR s). field. Lra.lra.
Qed.
Lemma part_wrap s r m : part s r (2 ^ s + m) = part s r m.
Proof. unfold part, dft. apply csum_ext. intros. by rewrite turn_wrap. Qed.

Lemma part_split s r k : (s < p)%nat ->
  part (S s) r k = cadd (part s r k) (cmul (factor inverse (2 * 2 ^ s) k) (part s (r + 2 ^ (p - S s)) k)).
Proof.
  intros Hs. unfold part at 1, dft. rewrite Nat.pow_succ_r' at 1. rewrite csum_split. f_equal.
  - unfold part, dft. apply csum_ext. intros u _. rewrite angle_even. do 2 f_equal.
    replace (p - s)%nat with (S (p - S s)) by lia. rewrite Nat.pow_succ_r'. lia.
  - unfold part, dft. rewrite <- csum_mul_l. apply csum_ext. intros u _. rewrite angle_odd.
    rewrite Rmult_plus_distr_l, cis_add. unfold factor.
    replace (r + (2 * u + 1) * 2 ^ (p - S s))%nat with (r + 2 ^ (p - S s) + u * 2 ^ (p - s))%nat.
    2:{ replace (p - s)%nat with (S (p - S s)) by lia. rewrite Nat.pow_succ_r'. lia. }
    rewrite cmul_assoc. apply cmul_comm.
Qed.

Lemma factor_half s m : factor inverse (2 * 2 ^ s) (2 ^ s + m) = cmul (-1, 0) (factor inverse (2 * 2 ^ s) m).
Proof.
  unfold factor. rewrite <- cis_sg_half, <- cis_add. f_equal. rewrite plus_INR, mult_INR. cbn [INR].
  pose proof (pow2_INR s). field. Lra.lra.
Qed.

(** What the array holds before the stage with blocks of 2^(s+1). *)
Definition staged (s : nat) (f : nat -> C) : Prop :=
  forall b m, (b < 2 ^ (p - s))%nat -> (m < 2 ^ s)%nat -> f (b * 2 ^ s + m)%nat = part s (revLoop (p - s) b 0) m.

Lemma staged_0 f : (forall b, (b < 2 ^ p)%nat -> f b = x (revLoop p b 0)) -> staged 0 f.
Proof.
  intros H b m Hb Hm. assert (m = 0)%nat as -> by (cbn in Hm; lia). rewrite Nat.sub_0_r in *.
  replace (b * 2 ^ 0 + 0)%nat with b by (cbn; lia). rewrite H by done. unfold part, dft, turn. cbn [Nat.pow csum].
  rewrite cadd_0_l. cbn [INR]. rewrite Nat.sub_0_r, Nat.mul_0_l, Nat.add_0_r.
  replace (sg inverse * (2 * PI * (0 * 0) / 1)) with 0 by field. by rewrite cis_0, cmul_1_r.
Qed.

Lemma staged_step s f g : (s < p)%nat -> staged s f ->
  (forall b m, (b < 2 ^ (p - S s))%nat -> (m < 2 ^ s)%nat ->
     g (b * (2 * 2 ^ s) + m)%nat = cadd (f (b * (2 * 2 ^ s) + m)%nat) (cmul (factor inverse (2 * 2 ^ s) m) (f (b * (2 * 2 ^ s) + 2 ^ s + m)%nat)) /\
     g (b * (2 * 2 ^ s) + 2 ^ s + m)%nat = csub (f (b * (2 * 2 ^ s) + m)%nat) (cmul (factor inverse (2 * 2 ^ s) m) (f (b * (2 * 2 ^ s) + 2 ^ s + m)%nat))) ->
  staged (S s) g.
Proof.
  intros Hs F G b k Hb Hk.
  assert (p - s = S (p - S s))%nat as Ep by lia.
  set (r := revLoop (p - S s) b 0).
  assert (forall m, (m < 2 ^ s)%nat -> f (b * (2 * 2 ^ s) + m)%nat = part s r m) as F0.
  { intros m Hm. replace (b * (2 * 2 ^ s) + m)%nat with (2 * b * 2 ^ s + m)%nat by lia.
    rewrite F; [|rewrite Ep, Nat.pow_succ_r'; lia|done]. rewrite Ep, rev_even. done. }
  assert (forall m, (m < 2 ^ s)%nat -> f (b * (2 * 2 ^ s) + 2 ^ s + m)%nat = part s (r + 2 ^ (p - S s)) m) as F1.
  { intros m Hm. replace (b * (2 * 2 ^ s) + 2 ^ s + m)%nat with ((2 * b + 1) * 2 ^ s + m)%nat by lia.
    rewrite F; [|rewrite Ep, Nat.pow_succ_r'; lia|done]. rewrite Ep, rev_odd. by rewrite Nat.add_comm. }
  rewrite Nat.pow_succ_r' in Hk |- *. rewrite part_split by done.
  destruct (decide (k < 2 ^ s)%nat) as [L|L].
  - destruct (G b k Hb L) as [-> _]. by rewrite F0, F1.
  - set (m := (k - 2 ^ s)%nat). assert (m < 2 ^ s)%nat as Hm by lia.
    replace k with (2 ^ s + m)%nat by lia. rewrite !part_wrap, factor_half.
    replace (b * (2 * 2 ^ s) + (2 ^ s + m))%nat with (b * (2 * 2 ^ s) + 2 ^ s + m)%nat by lia.
    destruct (G b m Hb Hm) as [_ ->]. rewrite F0, F1 by done.
    generalize (part s r m), (part s (r + 2 ^ (p - S s)) m), (factor inverse (2 * 2 ^ s) m). intros [] [] []. cring.
Qed.
End Points.

Lemma sincosEntry_at s : (s < 16)%nat ->
  let phase := 2 * PI / IZR (2 ^ Z.of_nat (S s)) in
  sincosTable !! (4 * s)%nat = Some (sin phase) /\ sincosTable !! (4 * s + 1)%nat = Some (sin (2 * phase)) /\
  sincosTable !! (4 * s + 2)%nat = Some (cos phase) /\ sincosTable !! (4 * s + 3)%nat = Some (cos (2 * phase)).
Proof. intros H. do 16 (destruct s as [|s]; [by repeat split|]). lia. Qed.

Lemma INR_pow2 s : INR (2 ^ s) = IZR (2 ^ Z.of_nat s).
Proof. rewrite INR_IZR_INZ. f_equal. rewrite Nat2Z.inj_pow. done. Qed.

Lemma angles_ok (inverse : bool) s ix : (s < 16 -> ix = 4 * s)%nat ->
  let phi := 2 * PI / INR (2 ^ S s) in let f := if inverse then -1 else 1 in
  exists ix', angles inverse ix (2 ^ S s) = Some (f * sin phi, f * sin (2 * phi), cos phi, cos (2 * phi), ix') /\
    (S s < 16 -> ix' = 4 * S s)%nat.
Proof.
  intros Hix phi f. unfold angles. cbv zeta. fold f.
  replace (Z.of_nat (2 ^ S s)) with (2 ^ Z.of_nat (S s))%Z by (rewrite Nat2Z.inj_pow; done).
  destruct (decide (s < 16)%nat) as [L|L].
  - rewrite (proj2 (Z.leb_le _ _)) by (apply Z.pow_le_mono_r; lia).
    destruct (sincosEntry_at s L) as (A & B & D & E). rewrite (Hix L). rewrite A, B, D, E.
    do 4 (change (Some ?a ≫= ?g) with (g a); cbv beta). unfold phi. rewrite INR_pow2. eexists. split; [done|]. lia.
  - rewrite (proj2 (Z.leb_gt _ _)) by (apply Z.pow_lt_mono_r; lia).
    eexists. split; [done|]. lia.
Qed.

Lemma stages_ok p inverse x : forall d s fuel ix f, (s + d = p)%nat -> (d < fuel)%nat -> (s < 16 -> ix = 4 * s)%nat -> staged p inverse x s f ->
  exists g, stages fuel inverse (2 ^ p) ix (2 ^ s) (2 * 2 ^ s) (arr (2 ^ p) f) = Some (arr (2 ^ p) g) /\ staged p inverse x p g.
Proof.
  induction d as [|d IH]; intros s fuel ix f Hs Hf Hix F; (destruct fuel as [|fuel]; [lia|]); cbn [stages].
  - assert (s = p) as -> by lia. rewrite decide_False by (pose proof (pow2_pos p); lia). eauto.
  - rewrite decide_True.
    2:{ rewrite <- Nat.pow_succ_r'. apply Nat.pow_le_mono_r; lia. }
    rewrite <- Nat.pow_succ_r'. destruct (angles_ok inverse s ix Hix) as (ix' & Ea & Hix'). rewrite Ea.
    change (Some ?a ≫= ?g) with (g a). cbv beta iota.
    destruct (oneStage_ok inverse (2 ^ (p - S s)) (2 ^ s) f (pow2_pos s)) as (g & Eg & G).
    assert (2 ^ (p - S s) * (2 * 2 ^ s) = 2 ^ p)%nat as En.
    { rewrite <- Nat.pow_succ_r', <- pow2_sum. f_equal. lia. }
    cbv zeta in Eg. rewrite En in Eg. rewrite Nat.pow_succ_r'. rewrite Eg.
    change (Some ?a ≫= ?g) with (g a). cbv beta. rewrite <- Nat.pow_succ_r'.
    apply IH; [lia|lia|done|]. eapply staged_step; [lia|exact F|exact G].
Qed.

Theorem complex_ok p inverse x o : (p < 31)%nat ->
  exists g, transformComplex inverse (2 ^ p) (arr (2 ^ p) x) (arr (2 ^ p) o) = Some (arr (2 ^ p) g) /\
    forall k, (k < 2 ^ p)%nat -> g k = dft (sg inverse) (2 ^ p) x k.
Proof.
  intros Hp. unfold transformComplex. rewrite bitTable_pow by done. change (Some ?a ≫= ?g) with (g a). cbv beta.
  destruct (scatter_ok p x o) as (f & Ef & F). rewrite Ef. change (Some ?a ≫= ?g) with (g a). cbv beta.
  destruct (stages_ok p inverse x p 0 (S (2 ^ p)) 0 f) as (g & Eg & G); [lia| |lia|by apply staged_0|].
  { pose proof (Nat.pow_gt_lin_r 2 p). lia. }
  exists g. split; [exact Eg|]. intros k Hk. specialize (G 0%nat k). rewrite Nat.sub_diag in G.
  cbn [Nat.mul Nat.add] in G. rewrite G; [|cbn; lia|done]. unfold part, dft. apply csum_ext. intros t _.
  rewrite Nat.sub_diag. cbn [Nat.pow revLoop Nat.add]. by rewrite Nat.mul_1_r.
Qed.
