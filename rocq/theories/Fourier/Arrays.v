(** Arrays as functions, counted loops, sums of complex numbers. *)
From Coq Require Import ZArith Reals Lia Lra.
From stdpp Require Import list list_numbers.
From Verif Require Import Fourier.Model Fourier.Spec.
Local Open Scope R_scope.

Ltac cring := intros; unfold cadd, csub, cmul, conj in *; cbn [fst snd] in *; f_equal; ring.

Definition arr {A} (n : nat) (f : nat -> A) : list A := f <$> seq 0 n.

Lemma arr_length {A} n (f : nat -> A) : length (arr n f) = n.
Proof. unfold arr. by rewrite fmap_length, seq_length. Qed.
Lemma arr_lookup {A} n (f : nat -> A) i : (i < n)%nat -> arr n f !! i = Some (f i).
Proof. intros H. unfold arr. rewrite list_lookup_fmap, lookup_seq_lt by done. done. Qed.
Lemma arr_ext {A} n (f g : nat -> A) : (forall i, (i < n)%nat -> f i = g i) -> arr n f = arr n g.
Proof.
  intros H. apply list_eq. intros i. destruct (decide (i < n)%nat) as [L|L].
  - rewrite !arr_lookup by done. by rewrite H.
  - rewrite !lookup_ge_None_2; rewrite ?arr_length; done || lia.
Qed.
Lemma arr_of {A} (d : A) (l : list A) n : length l = n -> l = arr n (fun i => default d (l !! i)).
Proof.
  intros <-. apply list_eq. intros i. destruct (decide (i < length l)%nat) as [L|L].
  - rewrite arr_lookup by done. apply lookup_lt_is_Some in L as [x E]. by rewrite E.
  - rewrite !lookup_ge_None_2; rewrite ?arr_length; done || lia.
Qed.

Definition upd {A} (f : nat -> A) (i : nat) (v : A) (x : nat) : A := if decide (x = i) then v else f x.
Lemma upd_eq {A} (f : nat -> A) i v : upd f i v i = v.
Proof. unfold upd. by rewrite decide_True. Qed.
Lemma upd_ne {A} (f : nat -> A) i v x : x <> i -> upd f i v x = f x.
Proof. intros. unfold upd. by rewrite decide_False. Qed.
Lemma put_arr {A} n (f : nat -> A) i v : (i < n)%nat -> put (arr n f) i v = Some (arr n (upd f i v)).
Proof.
  intros H. unfold put. rewrite arr_length. rewrite decide_True by done. f_equal.
  apply list_eq. intros j. destruct (decide (j = i)) as [->|N].
  - rewrite list_lookup_insert by (by rewrite arr_length). rewrite arr_lookup by done. by rewrite upd_eq.
  - rewrite list_lookup_insert_ne by done. destruct (decide (j < n)%nat) as [L|L].
    + rewrite !arr_lookup by done. by rewrite upd_ne.
    + rewrite !lookup_ge_None_2; rewrite ?arr_length; done || lia.
Qed.

Lemma loop_inv {A} (P : nat -> A -> Prop) (f : nat -> A -> option A) n a s :
  P a s ->
  (forall i s, (a <= i < a + n)%nat -> P i s -> exists s', f i s = Some s' /\ P (S i) s') ->
  exists s', loop n a f s = Some s' /\ P (a + n)%nat s'.
Proof.
  revert a s. induction n as [|n IH]; intros a s H F; cbn [loop].
  - exists s. split; [done|]. by replace (a + 0)%nat with a by lia.
  - destruct (F a s ltac:(lia) H) as (s' & E & H'). rewrite E.
    change (Some s' ≫= ?g) with (g s'). cbv beta.
    destruct (IH (S a) s' H') as (t & Et & Ht).
    + intros i u L. apply F. lia.
    + exists t. split; [done|]. by replace (a + S n)%nat with (S a + n)%nat by lia.
Qed.

(** ** Complex numbers *)
Lemma cadd_comm a b : cadd a b = cadd b a.
Proof. destruct a, b. cring. Qed.
Lemma cadd_assoc a b c : cadd a (cadd b c) = cadd (cadd a b) c.
Proof. destruct a, b, c. cring. Qed.
Lemma cmul_assoc a b c : cmul a (cmul b c) = cmul (cmul a b) c.
Proof. destruct a, b, c. cring. Qed.
Lemma cmul_comm a b : cmul a b = cmul b a.
Proof. destruct a, b. cring. Qed.
Lemma cmul_add_r a b c : cmul a (cadd b c) = cadd (cmul a b) (cmul a c).
Proof. destruct a, b, c. cring. Qed.
Lemma cadd_0_l a : cadd (0, 0) a = a.
Proof. destruct a. cring. Qed.
Lemma cadd_0_r a : cadd a (0, 0) = a.
Proof. destruct a. cring. Qed.
Lemma cmul_1_r a : cmul a (1, 0) = a.
Proof. destruct a. cring. Qed.
Lemma cmul_0_r a : cmul a (0, 0) = (0, 0).
Proof. destruct a. cring. Qed.
Lemma conj_add a b : conj (cadd a b) = cadd (conj a) (conj b).
Proof. destruct a, b. cring. Qed.
Lemma conj_mul a b : conj (cmul a b) = cmul (conj a) (conj b).
Proof. destruct a, b. cring. Qed.
Lemma conj_conj a : conj (conj a) = a.
Proof. destruct a. cring. Qed.

Lemma cis_add a b : cis (a + b) = cmul (cis a) (cis b).
Proof. unfold cis, cmul. cbn [fst snd]. rewrite cos_plus, sin_plus. f_equal; ring. Qed.
Lemma cis_0 : cis 0 = (1, 0).
Proof. unfold cis. by rewrite cos_0, sin_0. Qed.
Lemma cis_neg a : cis (- a) = conj (cis a).
Proof. unfold cis, conj. cbn [fst snd]. by rewrite cos_neg, sin_neg. Qed.
Lemma cis_2PI (k : nat) : cis (2 * PI * INR k) = (1, 0).
Proof.
  induction k as [|k IH]; [cbn [INR]; by rewrite Rmult_0_r, cis_0|].
  rewrite S_INR. replace (2 * PI * (INR k + 1)) with (2 * PI * INR k + 2 * PI) by ring.
  rewrite cis_add, IH. unfold cis. rewrite cos_2PI, sin_2PI. cring.
Qed.
Lemma cis_PI : cis PI = (-1, 0).
Proof. unfold cis. by rewrite cos_PI, sin_PI. Qed.

Lemma csum_ext n f g : (forall i, (i < n)%nat -> f i = g i) -> csum n f = csum n g.
Proof.
  induction n as [|n IH]; intros H; [done|]. cbn [csum].
  rewrite IH by (intros; apply H; lia). by rewrite H by lia.
Qed.
Lemma csum_zero n f : (forall i, (i < n)%nat -> f i = (0, 0)) -> csum n f = (0, 0).
Proof.
  intros H. induction n as [|n IH]; [done|]. cbn [csum].
  rewrite IH by (intros; apply H; lia). rewrite H by lia. apply cadd_0_l.
Qed.
Lemma csum_add n f g : csum n (fun i => cadd (f i) (g i)) = cadd (csum n f) (csum n g).
Proof. induction n as [|n IH]; cbn [csum]; [cring|]. rewrite IH. destruct (csum n f), (csum n g), (f n), (g n). cring. Qed.
Lemma csum_mul_l n a f : csum n (fun i => cmul a (f i)) = cmul a (csum n f).
Proof. induction n as [|n IH]; cbn [csum]; [by rewrite cmul_0_r|]. by rewrite IH, cmul_add_r. Qed.
Lemma csum_mul_r n a f : csum n (fun i => cmul (f i) a) = cmul (csum n f) a.
Proof.
  rewrite (cmul_comm (csum n f) a), <- csum_mul_l. apply csum_ext. intros. apply cmul_comm.
Qed.
Lemma csum_conj n f : conj (csum n f) = csum n (fun i => conj (f i)).
Proof. induction n as [|n IH]; cbn [csum]; [cring|]. by rewrite conj_add, IH. Qed.
Lemma csum_app n m f : csum (n + m) f = cadd (csum n f) (csum m (fun i => f (n + i)%nat)).
Proof.
  induction m as [|m IH]; [by rewrite Nat.add_0_r; cbn [csum]; rewrite cadd_0_r|].
  rewrite Nat.add_succ_r. cbn [csum]. by rewrite IH, cadd_assoc.
Qed.
Lemma csum_split n f : csum (2 * n) f = cadd (csum n (fun t => f (2 * t)%nat)) (csum n (fun t => f (2 * t + 1)%nat)).
Proof.
  induction n as [|n IH]; [cbn; cring|].
  replace (2 * S n)%nat with (S (S (2 * n))) by lia. cbn [csum]. rewrite IH.
  replace (S (2 * n)) with (2 * n + 1)%nat by lia.
  generalize (f (2 * n)%nat), (f (2 * n + 1)%nat), (csum n (fun t => f (2 * t)%nat)), (csum n (fun t => f (2 * t + 1)%nat)).
  intros [] [] [] []. cring.
Qed.
Lemma csum_head n f : csum (S n) f = cadd (f 0%nat) (csum n (fun i => f (S i))).
Proof.
  induction n as [|n IH]; [cbn [csum]; by rewrite cadd_0_l, cadd_0_r|].
  cbn [csum] in *. rewrite IH. by rewrite cadd_assoc.
Qed.
Lemma csum_rev n f : csum n f = csum n (fun i => f (n - 1 - i)%nat).
Proof.
  revert f. induction n as [|n IH]; intros f; [done|].
  rewrite (csum_head n (fun i => f (S n - 1 - i)%nat)). cbn [csum].
  rewrite (IH f), cadd_comm. f_equal; [f_equal; lia|]. apply csum_ext. intros i Hi. f_equal. lia.
Qed.
Lemma csum_swap n m f : csum n (fun i => csum m (f i)) = csum m (fun j => csum n (fun i => f i j)).
Proof.
  induction n as [|n IH]; cbn [csum]; [by rewrite csum_zero|].
  rewrite IH, <- csum_add. done.
Qed.
Lemma csum_single n (k : nat) a : (k < n)%nat -> csum n (fun i => if decide (i = k) then a else (0, 0)) = a.
Proof.
  induction n as [|n IH]; [lia|]. intros H. cbn [csum]. destruct (decide (n = k)) as [->|N].
  - rewrite csum_zero; [apply cadd_0_l|]. intros i Hi. rewrite decide_False by lia. done.
  - rewrite IH by lia. apply cadd_0_r.
Qed.
