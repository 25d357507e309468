(** Arithmetic and checked list access shared by the models. *)
From stdpp Require Import prelude.
From Coq Require Import ZArith QArith Qround Qabs Lia Lqa.
Local Open Scope Z_scope.

(** C [lrint] in the default rounding mode: nearest, ties to even. *)
Definition rint (q : Q) : Z :=
  let f := Qfloor q in
  match Qcompare (q - inject_Z f) (1 # 2) with
  | Lt => f
  | Gt => f + 1
  | Eq => if Z.even f then f else f + 1
  end.
(** C [round]: nearest, ties away from zero. *)
Definition cround (q : Q) : Z :=
  if Qlt_le_dec q 0 then - Qfloor (- q + (1 # 2)) else Qfloor (q + (1 # 2)).
(** C [ceil]. *)
Definition cceil (q : Q) : Z := Qceiling q.
Definition ltQ (a b : Q) : bool := negb (Qle_bool b a).

Definition zlen {A} (l : list A) : Z := Z.of_nat (length l).
(** Array read; [None] is an out-of-bounds access. *)
Definition getZ {A} (l : list A) (i : Z) : option A :=
  if 0 <=? i then l !! Z.to_nat i else None.
(** Array write; [None] is an out-of-bounds access. *)
Definition setZ {A} (l : list A) (i : Z) (x : A) : option (list A) :=
  if (0 <=? i) && (i <? zlen l) then Some (<[Z.to_nat i := x]> l) else None.
Definition sumZ (l : list Z) : Z := foldr Z.add 0 l.

Lemma ltQ_true a b : ltQ a b = true <-> (a < b)%Q.
Proof.
  unfold ltQ. rewrite negb_true_iff. split.
  - intros H. apply Qnot_le_lt. intros H2. apply Qle_bool_iff in H2. congruence.
  - intros H. destruct (Qle_bool b a) eqn:E; [|done]. apply Qle_bool_iff in E. lra.
Qed.
Lemma ltQ_false a b : ltQ a b = false <-> (b <= a)%Q.
Proof. unfold ltQ. rewrite negb_false_iff. apply Qle_bool_iff. Qed.
Lemma floor_bounds q : (inject_Z (Qfloor q) <= q)%Q /\ (q < inject_Z (Qfloor q) + 1)%Q.
Proof. split; [apply Qfloor_le|]. generalize (Qlt_floor q). rewrite inject_Z_plus. done. Qed.
Lemma inject_Z_inj_le a b : (inject_Z a <= inject_Z b)%Q <-> a <= b.
Proof. by rewrite <- Zle_Qle. Qed.
Lemma inject_Z_inj_lt a b : (inject_Z a < inject_Z b)%Q <-> a < b.
Proof. by rewrite <- Zlt_Qlt. Qed.

Lemma rint_near q : (inject_Z (rint q) - (1 # 2) <= q)%Q /\ (q <= inject_Z (rint q) + (1 # 2))%Q.
Proof.
  unfold rint. destruct (floor_bounds q) as [H1 H2].
  destruct (Qcompare_spec (q - inject_Z (Qfloor q)) (1 # 2)) as [E|E|E];
    [destruct (Z.even _)|..]; rewrite ?inject_Z_plus; split; try lra;
    change (inject_Z 1) with 1%Q; lra.
Qed.
Lemma cround_near q : (inject_Z (cround q) - (1 # 2) <= q)%Q /\ (q <= inject_Z (cround q) + (1 # 2))%Q.
Proof.
  unfold cround. destruct (Qlt_le_dec q 0).
  - destruct (floor_bounds (- q + (1 # 2))). rewrite inject_Z_opp. split; lra.
  - destruct (floor_bounds (q + (1 # 2))). split; lra.
Qed.
Lemma cround_upper q : (0 <= q)%Q -> (q < inject_Z (cround q) + (1 # 2))%Q.
Proof.
  intros H. unfold cround. destruct (Qlt_le_dec q 0); [lra|]. destruct (floor_bounds (q + (1 # 2))). lra.
Qed.
Lemma cround_lower q : (q < 0)%Q -> (inject_Z (cround q) - (1 # 2) < q)%Q.
Proof.
  intros H. unfold cround. destruct (Qlt_le_dec q 0); [|lra].
  destruct (floor_bounds (- q + (1 # 2))). rewrite inject_Z_opp. lra.
Qed.
Lemma Q_lt_Z a b : (inject_Z a < inject_Z b + 1)%Q -> a <= b.
Proof. intros H. change 1%Q with (inject_Z 1) in H. rewrite <- inject_Z_plus, inject_Z_inj_lt in H. lia. Qed.
Lemma rint_le a b : (a <= b)%Q -> rint a <= rint b.
Proof.
  intros H. destruct (Qlt_le_dec b (inject_Z (rint b) + (1 # 2))) as [Hb|Hb].
  { destruct (rint_near a). apply Q_lt_Z. lra. }
  destruct (Qlt_le_dec a b) as [Hab|Hab].
  { destruct (rint_near a), (rint_near b). apply Q_lt_Z. lra. }
  unfold rint. assert (E : (a == b)%Q) by lra. rewrite (Qfloor_comp _ _ E).
  assert (E2 : Qcompare (a - inject_Z (Qfloor b)) (1 # 2) = Qcompare (b - inject_Z (Qfloor b)) (1 # 2)).
  { apply Qcompare_comp; [|reflexivity]. by rewrite E. }
  rewrite E2. lia.
Qed.
Lemma rint_comp a b : (a == b)%Q -> rint a = rint b.
Proof. intros H. apply Z.le_antisymm; apply rint_le; lra. Qed.
Lemma rint_Z z : rint (inject_Z z) = z.
Proof. destruct (rint_near (inject_Z z)). apply Z.le_antisymm; apply Q_lt_Z; lra. Qed.
Lemma rint_nonneg q : (0 <= q)%Q -> 0 <= rint q.
Proof. intros H. change 0 with (rint (inject_Z 0)). by apply rint_le. Qed.
Lemma cround_nonneg q : (- (1 # 2) < q)%Q -> 0 <= cround q.
Proof. intros H. destruct (cround_near q). apply Q_lt_Z. change (inject_Z 0) with 0%Q. lra. Qed.
Lemma ceil_bounds q : (q <= inject_Z (cceil q))%Q /\ (inject_Z (cceil q) < q + 1)%Q.
Proof.
  unfold cceil, Qceiling. rewrite inject_Z_opp. destruct (floor_bounds (- q)). split; lra.
Qed.

Lemma zlen_nonneg {A} (l : list A) : 0 <= zlen l.
Proof. unfold zlen. lia. Qed.
Lemma zlen_nil {A} : zlen (@nil A) = 0.
Proof. done. Qed.
Lemma zlen_cons {A} (x : A) l : zlen (x :: l) = 1 + zlen l.
Proof. unfold zlen. cbn [length]. lia. Qed.
Lemma zlen_app {A} (l k : list A) : zlen (l ++ k) = zlen l + zlen k.
Proof. unfold zlen. rewrite app_length. lia. Qed.
Lemma zlen_fmap {A B} (f : A -> B) l : zlen (f <$> l) = zlen l.
Proof. unfold zlen. by rewrite fmap_length. Qed.
Lemma getZ_some {A} (l : list A) i x : getZ l i = Some x -> 0 <= i < zlen l.
Proof.
  unfold getZ. destruct (Z.leb_spec 0 i); [|done]. intros E. apply lookup_lt_Some in E. unfold zlen. lia.
Qed.
Lemma getZ_is {A} (l : list A) i : 0 <= i < zlen l -> exists x, getZ l i = Some x.
Proof.
  intros H. unfold getZ. destruct (Z.leb_spec 0 i); [|lia].
  destruct (lookup_lt_is_Some_2 l (Z.to_nat i)) as [x Hx]; [unfold zlen in H; lia|]. eauto.
Qed.
Lemma sumZ_app l k : sumZ (l ++ k) = sumZ l + sumZ k.
Proof. unfold sumZ. induction l as [|x l IH]; cbn [foldr app]; lia. Qed.
