(** Folding into the transform buffer and back: index by index. *)
From stdpp Require Import prelude.
From Coq Require Import ZArith Lia.
From Verif Require Import Base.Arith Folding.Model Folding.Spec.
From stdpp Require Import list.
Local Open Scope Z_scope.

Section Proofs.
Context {A : Type} (zero : A) (add mul : A -> A -> A).
Implicit Types x t : list A.

Lemma getZ_at x i : 0 <= i -> getZ x i = x !! Z.to_nat i.
Proof. intros H. unfold getZ. by rewrite (proj2 (Z.leb_le 0 i)). Qed.
Lemma put_some x i v : 0 <= i < zlen x -> put x i v = Some (<[Z.to_nat i := v]> x).
Proof. intros H. unfold put. by rewrite (proj2 (Z.leb_le 0 i)), (proj2 (Z.ltb_lt i _)) by lia. Qed.
Lemma getZ_ext x y : zlen x = zlen y -> (forall i, 0 <= i < zlen x -> getZ x i = getZ y i) -> x = y.
Proof.
  intros Hl H. apply list_eq. intros i. unfold zlen in *. destruct (decide (i < length x)%nat) as [Hi|Hi].
  - specialize (H (Z.of_nat i) ltac:(lia)). rewrite !getZ_at, !Nat2Z.id in H by lia. done.
  - rewrite !lookup_ge_None_2 by lia. done.
Qed.

Lemma next_mod size j p : 0 < size -> j = p mod size -> (if j + 1 =? size then 0 else j + 1) = (p + 1) mod size.
Proof.
  intros Hs ->. pose proof (Z.mod_pos_bound p size Hs). rewrite Z.add_mod by lia. destruct (Z.eqb_spec (p mod size + 1) size) as [E|E].
  - destruct (decide (size = 1)) as [->|]; [rewrite !Z.mod_1_r; done|]. rewrite (Z.mod_small 1) by lia. by rewrite E, Z.mod_same by lia.
  - rewrite (Z.mod_small 1) by lia. by rewrite (Z.mod_small (p mod size + 1)) by lia.
Qed.
Lemma lift_mod size : 0 < size -> forall fuel j, - Z.of_nat fuel < j -> j < size -> lift (S fuel) j size = Some (j mod size).
Proof.
  intros Hs. induction fuel as [|f IH]; intros j Hj Hj2; cbn [lift]; destruct (Z.ltb_spec j 0); try lia.
  - by rewrite Z.mod_small by lia.
  - change (lift (S f) (j + size) size = Some (j mod size)). rewrite IH by lia. f_equal. rewrite <- (Z_mod_plus_full j 1 size). f_equal. lia.
  - by rewrite Z.mod_small by lia.
Qed.

(** ** Folding in *)
Definition landingFrom (size p : Z) x (k : Z) : list A :=
  omap (fun q : nat * A => if (p + Z.of_nat (fst q)) mod size =? k then Some (snd q) else None) (imap pair x).
Lemma omap_cons' {B} (f : B -> option A) b l : omap f (b :: l) = match f b with Some y => y :: omap f l | None => omap f l end.
Proof. done. Qed.
Lemma landingFrom_cons size p a x k : landingFrom size p (a :: x) k =
  (if p mod size =? k then [a] else []) ++ landingFrom size (p + 1) x k.
Proof.
  unfold landingFrom. cbn [imap]. change (imap (fun i a => (i, a)) x) with (imap pair x).
  assert (E : omap (fun q : nat * A => if (p + Z.of_nat (fst q)) mod size =? k then Some (snd q) else None) (imap (pair ∘ S) x) =
    omap (fun q : nat * A => if (p + 1 + Z.of_nat (fst q)) mod size =? k then Some (snd q) else None) (imap pair x)).
  { assert (G : forall n, omap (fun q : nat * A => if (p + Z.of_nat (fst q)) mod size =? k then Some (snd q) else None) (imap (fun i => pair (n + S i)%nat) x) =
      omap (fun q : nat * A => if (p + 1 + Z.of_nat (fst q)) mod size =? k then Some (snd q) else None) (imap (fun i => pair (n + i)%nat) x)).
    { induction x as [|b x IH]; intros n; [done|]. cbn [imap]. rewrite !omap_cons'. cbn [fst snd].
      replace (p + Z.of_nat (n + 1)) with (p + 1 + Z.of_nat (n + 0)) by lia. specialize (IH (S n)).
      assert (E1 : imap ((fun i => pair (n + S i)%nat) ∘ S) x = imap (fun i => pair (S n + S i)%nat) x) by (apply imap_ext; intros; cbn; f_equal; lia).
      assert (E2 : imap ((fun i => pair (n + i)%nat) ∘ S) x = imap (fun i => pair (S n + i)%nat) x) by (apply imap_ext; intros; cbn; f_equal; lia).
      rewrite E1, E2, IH. done. }
    specialize (G 0%nat). done. }
  rewrite omap_cons'. cbn [fst snd]. rewrite Z.add_0_r, E. by destruct (p mod size =? k).
Qed.
Lemma foldIn_spec size : 0 < size -> forall x p j t, zlen t = size -> j = p mod size ->
  exists t', foldIn add t size j x = Some t' /\ zlen t' = size /\
    forall k, 0 <= k < size -> getZ t' k = (fun v => foldl add v (landingFrom size p x k)) <$> getZ t k.
Proof.
  intros Hs. induction x as [|a x IH]; intros p j t Hl Hj.
  { exists t. split; [done|]. split; [done|]. intros k _. change (landingFrom size p [] k) with (@nil A). by destruct (getZ t k). }
  pose proof (Z.mod_pos_bound p size Hs) as Hb. cbn [foldIn]. destruct (getZ_is t j) as [y Hy]; [lia|]. rewrite Hy. cbn [mbind option_bind].
  rewrite put_some by lia. destruct (IH (p + 1) (if j + 1 =? size then 0 else j + 1) (<[Z.to_nat j:=add y a]> t)) as (t' & E & Hl' & Hv).
  - unfold zlen. by rewrite insert_length.
  - by apply next_mod.
  - exists t'. split; [done|]. split; [done|]. intros k Hk. rewrite Hv by done. rewrite landingFrom_cons. rewrite <- Hj. rewrite !getZ_at in * by lia.
    destruct (Z.eqb_spec j k) as [->|Hne].
    + rewrite list_lookup_insert by (unfold zlen in *; lia). rewrite Hy. done.
    + rewrite list_lookup_insert_ne by lia. by destruct (t !! _).
Qed.
Lemma landing_from size x k : landing size x k = landingFrom size (- (zlen x / 2)) x k.
Proof.
  unfold landing, landingFrom. generalize (imap pair x). intros l. induction l as [|q l IH]; [done|]. rewrite !omap_cons', IH.
  unfold place. by replace (- (zlen x / 2) + Z.of_nat q.1) with (Z.of_nat q.1 - zlen x / 2) by lia.
Qed.

(** ** Halves exchanged *)
Lemma copy_some t d x s n : 0 <= n -> 0 <= s -> s + n <= zlen x -> 0 <= d -> d + n <= zlen t ->
  copy t d x s n = Some (take (Z.to_nat d) t ++ take (Z.to_nat n) (drop (Z.to_nat s) x) ++ drop (Z.to_nat (d + n)) t).
Proof. intros. unfold copy. rewrite !(proj2 (Z.leb_le _ _)) by lia. done. Qed.
Lemma halves t x : zlen t = zlen x -> let hs := zlen t / 2 in
  (u ← copy t 0 x hs hs; copy u hs x 0 hs) =
  Some (take (Z.to_nat hs) (drop (Z.to_nat hs) x) ++ take (Z.to_nat hs) x ++ drop (Z.to_nat (hs + hs)) t).
Proof.
  intros Hl hs. pose proof (zlen_nonneg t). assert (0 <= hs /\ 2 * hs <= zlen t) as [H1 H2] by (subst hs; split; [apply Z.div_pos; lia|apply Z.mul_div_le; lia]).
  rewrite copy_some by lia. cbn [mbind option_bind]. change (take (Z.to_nat 0) t) with (@nil A). rewrite app_nil_l, Z.add_0_l.
  assert (Hn : length (take (Z.to_nat hs) (drop (Z.to_nat hs) x)) = Z.to_nat hs) by (rewrite take_length, drop_length; unfold zlen in *; lia).
  set (b := take (Z.to_nat hs) (drop (Z.to_nat hs) x)) in *.
  rewrite copy_some; [|lia|lia|lia|lia|].
  2: { rewrite zlen_app. unfold zlen in *. rewrite drop_length. lia. }
  rewrite take_app_alt by done. change (drop (Z.to_nat 0) x) with x. do 3 f_equal.
  rewrite skipn_app, (drop_ge b) by lia. rewrite app_nil_l, drop_drop. f_equal. lia.
Qed.
Lemma rotated x i : Z.even (zlen x) = true -> 0 <= i < zlen x ->
  getZ (drop (Z.to_nat (zlen x / 2)) x ++ take (Z.to_nat (zlen x / 2)) x) i = getZ x ((i + zlen x / 2) mod zlen x).
Proof.
  intros He Hi. apply Z.even_spec in He as [q Hq]. assert (E : zlen x / 2 = q) by (rewrite Hq, Z.mul_comm; by apply Z.div_mul). rewrite E.
  assert (0 <= (i + q) mod zlen x < zlen x) by (apply Z.mod_pos_bound; lia). rewrite !getZ_at by lia. unfold zlen in *.
  destruct (Z.ltb_spec i q).
  - rewrite lookup_app_l by (rewrite drop_length; lia). rewrite lookup_drop. rewrite Z.mod_small by lia. f_equal. lia.
  - rewrite lookup_app_r by (rewrite drop_length; lia). rewrite drop_length, lookup_take by lia. f_equal.
    rewrite <- (Z_mod_plus_full (i + q) (-1)), Z.mod_small by lia. lia.
Qed.

(** ** Folding out *)
Lemma foldOut_spec t size : 0 < size -> zlen t = size -> (forall a, add zero a = a) -> forall n p j, j = p mod size ->
  exists y, foldOut zero add t size j n = Some y /\ length y = n /\ forall i, (i < n)%nat -> y !! i = getZ t ((p + Z.of_nat i) mod size).
Proof.
  intros Hs Hl H0. induction n as [|n IH]; intros p j Hj.
  { exists []. split; [done|]. split; [done|]. lia. }
  pose proof (Z.mod_pos_bound p size Hs). cbn [foldOut]. destruct (getZ_is t j) as [y Hy]; [lia|]. rewrite Hy. cbn [mbind option_bind].
  destruct (IH (p + 1) (if j + 1 =? size then 0 else j + 1)) as (r & E & Hr & Hv); [by apply next_mod|]. rewrite E. cbn [mbind option_bind].
  exists (add zero y :: r). split; [done|]. split; [cbn; lia|]. intros [|i] Hi; cbn [lookup list_lookup].
  - rewrite Z.add_0_r, <- Hj, Hy. by rewrite H0.
  - rewrite Hv by lia. do 2 f_equal. lia.
Qed.

(** ** v_fftshift *)
Lemma swaps_spec x hs : 0 <= hs -> 2 * hs <= zlen x -> forall n i t, zlen t = zlen x -> 0 <= i -> i + Z.of_nat n = hs ->
  (forall k, 0 <= k < zlen x -> getZ t k = getZ x (if (k <? i) then k + hs else if (hs <=? k) && (k <? hs + i) then k - hs else k)) ->
  exists t', swaps t hs i n = Some t' /\ zlen t' = zlen x /\
    forall k, 0 <= k < zlen x -> getZ t' k = getZ x (if (k <? hs) then k + hs else if (k <? 2 * hs) then k - hs else k).
Proof.
  intros Hh H2. induction n as [|n IH]; intros i t Hl Hi Hn Ht.
  - exists t. split; [done|]. split; [done|]. intros k Hk. rewrite Ht by done. replace i with hs by lia. f_equal.
    destruct (Z.ltb_spec k hs); [done|]. rewrite (proj2 (Z.leb_le hs k)) by lia. by replace (hs + hs) with (2 * hs) by lia.
  - cbn [swaps]. destruct (getZ_is t i) as [a Ha]; [lia|]. destruct (getZ_is t (i + hs)) as [b Hb]; [lia|]. rewrite Ha, Hb. cbn [mbind option_bind].
    rewrite put_some by lia. cbn [mbind option_bind]. rewrite put_some by (unfold zlen in *; rewrite insert_length; lia). cbn [mbind option_bind].
    apply IH; [unfold zlen in *; by rewrite !insert_length|lia|lia|].
    intros k Hk. pose proof (Ht i ltac:(lia)) as Hti. pose proof (Ht (i + hs) ltac:(lia)) as Htb. pose proof (Ht k Hk) as Htk.
    rewrite Ha in Hti. rewrite Hb in Htb.
    rewrite (proj2 (Z.ltb_ge i i)), (proj2 (Z.leb_gt hs i)) in Hti by lia. cbn [andb] in Hti.
    rewrite (proj2 (Z.ltb_ge (i + hs) i)), (proj2 (Z.ltb_ge (i + hs) (hs + i))) in Htb by lia. rewrite andb_false_r in Htb.
    rewrite getZ_at by lia. unfold zlen in *. destruct (decide (k = i + hs)) as [->|N1].
    + rewrite list_lookup_insert by (rewrite insert_length; lia). rewrite Hti.
      rewrite (proj2 (Z.ltb_ge (i + hs) (i + 1))), (proj2 (Z.leb_le hs (i + hs))), (proj2 (Z.ltb_lt (i + hs) (hs + (i + 1)))) by lia. cbn [andb]. f_equal. lia.
    + rewrite list_lookup_insert_ne by lia. destruct (decide (k = i)) as [->|N2].
      * rewrite list_lookup_insert by lia. rewrite Htb. by rewrite (proj2 (Z.ltb_lt i (i + 1))) by lia.
      * rewrite list_lookup_insert_ne by lia. rewrite <- getZ_at by lia. rewrite Htk. f_equal.
        destruct (Z.ltb_spec k i), (Z.ltb_spec k (i + 1)); try lia.
        destruct (Z.leb_spec hs k); cbn [andb]; [|done]. destruct (Z.ltb_spec k (hs + i)), (Z.ltb_spec k (hs + (i + 1))); try lia; done.
Qed.
Lemma fftshift_spec x : exists t, fftshift x = Some t /\ zlen t = zlen x /\
  forall k, 0 <= k < zlen x -> getZ t k = getZ x (let hs := zlen x / 2 in if k <? hs then k + hs else if k <? 2 * hs then k - hs else k).
Proof.
  pose proof (zlen_nonneg x). unfold fftshift. apply swaps_spec; try done; try lia.
  - apply Z.div_pos; lia.
  - apply Z.mul_div_le; lia.
  - rewrite Z2Nat.id; [lia|]. apply Z.div_pos; lia.
  - intros k Hk. rewrite (proj2 (Z.ltb_ge k 0)) by lia. destruct (Z.leb_spec (zlen x / 2) k); [|done]. cbn [andb]. by rewrite (proj2 (Z.ltb_ge k _)) by lia.
Qed.
End Proofs.
