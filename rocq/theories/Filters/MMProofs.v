From stdpp Require Import base list numbers sorting.
From Coq Require Import ZArith QArith Qround Lia ZifyNat ZifyBool.
From Verif.RingBuffer Require Import Model Proofs.
From Verif.Filters Require Import Model Spec.
Local Close Scope Q_scope.
Local Open Scope nat_scope.

(** ** SingleThreadRingBuffer *)
Section strb.
Context {T : Type}.
Implicit Types b : ring T.

Lemma st_new_wf (z : T) n : wf (st_new z n).
Proof. unfold wf, st_new; cbn. rewrite replicate_length. lia. Qed.
Lemma st_new_contents (z : T) n : contents (st_new z n) = [].
Proof. done. Qed.

Lemma st_readOne_spec z b : wf b ->
  exists b', st_readOne z b = Some (b', default z (head (contents b))) /\ wf b' /\
    size b' = size b /\ contents b' = drop 1 (contents b).
Proof. exact (readOne_spec z b). Qed.

Lemma st_writeOne_spec b x : wf b -> st_readSpace b < size b - 1 ->
  exists b', st_writeOne b x = Some (b', 1) /\ wf b' /\ size b' = size b /\
    contents b' = contents b ++ [x].
Proof.
  intros H Hs. pose proof (writeSpace_eq b H) as Hw. unfold getWriteSpace, getSize in Hw.
  change (getReadSpace b) with (st_readSpace b) in Hw.
  destruct (append_spec b [x] H) as (buf' & w' & Hc & Hwr & Hwf & Hct & _).
  { cbn. unfold getWriteSpace. lia. }
  unfold st_writeOne, st_writeSpace. rewrite decide_False by lia.
  destruct H as (Hl & Hlw & Hlr). rewrite decide_True by lia.
  eexists; split; [done|].
  assert (buf' = <[writer b := x]> (buf b)) as <-.
  { unfold copy_in in Hc. cbn [length] in Hc. rewrite decide_True in Hc by lia.
    rewrite store_ok in Hc by (cbn; lia). injection Hc as <-.
    rewrite insert_take_drop by lia. cbn. by rewrite Nat.add_1_r. }
  cbn [length] in Hwr. rewrite wrap_once in Hwr by lia.
  assert (w' = if decide (writer b + 1 = size b) then 0 else writer b + 1) as <-.
  { injection Hwr as <-. repeat case_decide; lia. }
  done.
Qed.

Lemma st_reset_spec b : wf b -> wf (st_reset b) /\ contents (st_reset b) = [].
Proof. exact (reset_spec b). Qed.
End strb.

(** ** Sorting facts *)
Notation ss := (Sorted.StronglySorted Z.le).

Lemma ss_app l1 l2 : ss (l1 ++ l2) <->
  ss l1 /\ ss l2 /\ (forall x y, x ∈ l1 -> y ∈ l2 -> (x <= y)%Z).
Proof.
  induction l1 as [|a l1 IH]; cbn.
  - split; [intros H; split_and!; auto using Sorted.StronglySorted|tauto].
    intros x y Hx. by apply elem_of_nil in Hx.
  - split.
    + intros H. inversion H as [|? ? H1 H2]; subst. apply IH in H1 as (A&B&C).
      apply Forall_app in H2 as [H2 H3]. split_and!; auto.
      * by constructor.
      * intros x y Hx Hy. apply elem_of_cons in Hx as [->|Hx]; [|auto].
        rewrite Forall_forall in H3. auto.
    + intros (A&B&C). inversion A as [|? ? A1 A2]; subst. constructor.
      * apply IH. split_and!; auto. intros x y Hx. apply C. by apply elem_of_cons; right.
      * apply Forall_app; split; [done|]. apply Forall_forall. intros y Hy. apply C; [|done].
        apply elem_of_cons. by left.
Qed.

Lemma ss_cons a l : ss (a :: l) <-> ss l /\ (forall y, y ∈ l -> (a <= y)%Z).
Proof.
  change (a :: l) with ([a] ++ l). rewrite ss_app. split.
  - intros (_&B&C). split; [done|]. intros y. apply C. by apply elem_of_list_singleton.
  - intros (B&C). split_and!; auto.
    + repeat constructor.
    + intros x y Hx. apply elem_of_list_singleton in Hx as ->. auto.
Qed.

Lemma filter_perm (P : Z -> bool) l l' : l ≡ₚ l' -> count P l = count P l'.
Proof.
  intros H. unfold count. induction H as [|x l l' _ IH|x y l|l l1 l2 _ IH1 _ IH2]; cbn; auto.
  - destruct (P x); cbn; lia.
  - destruct (P x), (P y); done.
  - lia.
Qed.

Lemma kth_perm l l' k v : l ≡ₚ l' -> kth_smallest l k v -> kth_smallest l' k v.
Proof.
  intros H (A&B&C). unfold kth_smallest. rewrite <- !(filter_perm _ l l' H).
  split_and!; auto. by rewrite <- H.
Qed.

Lemma count_app P l1 l2 : count P (l1 ++ l2) = count P l1 + count P l2.
Proof.
  unfold count. induction l1 as [|a l1 IH]; cbn; [done|].
  destruct (P a); cbn; lia.
Qed.
Lemma count_le P l : count P l <= length l.
Proof. unfold count. induction l as [|a l IH]; cbn; [done|]. destruct (P a); cbn; lia. Qed.
Lemma count_none P l : (forall x, x ∈ l -> P x = false) -> count P l = 0.
Proof.
  unfold count. induction l as [|a l IH]; cbn; [done|]. intros H.
  rewrite (H a) by (apply elem_of_cons; by left). apply IH. intros x Hx. apply H.
  apply elem_of_cons; by right.
Qed.
Lemma count_all P l : (forall x, x ∈ l -> P x = true) -> count P l = length l.
Proof.
  unfold count. induction l as [|a l IH]; cbn; [done|]. intros H.
  rewrite (H a) by (apply elem_of_cons; by left). cbn. f_equal. apply IH. intros x Hx. apply H.
  apply elem_of_cons; by right.
Qed.

Lemma ss_kth l k v : ss l -> l !! k = Some v -> kth_smallest l k v.
Proof.
  intros Hs Hk. split_and!; [by eapply elem_of_list_lookup_2| |].
  all: rewrite <- (take_drop_middle l k v Hk) in Hs |- *;
    apply ss_app in Hs as (A&B&C); apply ss_cons in B as [B1 B2].
  all: assert (Hl : length (take k l) = k) by
      (rewrite take_length; apply lookup_lt_Some in Hk; lia).
  - rewrite count_app. rewrite (count_none _ (v :: _)).
    + pose proof (count_le (fun x => (x <? v)%Z) (take k l)). lia.
    + intros x Hx. apply elem_of_cons in Hx as [->|Hx]; [lia|]. specialize (B2 x Hx). lia.
  - rewrite count_app. rewrite count_all.
    + unfold count. cbn. rewrite Z.leb_refl. cbn. lia.
    + intros x Hx. specialize (C x v Hx). rewrite elem_of_cons in C. specialize (C (or_introl eq_refl)). lia.
Qed.

(** A rank is attained by only one value, so the specification is exact. *)
Lemma kth_unique l k v w : kth_smallest l k v -> kth_smallest l k w -> v = w.
Proof.
  intros (_&A&B) (_&C&D).
  assert (Hmono : forall a b, (a < b)%Z ->
     count (fun x => Z.leb x a) l <= count (fun x => Z.ltb x b) l).
  { clear. intros a b Hab. unfold count. induction l as [|x l' IH]; cbn; [done|].
    destruct (Z.leb_spec x a), (Z.ltb_spec x b); cbn; try lia. }
  destruct (Z.lt_trichotomy v w) as [H|[H|H]]; [|done|].
  - specialize (Hmono _ _ H). lia.
  - specialize (Hmono _ _ H). lia.
Qed.

(** ** MovingMedian *)
Section mm.
Context {T : Type} (key : T -> Z) (isnan : T -> bool) (zero : T).
Local Notation K := (map key).
Local Notation mm_push := (mm_push key isnan zero).
Local Notation mm_drop := (mm_drop key zero).

Lemma elem_K x (l : list T) : x ∈ l -> key x ∈ K l.
Proof. apply elem_of_list_fmap_1. Qed.
Lemma elem_K_inv k (l : list T) : k ∈ K l -> exists x, x ∈ l /\ key x = k.
Proof. intros H. apply elem_of_list_fmap in H as (x & -> & Hx). eauto. Qed.

Lemma lower_bound_split (l : list T) x :
  exists l1 l2, l = l1 ++ l2 /\ length l1 = lower_bound_from key l x /\
    (forall y, y ∈ l1 -> (key y < key x)%Z) /\
    (forall y, head l2 = Some y -> (key x <= key y)%Z).
Proof.
  induction l as [|a l (l1 & l2 & -> & Hl & H1 & H2)]; cbn.
  - exists [], []. split_and!; auto; try done. intros y Hy. by apply elem_of_nil in Hy.
  - destruct (Z.ltb_spec (key a) (key x)).
    + exists (a :: l1), l2. split_and!; auto; [cbn; lia|].
      intros y Hy. apply elem_of_cons in Hy as [->|Hy]; auto.
    + exists [], (a :: l1 ++ l2). split_and!; auto.
      * intros y Hy. by apply elem_of_nil in Hy.
      * intros y [= ->]. done.
Qed.

Lemma lower_bound_found (l : list T) x : ss (K l) -> key x ∈ K l ->
  exists l1 y l2, l = l1 ++ y :: l2 /\ length l1 = lower_bound_from key l x /\ key y = key x.
Proof.
  intros Hs Hx. destruct (lower_bound_split l x) as (l1 & l2 & -> & Hl & H1 & H2).
  rewrite map_app in Hs, Hx. apply ss_app in Hs as (_&Hs&_).
  apply elem_of_app in Hx as [Hx|Hx].
  { apply elem_K_inv in Hx as (y & Hy & He). specialize (H1 y Hy). lia. }
  destruct l2 as [|y l2]; [by apply elem_of_nil in Hx|].
  exists l1, y, l2. split_and!; auto. specialize (H2 y eq_refl).
  cbn in Hs, Hx. apply ss_cons in Hs as [_ Hs].
  apply elem_of_cons in Hx as [Hx|Hx]; [lia|]. specialize (Hs _ Hx). lia.
Qed.

Lemma set_at_app (pre : list T) h tl x :
  set_at (pre ++ h :: tl) (length pre) x = Some (pre ++ x :: tl).
Proof.
  unfold set_at. rewrite decide_True by (rewrite app_length; cbn; lia).
  f_equal. rewrite <- (Nat.add_0_r (length pre)). by rewrite insert_app_r.
Qed.

Lemma up_loop_spec toPut (tl : list T) : forall l pre h k n,
  n = length pre + 1 + length l -> length l <= k ->
  exists l1 l2, l = l1 ++ l2 /\
    up_loop key k (pre ++ h :: l ++ tl) (length pre) n toPut = Some (pre ++ l1 ++ toPut :: l2 ++ tl) /\
    (forall y, y ∈ l1 -> (key y <= key toPut)%Z) /\
    (forall y, head l2 = Some y -> (key toPut < key y)%Z).
Proof.
  induction l as [|y l IH]; intros pre h k n Hn Hk.
  - exists [], []. split_and!; auto; try done.
    + destruct k; cbn -[Nat.add]; (rewrite decide_False by (cbn in *; lia)); apply set_at_app.
    + intros y Hy. by apply elem_of_nil in Hy.
  - assert (Hlk : (pre ++ h :: y :: l ++ tl) !! (length pre + 1) = Some y).
    { rewrite lookup_app_r by lia. by replace (length pre + 1 - length pre) with 1 by lia. }
    cbn [length app] in *. destruct k as [|k]; [lia|]. cbn [up_loop].
    rewrite decide_True by lia. rewrite Hlk. cbn [mbind option_bind].
    destruct (Z.ltb_spec (key toPut) (key y)).
    + exists [], (y :: l). split_and!; auto.
      * by rewrite set_at_app.
      * intros z Hz. by apply elem_of_nil in Hz.
      * intros z [= ->]. done.
    + rewrite set_at_app. cbn [mbind option_bind].
      destruct (IH (pre ++ [y]) y k n) as (l1 & l2 & -> & Hu & H1 & H2).
      { rewrite app_length. cbn. lia. } { lia. }
      exists (y :: l1), l2. split_and!; auto.
      * replace (length pre + 1) with (length (pre ++ [y])) by (rewrite app_length; done).
        rewrite <- app_assoc in Hu. cbn [app] in Hu. rewrite Hu. by rewrite <- app_assoc.
      * intros z Hz. apply elem_of_cons in Hz as [->|Hz]; auto. 
Qed.

Lemma down_loop_spec toPut : forall (l : list T) h tl,
  exists l1 l2, l = l1 ++ l2 /\
    down_loop key (l ++ h :: tl) (length l) toPut = Some (l1 ++ toPut :: l2 ++ tl) /\
    (forall y, y ∈ l2 -> (key toPut <= key y)%Z) /\
    (forall y, last l1 = Some y -> (key y < key toPut)%Z).
Proof.
  induction l as [|y l IH] using rev_ind; intros h tl.
  - exists [], []. split_and!; auto; try done. intros y Hy. by apply elem_of_nil in Hy.
  - rewrite app_length. cbn [length]. rewrite Nat.add_1_r. cbn [down_loop].
    assert (Hlk : ((l ++ [y]) ++ h :: tl) !! length l = Some y).
    { rewrite <- app_assoc. rewrite lookup_app_r by lia. by rewrite Nat.sub_diag. }
    rewrite Hlk. cbn [mbind option_bind].
    destruct (Z.ltb_spec (key y) (key toPut)).
    + exists (l ++ [y]), []. split_and!.
      * by rewrite app_nil_r.
      * replace (S (length l)) with (length (l ++ [y])) by (rewrite app_length; cbn; lia).
        by rewrite set_at_app.
      * intros z Hz. by apply elem_of_nil in Hz.
      * rewrite last_snoc. intros z [= ->]. done.
    + replace (S (length l)) with (length (l ++ [y])) by (rewrite app_length; cbn; lia).
      rewrite set_at_app. cbn [mbind option_bind].
      destruct (IH y (y :: tl)) as (l1 & l2 & -> & Hd & H1 & H2).
      exists l1, (l2 ++ [y]). split_and!; auto.
      * by rewrite app_assoc.
      * replace (((l1 ++ l2) ++ [y]) ++ y :: tl) with ((l1 ++ l2) ++ y :: y :: tl)
          by (by rewrite <- (app_assoc _ [y])).
        rewrite Hd. by rewrite <- (app_assoc l2 [y]).
      * intros z Hz. apply elem_of_app in Hz as [Hz|Hz]; auto.
        apply elem_of_list_singleton in Hz as ->. done.
Qed.

Lemma ss_K_app (l1 l2 : list T) : ss (K (l1 ++ l2)) <->
  ss (K l1) /\ ss (K l2) /\ (forall x y, x ∈ l1 -> y ∈ l2 -> (key x <= key y)%Z).
Proof.
  rewrite map_app, ss_app. split; intros (A&B&C); split_and!; auto.
  - intros x y Hx Hy. apply C; by apply elem_K.
  - intros x y Hx Hy. apply elem_K_inv in Hx as (x' & Hx & <-). apply elem_K_inv in Hy as (y' & Hy & <-). auto.
Qed.
Lemma ss_K_cons a (l : list T) : ss (K (a :: l)) <->
  ss (K l) /\ (forall y, y ∈ l -> (key a <= key y)%Z).
Proof.
  cbn. rewrite ss_cons. split; intros (A&B); split; auto.
  - intros y Hy. apply B. by apply elem_K.
  - intros y Hy. apply elem_K_inv in Hy as (y' & Hy & <-). auto.
Qed.

(** Inserting [x] at a partition point of a sorted list keeps it sorted. *)
Lemma ss_insert (l1 l2 : list T) x : ss (K (l1 ++ l2)) ->
  (forall y, y ∈ l1 -> (key y <= key x)%Z) -> (forall y, y ∈ l2 -> (key x <= key y)%Z) ->
  ss (K (l1 ++ x :: l2)).
Proof.
  intros H H1 H2. apply ss_K_app in H as (A&B&C). apply ss_K_app. split_and!; auto.
  - apply ss_K_cons. auto.
  - intros a b Ha Hb. apply elem_of_cons in Hb as [->|Hb]; auto.
Qed.
Lemma ss_head_all (l : list T) (P : Z -> Prop) : ss (K l) ->
  (forall a b, P a -> (a <= b)%Z -> P b) ->
  (forall y, head l = Some y -> P (key y)) -> forall y, y ∈ l -> P (key y).
Proof.
  intros Hs HP Hh y Hy. destruct l as [|a l]; [by apply elem_of_nil in Hy|].
  apply ss_K_cons in Hs as [_ Hs]. specialize (Hh a eq_refl).
  apply elem_of_cons in Hy as [->|Hy]; eauto.
Qed.
Lemma ss_last_all (l : list T) (P : Z -> Prop) : ss (K l) ->
  (forall a b, P b -> (a <= b)%Z -> P a) ->
  (forall y, last l = Some y -> P (key y)) -> forall y, y ∈ l -> P (key y).
Proof.
  intros Hs HP Hh y Hy. destruct l as [|a l _] using rev_ind; [by apply elem_of_nil in Hy|].
  apply ss_K_app in Hs as (_&_&Hs). rewrite last_snoc in Hh. specialize (Hh a eq_refl).
  apply elem_of_app in Hy as [Hy|Hy].
  - eapply HP; [exact Hh|]. apply Hs; [done|]. by apply elem_of_list_singleton.
  - apply elem_of_list_singleton in Hy as ->. done.
Qed.

(** [s] holds the sorted keys [ks] in its first [n] places. *)
Definition holds (s : list T) (n : nat) (ks : list Z) : Prop :=
  exists l tl, s = l ++ tl /\ length l = n /\ ss (K l) /\ K l ≡ₚ ks.

Lemma dropAndPut_spec s n d p ks : holds s n (key d :: ks) ->
  exists s', dropAndPut key s n d p = Some s' /\ length s' = length s /\ holds s' n (key p :: ks).
Proof.
  intros (l & tl & -> & Hln & Hs & Hp).
  assert (Hd : key d ∈ K l) by (rewrite Hp; by apply elem_of_cons; left).
  destruct l as [|a l0] eqn:El; [by apply elem_of_nil in Hd|]. rewrite <- El in *.
  unfold dropAndPut.
  assert (Hf : (l ++ tl) !! 0 = Some a) by (subst l; done). rewrite Hf. cbn [mbind option_bind].
  assert (exists l1 y l2, l = l1 ++ y :: l2 /\ key y = key d /\
    (if (key d <=? key a)%Z then Some 0 else lower_bound key (l ++ tl) n d) = Some (length l1))
    as (l1 & y & l2 & E & Hy & ->).
  { destruct (Z.leb_spec (key d) (key a)).
    - exists [], a, l0. split_and!; auto. subst l. apply ss_K_cons in Hs as [_ Hs].
      apply elem_K_inv in Hd as (z & Hz & He). apply elem_of_cons in Hz as [->|Hz]; [done|].
      specialize (Hs z Hz). lia.
    - destruct (lower_bound_found l d Hs Hd) as (l1 & y & l2 & E & Hl & Hy).
      exists l1, y, l2. split_and!; auto. unfold lower_bound.
      rewrite decide_True by (rewrite app_length; lia).
      rewrite take_app_alt by done. by rewrite Hl. }
  clear a l0 El Hf Hd. cbn [mbind option_bind].
  rewrite E in Hs. apply ss_K_app in Hs as (S1 & S2 & S12).
  apply ss_K_cons in S2 as [S2 Sy2].
  assert (Hs12 : ss (K (l1 ++ l2))).
  { apply ss_K_app. split_and!; auto. intros u v Hu Hv. apply S12; [done|]. by apply elem_of_cons; right. }
  assert (Hp' : K (l1 ++ l2) ≡ₚ ks).
  { apply (Permutation_cons_inv (a := key d)). rewrite <- Hp, E, !map_app. cbn. rewrite Hy.
    by rewrite Permutation_middle. }
  destruct (Z.ltb_spec (key d) (key p)) as [Hlt|Hge].
  - destruct (up_loop_spec p tl l2 l1 y n n) as (m1 & m2 & Em & Hu & Hm1 & Hm2).
    { rewrite <- Hln, E, app_length. cbn. lia. }
    { rewrite <- Hln, E, app_length. cbn. lia. }
    exists (l1 ++ m1 ++ p :: m2 ++ tl). rewrite E, <- app_assoc. cbn [app]. split; [done|].
    split; [subst l2; rewrite !app_length; cbn; rewrite !app_length; cbn; lia|].
    exists ((l1 ++ m1) ++ p :: m2), tl. split_and!.
    + by rewrite <- !app_assoc.
    + rewrite <- Hln, E, Em, !app_length. cbn. rewrite app_length. lia.
    + rewrite Em, app_assoc in Hs12. apply ss_insert; [done| |].
      * intros z Hz. apply elem_of_app in Hz as [Hz|Hz]; [|auto].
        specialize (S12 z y Hz ltac:(apply elem_of_cons; by left)). lia.
      * apply ss_K_app in Hs12 as (_&Hs2&_).
        apply (ss_head_all m2 (fun k => (key p <= k)%Z)); auto; [intros; lia|].
        intros z Hz. specialize (Hm2 z Hz). lia.
    + rewrite <- Hp', Em, app_assoc, map_app. cbn. by rewrite <- Permutation_middle, <- map_app.
  - destruct (Z.ltb_spec (key p) (key d)) as [Hlt|Hge2].
    + destruct (down_loop_spec p l1 y (l2 ++ tl)) as (m1 & m2 & Em & Hu & Hm1 & Hm2).
      exists (m1 ++ p :: m2 ++ l2 ++ tl). rewrite E, <- app_assoc. cbn [app]. split; [done|].
      split; [subst l1; rewrite !app_length; cbn; rewrite !app_length; cbn; lia|].
      exists (m1 ++ p :: (m2 ++ l2)), tl. split_and!.
      * rewrite <- !app_assoc. cbn. by rewrite <- !app_assoc.
      * rewrite <- Hln, E, Em, !app_length. cbn. rewrite !app_length. lia.
      * rewrite Em, <- app_assoc in Hs12. apply ss_insert; [done| |].
        -- apply ss_K_app in Hs12 as (Hs1&_&_).
           apply (ss_last_all m1 (fun k => (k <= key p)%Z)); auto; [intros; lia|].
           intros z Hz. specialize (Hm2 z Hz). lia.
        -- intros z Hz. apply elem_of_app in Hz as [Hz|Hz]; [auto|].
           specialize (Sy2 z Hz). lia.
      * rewrite <- Hp', Em, <- app_assoc, map_app. cbn. by rewrite <- Permutation_middle, <- map_app.
    + exists (l ++ tl). split; [done|]. split; [done|].
      exists l, tl. split_and!; auto.
      * rewrite E. apply ss_K_app. split_and!; auto. apply ss_K_cons. auto.
      * replace (key p) with (key d) by lia. done.
Qed.

Lemma put_spec s n p ks : holds s n ks -> n < length s ->
  exists s', put key s n p = Some (s', n + 1) /\ length s' = length s /\ holds s' (n + 1) (key p :: ks).
Proof.
  intros (l & tl & -> & Hln & Hs & Hp) Hn.
  destruct tl as [|t tl]; [rewrite app_nil_r in Hn; lia|].
  unfold put, lower_bound. rewrite decide_True by lia.
  rewrite take_app_alt by done. cbn [mbind option_bind].
  destruct (lower_bound_split l p) as (l1 & l2 & E & Hl & H1 & H2). rewrite <- Hl.
  assert (Hres : exists t', (if decide (length l1 < n) then
            move (l ++ t :: tl) (length l1 + 1) (length l1) (n - length l1) else Some (l ++ t :: tl))
          = Some (l1 ++ t' :: l2 ++ tl)).
  { case_decide as Hc.
    - destruct l2 as [|u l2]; [rewrite app_nil_r in E; subst l; lia|].
      exists u. unfold move. subst l. rewrite <- Hln in *. rewrite !app_length in *. cbn [length] in *.
      rewrite load_ok by (rewrite !app_length; cbn; lia). cbn [mbind option_bind].
      rewrite <- !app_assoc, drop_app. cbn [app].
      replace (length l1 + S (length l2) - length l1) with (S (length l2)) by lia.
      cbn [take]. rewrite take_app.
      rewrite store_ok by (rewrite !app_length; cbn; rewrite app_length; cbn; lia).
      f_equal. cbn [length]. 
      change (l1 ++ u :: l2 ++ t :: tl) with (l1 ++ [u] ++ l2 ++ t :: tl).
      rewrite !(app_assoc l1 [u]). rewrite take_app_alt by (rewrite app_length; cbn; lia).
      replace (length l1 + 1 + S (length l2)) with (length ((l1 ++ [u]) ++ l2 ++ [t])).
      2: { rewrite !app_length. cbn. lia. }
      replace ((l1 ++ [u]) ++ l2 ++ t :: tl) with (((l1 ++ [u]) ++ l2 ++ [t]) ++ tl).
      2: { by rewrite <- !app_assoc. }
      rewrite drop_app. by rewrite <- !app_assoc.
    - assert (l2 = []) as ->. { destruct l2; [done|]. subst l. rewrite app_length in *. cbn in *. lia. }
      rewrite app_nil_r in E. subst l1. exists t. done. }
  destruct Hres as [t' ->]. cbn [mbind option_bind]. rewrite set_at_app. cbn [mbind option_bind].
  eexists; split; [done|]. split.
  { subst l. rewrite !app_length. cbn. rewrite !app_length. lia. }
  exists (l1 ++ p :: l2), tl. split_and!.
  - by rewrite <- app_assoc.
  - rewrite <- Hln, E, !app_length. cbn. lia.
  - rewrite E in Hs. apply ss_insert; [done| |].
    + intros y Hy. specialize (H1 y Hy). lia.
    + apply ss_K_app in Hs as (_&Hs&_). apply (ss_head_all l2 (fun k => (key p <= k)%Z)); auto. intros; lia.
  - rewrite <- Hp, E, map_app. cbn. by rewrite <- Permutation_middle, <- map_app.
Qed.

Lemma drop_value_spec s n d ks : holds s n (key d :: ks) ->
  exists s', drop_value key s n d = Some (s', n - 1) /\ length s' = length s /\ holds s' (n - 1) ks.
Proof.
  intros (l & tl & -> & Hln & Hs & Hp).
  assert (Hd : key d ∈ K l) by (rewrite Hp; by apply elem_of_cons; left).
  destruct (lower_bound_found l d Hs Hd) as (l1 & y & l2 & E & Hl & Hy).
  unfold drop_value, lower_bound. rewrite decide_True by (rewrite app_length; lia).
  rewrite take_app_alt by done. cbn [mbind option_bind]. rewrite <- Hl.
  assert (Hn : n = length l1 + 1 + length l2). { rewrite <- Hln, E, app_length. cbn. lia. }
  assert (Hres : exists t', (if decide (length l1 + 1 < n) then
            move (l ++ tl) (length l1) (length l1 + 1) (n - length l1 - 1) else Some (l ++ tl))
          = Some (l1 ++ l2 ++ t' :: tl)).
  { case_decide as Hc.
    - exists (default y (last (y :: l2))). unfold move. subst l.
      rewrite load_ok by (rewrite !app_length; cbn; lia). cbn [mbind option_bind].
      replace (n - length l1 - 1) with (length l2) by lia.
      replace ((l1 ++ y :: l2) ++ tl) with ((l1 ++ [y]) ++ l2 ++ tl) by (by rewrite <- !app_assoc).
      rewrite drop_app_alt by (rewrite app_length; cbn; lia). rewrite take_app.
      rewrite store_ok by (rewrite !app_length; cbn; lia). f_equal.
      rewrite <- app_assoc. rewrite take_app. f_equal. f_equal. cbn [app].
      destruct l2 as [|z l2 _] using rev_ind; [cbn in *; lia|].
      change (y :: l2 ++ [z]) with ((y :: l2) ++ [z]). rewrite last_snoc. cbn [default].
      replace (l1 ++ y :: (l2 ++ [z]) ++ tl) with ((l1 ++ y :: l2) ++ [z] ++ tl).
      2: { rewrite <- !app_assoc. by cbn. }
      rewrite drop_app_alt; [done|]. rewrite !app_length. cbn. lia.
    - assert (l2 = []) as -> by (destruct l2; cbn in *; [done|lia]).
      exists y. subst l. by rewrite <- app_assoc. }
  destruct Hres as [t' ->]. cbn [mbind option_bind].
  eexists; split; [done|]. split.
  { subst l. rewrite !app_length. cbn. lia. }
  exists (l1 ++ l2), (t' :: tl). rewrite E in Hs, Hp. apply ss_K_app in Hs as (S1&S2&S12).
  apply ss_K_cons in S2 as [S2 _]. split_and!.
  - by rewrite <- app_assoc.
  - rewrite app_length. lia.
  - apply ss_K_app. split_and!; auto. intros u v Hu Hv. apply S12; [done|]. by apply elem_of_cons; right.
  - apply (Permutation_cons_inv (a := key d)). rewrite <- Hp, !map_app. cbn. rewrite Hy.
    by rewrite Permutation_middle.
Qed.

(** Invariant: the filter [f] of size [n] currently represents window [win]. *)
Definition mm_inv (n : nat) (f : mm T) (win : list T) : Prop :=
  wf (mbuf f) /\ size (mbuf f) = n + 1 /\ contents (mbuf f) = win /\
  length (sortspace f) = n /\ fill f = length win /\ length win <= n /\
  holds (sortspace f) (length win) (K win).

Lemma mm_inv_size n f win : mm_inv n f win -> mm_size f = n.
Proof. intros (_&H&_). unfold mm_size. lia. Qed.

Local Notation denan := (denan isnan zero).

Lemma mm_push_inv n f win x : 1 <= n -> mm_inv n f win ->
  exists f', mm_push f x = Some f' /\ mm_inv n f' (slide n win (denan x)) /\
    percentile f' = percentile f.
Proof.
  intros Hn H. pose proof (mm_inv_size n f win H) as Hsz.
  destruct H as (Hwf & Hs & Hc & Hl & Hf & Hle & Hh).
  unfold Model.mm_push. fold (denan x). set (v := denan x). rewrite Hsz, Hf.
  pose proof (contents_length _ Hwf) as Hcl. rewrite Hc in Hcl.
  change (getReadSpace (mbuf f)) with (st_readSpace (mbuf f)) in Hcl.
  destruct (decide (length win = n)) as [Hfull|Hnf].
  - destruct win as [|d win]; [cbn in *; lia|].
    destruct (st_readOne_spec zero (mbuf f) Hwf) as (b1 & -> & Hwf1 & Hs1 & Hc1).
    rewrite Hc in Hc1 |- *. cbn [mbind option_bind head default from_option id].
    rewrite Hfull in Hh |- *.
    destruct (dropAndPut_spec (sortspace f) n d v (K win) Hh) as (s1 & -> & Hl1 & Hh1).
    cbn [mbind option_bind].
    destruct (st_writeOne_spec b1 v Hwf1) as (b2 & -> & Hwf2 & Hs2 & Hc2).
    { pose proof (contents_length _ Hwf1) as Hcl1. rewrite Hc1, drop_length in Hcl1. cbn [length] in Hcl1.
      change (getReadSpace b1) with (st_readSpace b1) in Hcl1. cbn in Hfull. lia. }
    cbn [mbind option_bind]. eexists; split; [done|]. split; [|done].
    assert (Hsl : slide n (d :: win) v = win ++ [v]).
    { unfold slide. rewrite app_length. cbn [length] in *.
      replace (S (length win) + 1 - n) with 1 by lia. done. }
    rewrite Hsl. unfold mm_inv; cbn [mbuf sortspace fill]. cbn [length drop] in *.
    assert (Hl2 : length (win ++ [v]) = n) by (rewrite app_length; cbn; lia).
    split_and!; auto; try lia.
    + by rewrite Hc2, Hc1.
    + rewrite Hl2. destruct Hh1 as (l & tl & A & B & C & D). exists l, tl. split_and!; auto.
      rewrite D, map_app. cbn. apply Permutation_cons_append.
  - destruct (put_spec (sortspace f) (length win) v (K win) Hh ltac:(lia)) as (s1 & -> & Hl1 & Hh1).
    cbn [mbind option_bind].
    destruct (st_writeOne_spec (mbuf f) v Hwf ltac:(lia)) as (b2 & -> & Hwf2 & Hs2 & Hc2).
    cbn [mbind option_bind]. eexists; split; [done|]. split; [|done].
    assert (Hsl : slide n win v = win ++ [v]).
    { unfold slide. rewrite app_length. cbn. replace (length win + 1 - n) with 0 by lia. done. }
    rewrite Hsl. unfold mm_inv; cbn [mbuf sortspace fill].
    assert (Hl2 : length (win ++ [v]) = length win + 1) by (rewrite app_length; cbn; lia).
    rewrite Hl2. split_and!; auto; try lia.
    + by rewrite Hc2, Hc.
    + destruct Hh1 as (l & tl & A & B & C & D). exists l, tl. split_and!; auto.
      rewrite D, map_app. cbn. apply Permutation_cons_append.
Qed.

Lemma mm_drop_inv n f win : mm_inv n f win ->
  exists f', mm_drop f = Some f' /\ mm_inv n f' (tail win) /\ percentile f' = percentile f.
Proof.
  intros H. pose proof H as (Hwf & Hs & Hc & Hl & Hf & Hle & Hh).
  unfold Model.mm_drop. rewrite Hf. destruct win as [|d win]; cbn [length].
  { rewrite decide_False by lia. eauto. }
  rewrite decide_True by lia.
  destruct (st_readOne_spec zero (mbuf f) Hwf) as (b1 & -> & Hwf1 & Hs1 & Hc1).
  rewrite Hc in Hc1 |- *. cbn [mbind option_bind head default from_option id].
  destruct (drop_value_spec (sortspace f) (length (d :: win)) d (K win) Hh) as (s1 & Hd & Hl1 & Hh1).
  cbn [length] in *. rewrite Hd. cbn [mbind option_bind]. eexists; split; [done|]. split; [|done].
  unfold mm_inv; cbn [mbuf sortspace fill tail].
  replace (S (length win) - 1) with (length win) in * by lia.
  cbn [drop] in Hc1. rewrite drop_0 in Hc1. split_and!; auto; try lia.
Qed.

Lemma holds_nil s : holds s 0 [].
Proof. exists [], s. split_and!; auto. constructor. Qed.

Lemma mm_reset_inv n f win : mm_inv n f win -> mm_inv n (mm_reset zero f) [].
Proof.
  intros (Hwf & Hs & Hc & Hl & Hf & Hle & Hh). destruct (st_reset_spec _ Hwf) as [A B].
  unfold mm_inv, mm_reset; cbn [mbuf sortspace fill length]. rewrite replicate_length.
  split_and!; auto; try lia. apply holds_nil.
Qed.

Lemma mm_new_inv n p : mm_inv n (mm_new zero n p) [].
Proof.
  unfold mm_inv, mm_new; cbn [mbuf sortspace fill length]. rewrite replicate_length.
  split_and!; auto; try lia; try apply holds_nil. apply st_new_wf.
Qed.

Lemma mm_run_inv n os : 1 <= n -> forall f win, mm_inv n f win ->
  exists f', mm_run key isnan zero f os = Some f' /\
    mm_inv n f' (fold_left (mm_win_step isnan zero n) os win) /\
    percentile f' = mm_percentile (percentile f) os.
Proof.
  intros Hn. induction os as [|o os IH]; intros f win H; cbn.
  { eauto. }
  destruct o as [x| | |p]; cbn [mm_step mm_win_step].
  - destruct (mm_push_inv n f win x Hn H) as (f1 & -> & H1 & Hp). cbn [mbind option_bind].
    destruct (IH f1 _ H1) as (f2 & -> & H2 & Hp2). rewrite Hp in Hp2. eauto.
  - destruct (mm_drop_inv n f win H) as (f1 & -> & H1 & Hp). cbn [mbind option_bind].
    destruct (IH f1 _ H1) as (f2 & -> & H2 & Hp2). rewrite Hp in Hp2. eauto.
  - cbn [mbind option_bind]. destruct (IH _ _ (mm_reset_inv n f win H)) as (f2 & -> & H2 & Hp2). eauto.
  - cbn [mbind option_bind].
    destruct (IH (mm_setPercentile f p) win) as (f2 & -> & H2 & Hp2); [|eauto].
    destruct H as (A&B&C&D&E&F&G). unfold mm_inv, mm_setPercentile. cbn. split_and!; auto.
Qed.


Lemma mm_get_spec n f win : mm_inv n f win -> win <> [] -> pct_ok (percentile f) ->
  exists x, mm_get f = Some x /\
    kth_smallest (K win) (mm_rank (length win) (percentile f)) (key x).
Proof.
  intros (Hwf & Hs & Hc & Hl & Hf & Hle & (l & tl & E & Hll & Hss & Hp)) Hne Hpct.
  assert (Hpos : 0 < length win) by (destruct win; [done|cbn; lia]).
  assert (Hgen : forall k, k < length win -> exists x, sortspace f !! k = Some x /\
            kth_smallest (K win) k (key x)).
  { intros k Hk. destruct (lookup_lt_is_Some_2 l k) as [x Hx]; [lia|].
    exists x. split; [by rewrite E, lookup_app_l by lia|].
    eapply kth_perm; [exact Hp|]. apply ss_kth; [done|]. by rewrite list_lookup_fmap, Hx. }
  unfold mm_get, mm_rank. rewrite Hf. destruct (percentile f) as [p|].
  - set (ix := Qfloor _).
    assert (Hix : (0 <= ix)%Z).
    { unfold ix. rewrite <- (Qfloor_Z 0). apply Qfloor_resp_le.
      unfold Qdiv. rewrite <- (Qmult_0_l (/ 100)). apply Qmult_le_compat_r; [|discriminate].
      rewrite <- (Qmult_0_l p). apply Qmult_le_compat_r; [|exact Hpct].
      change 0%Q with (inject_Z 0). rewrite <- Zle_Qle. lia. }
    destruct (Z.leb_spec (Z.of_nat (length win)) ix).
    + rewrite Z.min_l by lia.
      destruct (Z.ltb_spec (Z.of_nat (length win) - 1) 0); [lia|].
      apply Hgen. lia.
    + rewrite Z.min_r by lia. destruct (Z.ltb_spec ix 0); [lia|]. apply Hgen. lia.
  - rewrite Z.quot_div_nonneg by lia.
    replace (Z.to_nat ((Z.of_nat (length win) - 1) / 2)) with ((length win - 1) / 2).
    + apply Hgen. pose proof (Nat.div_le_upper_bound (length win - 1) 2 (length win - 1)). lia.
    + apply Nat2Z.inj. rewrite Nat2Z.inj_div. rewrite Z2Nat.id by (apply Z.div_pos; lia). f_equal. lia.
Qed.

Lemma final_get n p os : 1 <= n ->
  let win := mm_window isnan zero n os in
  let pct := mm_percentile p os in
  win <> [] -> pct_ok pct ->
  exists f x, mm_run key isnan zero (mm_new zero n p) os = Some f /\ mm_get f = Some x /\
    kth_smallest (K win) (mm_rank (length win) pct) (key x).
Proof.
  intros Hn win pct Hne Hp.
  destruct (mm_run_inv n os Hn _ _ (mm_new_inv n p)) as (f & Hr & Hi & Hpf).
  cbn [percentile mm_new] in Hpf. fold pct in Hpf.
  destruct (mm_get_spec n f win Hi Hne) as (x & Hg & Hk); [by rewrite Hpf|].
  exists f, x. rewrite Hpf in Hk. auto.
Qed.

(** ** filter *)
Lemma slide_spec {A} n (v : list A) j x : 1 <= n -> v !! j = Some x ->
  slide n (drop (j - n) (take j v)) x = drop (S j - n) (take (S j) v).
Proof.
  intros Hn Hx. pose proof (lookup_lt_Some _ _ _ Hx).
  rewrite (take_S_r v j x Hx). unfold slide.
  assert (Hl : length (drop (j - n) (take j v)) = j - (j - n)).
  { rewrite drop_length, take_length. lia. }
  rewrite app_length, Hl. cbn [length].
  rewrite <- (drop_app_le (take j v) [x] (j - n)) by (rewrite take_length; lia).
  rewrite drop_drop. f_equal. lia.
Qed.

Lemma mm_filter_loop_spec n (v0 : list T) p : 1 <= n -> pct_ok p ->
  let dv := map denan v0 in
  let half := n / 2 in
  let good i x := kth_smallest (K (centred n dv i)) (mm_rank (length (centred n dv i)) p) (key x) in
  forall k j f v, j + k = length v0 + half ->
    mm_inv n f (drop (j - n) (take j dv)) -> percentile f = p ->
    length v = length v0 ->
    (forall i, i + half < j -> i < length v0 -> exists x, v !! i = Some x /\ good i x) ->
    (forall i, j <= i + half -> v !! i = v0 !! i) ->
    exists f' v', mm_filter_loop key isnan zero k f v (length v0) n j = Some (f', v') /\
      length v' = length v0 /\ (exists w, mm_inv n f' w) /\ percentile f' = p /\
      forall i, i < length v0 -> exists x, v' !! i = Some x /\ good i x.
Proof.
  intros Hn Hp dv half good. assert (Hdl : length dv = length v0) by apply map_length.
  assert (Hhalf : half + (n - 1) / 2 = n - 1).
  { unfold half. pose proof (Nat.div_mod n 2 ltac:(lia)). pose proof (Nat.mod_upper_bound n 2 ltac:(lia)).
    pose proof (Nat.div_mod (n-1) 2 ltac:(lia)). pose proof (Nat.mod_upper_bound (n-1) 2 ltac:(lia)). lia. }
  induction k as [|k IH]; intros j f v Hjk Hi Hpf Hl Hdone Htodo.
  - cbn [mm_filter_loop]. rewrite decide_True by (unfold half in *; lia).
    exists f, v. split_and!; eauto. intros i Hii. apply Hdone; lia.
  - cbn [mm_filter_loop]. rewrite decide_False by (unfold half in *; lia).
    set (nxt := if decide (j < length v0) then _ else _).
    assert (exists f1, nxt = Some f1 /\ mm_inv n f1 (drop (S j - n) (take (S j) dv)) /\ percentile f1 = p)
      as (f1 & -> & Hi1 & Hp1).
    { unfold nxt. case_decide as Hj.
      - rewrite (Htodo j ltac:(lia)).
        destruct (lookup_lt_is_Some_2 v0 j Hj) as [x Hx]. rewrite Hx. cbn [mbind option_bind].
        destruct (mm_push_inv n f _ x Hn Hi) as (f1 & Hf1 & Hi1 & Hp1). exists f1.
        split; [done|]. split; [|congruence].
        rewrite <- (slide_spec n dv j (denan x) Hn); [done|]. unfold dv. by rewrite list_lookup_fmap, Hx.
      - rewrite (take_ge dv (S j)) by lia. rewrite (take_ge dv j) in Hi by lia. case_decide as Hj2.
        + destruct (mm_drop_inv n f _ Hi) as (f1 & Hf1 & Hi1 & Hp1). exists f1.
          split; [done|]. split; [|congruence].
          replace (S j - n) with ((j - n) + 1) by lia. rewrite <- drop_drop.
          by destruct (drop (j - n) dv).
        + exists f. split; [done|]. split; [|done]. by replace (S j - n) with (j - n) by lia. }
    cbn [mbind option_bind].
    set (nv := if decide (n / 2 <= j) then _ else _).
    assert (exists v1, nv = Some v1 /\ length v1 = length v0 /\
       (forall i, i + half < S j -> i < length v0 -> exists x, v1 !! i = Some x /\ good i x) /\
       (forall i, S j <= i + half -> v1 !! i = v0 !! i)) as (v1 & -> & Hl1 & Hd1 & Ht1).
    { unfold nv. fold half. case_decide as Hj.
      - assert (Hcen : drop (S j - n) (take (S j) dv) = centred n dv (j - half)).
        { unfold centred. fold half. f_equal; [lia|]. f_equal. lia. }
        rewrite Hcen in Hi1.
        destruct (mm_get_spec n f1 _ Hi1) as (x & Hg & Hk).
        { unfold centred. fold half. intros Hnil. apply (f_equal length) in Hnil.
          rewrite drop_length, take_length in Hnil. cbn [length] in Hnil. lia. }
        { by rewrite Hp1. }
        rewrite Hg. cbn [mbind option_bind]. unfold set_at. rewrite decide_True by lia.
        eexists; split; [done|]. rewrite Hp1 in Hk. split; [by rewrite insert_length|]. split.
        + intros i Hij Hil. destruct (decide (i = j - half)) as [->|Hne].
          * exists x. rewrite list_lookup_insert by lia. done.
          * rewrite list_lookup_insert_ne by lia. apply Hdone; lia.
        + intros i Hij. rewrite list_lookup_insert_ne by lia. apply Htodo. lia.
      - exists v. split; [done|]. split; [done|]. split.
        + intros i Hij Hil. lia.
        + intros i Hij. apply Htodo. lia. }
    cbn [mbind option_bind]. replace (j + 1) with (S j) by lia.
    apply IH; auto. lia.
Qed.

Lemma final_filter n p os f v : 1 <= n -> pct_ok (mm_percentile p os) ->
  mm_run key isnan zero (mm_new zero n p) os = Some f ->
  exists f' v', mm_filter key isnan zero f v = Some (f', v') /\ length v' = length v /\
    forall i, i < length v -> exists x, v' !! i = Some x /\
      let win := centred n (map denan v) i in
      kth_smallest (K win) (mm_rank (length win) (mm_percentile p os)) (key x).
Proof.
  intros Hn Hp Hr.
  destruct (mm_run_inv n os Hn _ _ (mm_new_inv n p)) as (f0 & Hr0 & Hi & Hpf).
  rewrite Hr in Hr0. injection Hr0 as <-. cbn [percentile mm_new] in Hpf.
  pose proof (mm_reset_inv n f _ Hi) as Hi0.
  unfold mm_filter. rewrite (mm_inv_size n _ _ Hi0).
  destruct (mm_filter_loop_spec n v (mm_percentile p os) Hn Hp (length v + n / 2) 0
              (mm_reset zero f) v) as (f' & v' & A & B & _ & _ & C); auto.
  - intros i Hi1. lia.
  - exists f', v'. auto.
Qed.
End mm.
