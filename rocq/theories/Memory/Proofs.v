(** The allocation helpers, each in terms of the blocks owned before and after. *)
From stdpp Require Import prelude gmap.
From Coq Require Import Lia.
From Verif Require Import Memory.Model Memory.Spec.
From stdpp Require Import list.

Section Proofs.
Context {A : Type} (zero : A).
Implicit Types (h : heap A) (own : list (nat * list (cell A))) (rest : gmap nat (list (cell A))).

Lemma holds_perm rest own own' h : own ≡ₚ own' -> holds rest own h -> holds rest own' h.
Proof.
  intros Hp [H1 H2 H3 H4]. assert (Hp1 : own.*1 ≡ₚ own'.*1) by (by apply fmap_Permutation). constructor; try done.
  - rewrite H1. f_equal. by apply list_to_map_proper.
  - by rewrite <- Hp1.
  - intros b Hb. apply H3. by rewrite Hp1.
Qed.
Lemma holds_get rest own h b l : holds rest ((b, l) :: own) h -> cells h !! b = Some l.
Proof. intros [H1 H2 H3 H4]. rewrite H1. apply lookup_union_Some_l. cbn. by rewrite lookup_insert. Qed.
Lemma holds_fresh rest own h b : holds rest own h -> b ∈ own.*1 -> (b < brk h)%nat.
Proof. intros [H1 H2 H3 H4] Hb. apply H4. rewrite H1. apply elem_of_list_fmap in Hb as ([b' l] & -> & Hin). cbn. eexists. apply lookup_union_Some_l. by apply elem_of_list_to_map. Qed.

Lemma alloc_own rest own h n : holds rest own h -> allocate h n = (brk h, snd (allocate h n)) /\ holds rest ((brk h, replicate n Undef) :: own) (snd (allocate h n)).
Proof.
  intros H. split; [done|]. pose proof (holds_fresh rest own h (brk h) H) as Hf. destruct H as [H1 H2 H3 H4].
  assert (Hn : cells h !! brk h = None) by (destruct (cells h !! brk h) eqn:E; [|done]; specialize (H4 (brk h) ltac:(eauto)); lia).
  constructor; cbn [snd allocate cells brk].
  - rewrite H1. change (list_to_map ((brk h, replicate n Undef) :: own)) with (<[brk h := replicate n Undef]> (list_to_map own : gmap nat (list (cell A)))). apply insert_union_l.
  - constructor; [|done]. intros Hin. specialize (Hf Hin). lia.
  - intros b [->|Hb]%elem_of_cons; [|by apply H3]. cbn. rewrite H1 in Hn. by apply lookup_union_None in Hn as [_ ?].
  - intros b [l Hl]. destruct (decide (b = brk h)) as [->|]; [lia|]. rewrite lookup_insert_ne in Hl by done. specialize (H4 b ltac:(eauto)). lia.
Qed.
Lemma free_own rest own h b l : holds rest ((b, l) :: own) h -> exists h', deallocate h b = Some h' /\ holds rest own h'.
Proof.
  intros H. pose proof (holds_get rest own h b l H) as Hb. unfold deallocate. rewrite Hb. cbn [mbind option_bind]. eexists. split; [reflexivity|].
  destruct H as [H1 H2 H3 H4]. apply NoDup_cons in H2 as [H2 H5]. constructor; cbn [cells brk].
  - rewrite H1. cbn. rewrite <- insert_union_l, delete_insert; [done|]. apply lookup_union_None. split; [by apply not_elem_of_list_to_map|]. apply H3. left.
  - done.
  - intros c Hc. apply H3. by right.
  - intros c [x Hx]. apply lookup_delete_Some in Hx as [_ Hx]. apply H4. eauto.
Qed.
Lemma load_own rest own h b l i : holds rest ((b, l) :: own) h -> load h b i = l !! i.
Proof. intros H. unfold load. by rewrite (holds_get _ _ _ _ _ H). Qed.
Lemma store_own rest own h b l i c : holds rest ((b, l) :: own) h -> (i < length l)%nat ->
  exists h', store h b i c = Some h' /\ holds rest ((b, <[i := c]> l) :: own) h'.
Proof.
  intros H Hi. unfold store. rewrite (holds_get _ _ _ _ _ H). cbn [mbind option_bind]. rewrite decide_True by done. eexists. split; [reflexivity|].
  destruct H as [H1 H2 H3 H4]. constructor; cbn [cells brk].
  - rewrite H1. cbn. rewrite <- !insert_union_l. by rewrite insert_insert.
  - done.
  - done.
  - intros d [x Hx]. apply H4. destruct (decide (d = b)) as [->|]; [rewrite H1; cbn; eexists; apply lookup_union_Some_l, lookup_insert|]. rewrite lookup_insert_ne in Hx by done. eauto.
Qed.

Lemma v_zero_own rest own b : forall n i h l, holds rest ((b, l) :: own) h -> (i + n <= length l)%nat ->
  exists h', v_zero zero h b i n = Some h' /\ holds rest ((b, take i l ++ replicate n (Num zero) ++ drop (i + n) l) :: own) h'.
Proof.
  induction n as [|n IH]; intros i h l H Hl.
  { exists h. split; [done|]. cbn [replicate app]. rewrite Nat.add_0_r, take_drop. done. }
  cbn [v_zero]. destruct (store_own rest own h b l i (Num zero) H ltac:(lia)) as (h1 & E1 & H1). rewrite E1. cbn [mbind option_bind].
  destruct (IH (S i) h1 _ H1) as (h2 & E2 & H2); [rewrite insert_length; lia|]. exists h2. split; [done|].
  erewrite take_S_r in H2 by (apply list_lookup_insert; lia). rewrite take_insert in H2 by lia. rewrite drop_insert_gt in H2 by lia.
  rewrite <- app_assoc in H2. cbn [app] in H2. cbn [replicate app]. by replace (i + S n)%nat with (S i + n)%nat by lia.
Qed.
Lemma v_copy_own rest own d s y : forall n i h l, holds rest ((d, l) :: (s, y) :: own) h -> (i + n <= length l)%nat -> (i + n <= length y)%nat ->
  exists h', v_copy h d s i n = Some h' /\ holds rest ((d, take i l ++ take n (drop i y) ++ drop (i + n) l) :: (s, y) :: own) h'.
Proof.
  induction n as [|n IH]; intros i h l H Hl Hy.
  { exists h. split; [done|]. change (take 0 (drop i y)) with (@nil (cell A)). rewrite app_nil_l, Nat.add_0_r, take_drop. done. }
  cbn [v_copy]. assert (Hs : holds rest ((s, y) :: (d, l) :: own) h) by (eapply holds_perm; [apply Permutation_swap|done]).
  rewrite (load_own _ _ _ _ _ _ Hs). destruct (lookup_lt_is_Some_2 y i) as [c Hc]; [lia|]. rewrite Hc. cbn [mbind option_bind].
  destruct (store_own rest _ h d l i c H ltac:(lia)) as (h1 & E1 & H1). rewrite E1. cbn [mbind option_bind].
  destruct (IH (S i) h1 _ H1) as (h2 & E2 & H2); [rewrite insert_length; lia|lia|]. exists h2. split; [done|].
  erewrite take_S_r in H2 by (apply list_lookup_insert; lia). rewrite take_insert in H2 by lia. rewrite drop_insert_gt in H2 by lia.
  rewrite <- app_assoc in H2. cbn [app] in H2. rewrite (drop_S y c i Hc). cbn [take app]. by replace (i + S n)%nat with (S i + n)%nat by lia.
Qed.

(** ** Single blocks *)
Lemma allocate_and_zero_own rest own h n : holds rest own h ->
  exists h', allocate_and_zero zero h n = Some (brk h, h') /\ holds rest ((brk h, replicate n (Num zero)) :: own) h'.
Proof.
  intros H. unfold allocate_and_zero. destruct (alloc_own rest own h n H) as [E H1]. rewrite E.
  destruct (v_zero_own rest own (brk h) n 0 _ _ H1) as (h2 & E2 & H2); [by rewrite replicate_length|]. rewrite E2. cbn [mbind option_bind].
  exists h2. split; [done|]. cbn [take app] in H2. rewrite drop_ge, app_nil_r in H2 by (rewrite replicate_length; lia). done.
Qed.
Lemma reallocate_own rest own h b l count : holds rest ((b, l) :: own) h ->
  exists h', reallocate h (Some b) (length l) count = Some (brk h, h') /\ holds rest ((brk h, refit Undef count l) :: own) h'.
Proof.
  intros H. unfold reallocate. destruct (alloc_own rest _ h count H) as [E H1]. rewrite E. set (h1 := snd (allocate h count)) in *.
  assert (Hc : exists h2, (if decide (length l = 0%nat) then Some h1 else v_copy h1 (brk h) b 0 (if decide (length l < count)%nat then length l else count)) = Some h2 /\
    holds rest ((brk h, refit Undef count l) :: (b, l) :: own) h2).
  { destruct (decide (length l = 0%nat)) as [E0|N0].
    - exists h1. split; [done|]. unfold refit. rewrite E0. destruct l; [|done]. rewrite take_nil, Nat.sub_0_r. done.
    - set (n := if decide (length l < count)%nat then length l else count). assert (Hn : n = (length l `min` count)%nat) by (unfold n; destruct (decide _); lia).
      destruct (v_copy_own rest own (brk h) b l n 0 h1 _ H1) as (h2 & E2 & H2); [rewrite replicate_length; lia|lia|]. exists h2. split; [done|].
      cbn [take app drop] in H2. unfold refit. rewrite drop_replicate in H2. replace (take count l) with (take n l); [by replace (count - length l)%nat with (count - (0 + n))%nat by lia|].
      subst n. destruct (decide (length l < count)%nat); [|done]. rewrite !take_ge by lia. done. }
  destruct Hc as (h2 & E2 & H2). rewrite E2. cbn [mbind option_bind].
  destruct (free_own rest ((brk h, refit Undef count l) :: own) h2 b l) as (h3 & E3 & H3); [eapply holds_perm; [apply Permutation_swap|done]|].
  rewrite E3. cbn [mbind option_bind]. by exists h3.
Qed.
Lemma reallocate_null_own rest own h count : holds rest own h ->
  exists h', reallocate h None 0 count = Some (brk h, h') /\ holds rest ((brk h, replicate count Undef) :: own) h'.
Proof. intros H. unfold reallocate. destruct (alloc_own rest _ h count H) as [E H1]. rewrite E. cbn [mbind option_bind]. by eexists. Qed.
Lemma refit_length (fill : cell A) count l : length (refit fill count l) = count.
Proof. unfold refit. rewrite app_length, take_length, replicate_length. lia. Qed.
Lemma reallocate_and_zero_own rest own h b l count : holds rest ((b, l) :: own) h ->
  exists h', reallocate_and_zero zero h (Some b) (length l) count = Some (brk h, h') /\ holds rest ((brk h, replicate count (Num zero)) :: own) h'.
Proof.
  intros H. unfold reallocate_and_zero. destruct (reallocate_own rest own h b l count H) as (h1 & E1 & H1). rewrite E1. cbn [mbind option_bind].
  destruct (v_zero_own rest own (brk h) count 0 _ _ H1) as (h2 & E2 & H2); [by rewrite refit_length|]. rewrite E2. cbn [mbind option_bind]. exists h2. split; [done|].
  cbn [take app] in H2. rewrite drop_ge, app_nil_r in H2 by (rewrite refit_length; lia). done.
Qed.
Lemma reallocate_and_zero_null_own rest own h count : holds rest own h ->
  exists h', reallocate_and_zero zero h None 0 count = Some (brk h, h') /\ holds rest ((brk h, replicate count (Num zero)) :: own) h'.
Proof.
  intros H. unfold reallocate_and_zero. destruct (reallocate_null_own rest own h count H) as (h1 & E1 & H1). rewrite E1. cbn [mbind option_bind].
  destruct (v_zero_own rest own (brk h) count 0 _ _ H1) as (h2 & E2 & H2); [by rewrite replicate_length|]. rewrite E2. cbn [mbind option_bind]. exists h2. split; [done|].
  cbn [take app] in H2. rewrite drop_ge, app_nil_r in H2 by (rewrite replicate_length; lia). done.
Qed.
Lemma reallocate_and_zero_extension_own rest own h b l count : holds rest ((b, l) :: own) h ->
  exists h', reallocate_and_zero_extension zero h (Some b) (length l) count = Some (brk h, h') /\ holds rest ((brk h, refit (Num zero) count l) :: own) h'.
Proof.
  intros H. unfold reallocate_and_zero_extension. destruct (reallocate_own rest own h b l count H) as (h1 & E1 & H1). rewrite E1. cbn [mbind option_bind].
  destruct (decide (length l < count)%nat) as [Hlt|Hge].
  - destruct (v_zero_own rest own (brk h) (count - length l) (length l) _ _ H1) as (h2 & E2 & H2); [rewrite refit_length; lia|]. rewrite E2. cbn [mbind option_bind]. exists h2. split; [done|].
    rewrite (drop_ge (refit _ _ _)), app_nil_r in H2 by (rewrite refit_length; lia). unfold refit in H2 |- *.
    rewrite !(take_ge l count) in * by lia. rewrite take_app in H2. done.
  - cbn [mbind option_bind]. exists h1. split; [done|]. unfold refit in *. by replace (count - length l)%nat with 0%nat in * by lia.
Qed.

(** ** Arrays of channels *)
Lemma fill_channels_own z rest ptr count : forall n c h chans own, length chans = c ->
  holds rest ((ptr, (Ptr <$> chans.*1) ++ replicate n Undef) :: own) h ->
  exists h' new, fill_channels zero z h ptr c n count = Some h' /\ length new = n /\ Forall (fun q => snd q = replicate count (if z then Num zero else Undef)) new /\
    holds rest ((ptr, Ptr <$> (chans ++ new).*1) :: new ++ own) h'.
Proof.
  induction n as [|n IH]; intros c h chans own Hc H.
  { exists h, []. split; [done|]. split; [done|]. split; [done|]. rewrite app_nil_r in *. done. }
  cbn [fill_channels].
  assert (Ha : exists h1, (if z then allocate_and_zero zero h count else Some (allocate h count)) = Some (brk h, h1) /\
    holds rest ((brk h, replicate count (if z then Num zero else Undef)) :: (ptr, (Ptr <$> chans.*1) ++ replicate (S n) Undef) :: own) h1).
  { destruct z; [by apply allocate_and_zero_own|]. destruct (alloc_own rest _ h count H) as [E H1]. rewrite E. by eexists. }
  destruct Ha as (h1 & E1 & H1). rewrite E1. cbn [mbind option_bind]. set (x := (brk h, replicate count _)) in *.
  destruct (store_own rest (x :: own) h1 ptr _ c (Ptr (brk h)) ltac:(eapply holds_perm; [apply Permutation_swap|exact H1])) as (h2 & E2 & H2).
  { rewrite app_length, !fmap_length, replicate_length. lia. }
  rewrite E2. cbn [mbind option_bind].
  destruct (IH (S c) h2 (chans ++ [x]) (x :: own)) as (h3 & new & E3 & Hl & Hn & H3).
  { rewrite app_length. cbn. lia. }
  { cbn [replicate] in H2. rewrite insert_app_r_alt in H2 by (rewrite !fmap_length; lia). rewrite !fmap_length, Hc, Nat.sub_diag in H2. cbn [insert list_insert] in H2.
    eapply holds_perm; [|exact H2]. rewrite !fmap_app, <- app_assoc. cbn. done. }
  exists h3, (x :: new). split; [done|]. split; [cbn; lia|]. split; [by constructor|].
  rewrite <- app_assoc in H3. cbn [app] in H3 |- *. eapply holds_perm; [|exact H3]. apply perm_skip. symmetry. apply Permutation_middle.
Qed.
Lemma allocate_channels_own z rest own h channels count : holds rest own h ->
  exists p h' new, allocate_channels zero z h channels count = Some (p, h') /\ length new = channels /\
    Forall (fun q => snd q = replicate count (if z then Num zero else Undef)) new /\ holds rest (array p new ++ own) h'.
Proof.
  intros H. unfold allocate_channels. destruct (alloc_own rest own h channels H) as [E H1]. rewrite E.
  destruct (fill_channels_own z rest (brk h) count channels 0 _ [] own eq_refl H1) as (h2 & new & E2 & Hl & Hn & H2). rewrite E2. cbn [mbind option_bind].
  by exists (brk h), h2, new.
Qed.

Lemma channel_own rest own h p ls c b : holds rest ((p, ls) :: own) h -> ls !! c = Some (Ptr b) -> channel h p c = Some b.
Proof. intros H Hc. unfold channel. rewrite (load_own _ _ _ _ _ _ H), Hc. done. Qed.

Lemma copy_channel_own rest own np nls op ols c q p y : nls !! c = Some (Ptr q) -> ols !! c = Some (Ptr p) ->
  forall n i h x, holds rest ((np, nls) :: (op, ols) :: (q, x) :: (p, y) :: own) h -> (i + n <= length x)%nat -> (i + n <= length y)%nat ->
  exists h', copy_channel h np op c i n = Some h' /\ holds rest ((np, nls) :: (op, ols) :: (q, take i x ++ take n (drop i y) ++ drop (i + n) x) :: (p, y) :: own) h'.
Proof.
  intros Hq Hp. induction n as [|n IH]; intros i h x H Hx Hy.
  { exists h. split; [done|]. change (take 0 (drop i y)) with (@nil (cell A)). by rewrite app_nil_l, Nat.add_0_r, take_drop. }
  cbn [copy_channel]. rewrite (channel_own _ _ _ _ _ _ _ H Hq). cbn [mbind option_bind].
  rewrite (channel_own rest _ h op ols c p (holds_perm _ _ _ _ (Permutation_swap _ _ _) H) Hp). cbn [mbind option_bind].
  assert (Hpp : holds rest ((p, y) :: (np, nls) :: (op, ols) :: (q, x) :: own) h) by (eapply holds_perm; [|exact H]; solve_Permutation).
  rewrite (load_own _ _ _ _ _ _ Hpp). destruct (lookup_lt_is_Some_2 y i) as [v Hv]; [lia|]. rewrite Hv. cbn [mbind option_bind].
  destruct (store_own rest ((np, nls) :: (op, ols) :: (p, y) :: own) h q x i v) as (h1 & E1 & H1); [eapply holds_perm; [|exact H]; solve_Permutation|lia|].
  rewrite E1. cbn [mbind option_bind].
  destruct (IH (S i) h1 (<[i:=v]> x)) as (h2 & E2 & H2); [eapply holds_perm; [|exact H1]; solve_Permutation|rewrite insert_length; lia|lia|].
  exists h2. split; [done|].
  erewrite take_S_r in H2 by (apply list_lookup_insert; lia). rewrite take_insert in H2 by lia. rewrite drop_insert_gt in H2 by lia.
  rewrite <- app_assoc in H2. cbn [app] in H2. rewrite (drop_S y v i Hv). cbn [take app]. by replace (i + S n)%nat with (S i + n)%nat by lia.
Qed.

Lemma pull {B} (N : list B) c v : N !! c = Some v -> N ≡ₚ v :: take c N ++ drop (S c) N.
Proof. intros H. etransitivity; [|symmetry; apply Permutation_middle]. by rewrite take_drop_middle. Qed.
Lemma pull_insert {B} (N : list B) c v : (c < length N)%nat -> <[c := v]> N ≡ₚ v :: take c N ++ drop (S c) N.
Proof. intros H. rewrite insert_take_drop by done. symmetry. apply Permutation_middle. Qed.
Lemma shuffle {B} (a b v w : B) N O n1 n2 o1 o2 (own : list B) : N ≡ₚ v :: n1 ++ n2 -> O ≡ₚ w :: o1 ++ o2 ->
  (a :: N) ++ (b :: O) ++ own ≡ₚ a :: b :: v :: w :: n1 ++ n2 ++ o1 ++ o2 ++ own.
Proof. intros -> ->. solve_Permutation. Qed.
Lemma copy_channels_own rest own np op O k : Forall (fun q => k <= length (snd q))%nat O ->
  forall n c h N, (c + n <= length N)%nat -> (c + n <= length O)%nat -> Forall (fun q => k <= length (snd q))%nat N ->
  holds rest (array np N ++ array op O ++ own) h ->
  exists h' N', copy_channels h np op c n k = Some h' /\ N'.*1 = N.*1 /\ holds rest (array np N' ++ array op O ++ own) h' /\
    forall j q x, N !! j = Some (q, x) -> N' !! j = Some (q, if decide (c <= j < c + n)%nat then take k (default [] (O.*2 !! j)) ++ drop k x else x).
Proof.
  intros HO. induction n as [|n IH]; intros c h N HN HO2 Hk H.
  { exists h, N. split; [done|]. split; [done|]. split; [done|]. intros j q x Hj. rewrite decide_False by lia. done. }
  cbn [copy_channels]. destruct (lookup_lt_is_Some_2 N c) as [[q x] Hq]; [lia|]. destruct (lookup_lt_is_Some_2 O c) as [[p y] Hp]; [lia|].
  rewrite Forall_lookup in HO, Hk. pose proof (HO c _ Hp) as Hy. pose proof (Hk c _ Hq) as Hx. cbn [snd] in Hx, Hy.
  set (others := take c N ++ drop (S c) N ++ take c O ++ drop (S c) O ++ own).
  destruct (copy_channel_own rest others np (Ptr <$> N.*1) op (Ptr <$> O.*1) c q p y) with (n := k) (i := 0%nat) (h := h) (x := x) as (h1 & E1 & H1); try lia.
  { by rewrite !list_lookup_fmap, Hq. } { by rewrite !list_lookup_fmap, Hp. }
  { eapply holds_perm; [|exact H]. apply shuffle; by apply pull. }
  rewrite E1. cbn [mbind option_bind]. change (take 0 x) with (@nil (cell A)) in H1. rewrite app_nil_l, drop_0, Nat.add_0_l in H1.
  set (v := (q, take k y ++ drop k x)) in *.
  assert (E1' : (<[c := v]> N).*1 = N.*1).
  { apply list_eq. intros j. rewrite !list_lookup_fmap. destruct (decide (j = c)) as [->|]; [rewrite list_lookup_insert by lia; by rewrite Hq|by rewrite list_lookup_insert_ne]. }
  destruct (IH (S c) h1 (<[c := v]> N)) as (h2 & N' & E2 & Hn & H2 & Hv); [rewrite insert_length; lia|lia| | |].
  { apply Forall_insert; [by rewrite Forall_lookup|]. cbn [snd v]. rewrite app_length, take_length, drop_length. lia. }
  { eapply holds_perm; [|exact H1]. unfold array. rewrite E1'. symmetry. apply shuffle; [apply pull_insert; lia|by apply pull]. }
  exists h2, N'. split; [done|]. split; [by rewrite Hn|]. split; [done|]. intros j q' x' Hj.
  destruct (decide (j = c)) as [->|Hne].
  - rewrite Hq in Hj. injection Hj as <- <-. rewrite (Hv c q (take k y ++ drop k x)) by (by rewrite list_lookup_insert by lia).
    rewrite decide_False by lia. rewrite decide_True by lia. by rewrite list_lookup_fmap, Hp.
  - rewrite (Hv j q' x') by (by rewrite list_lookup_insert_ne). do 2 f_equal. destruct (decide (S c <= j < S c + n)%nat), (decide (c <= j < c + S n)%nat); try done; lia.
Qed.

Lemma free_channels_own rest own ptr O : forall n c h, (c + n = length O)%nat ->
  holds rest ((ptr, Ptr <$> O.*1) :: drop c O ++ own) h ->
  exists h', free_channels h ptr c n = Some h' /\ holds rest ((ptr, Ptr <$> O.*1) :: own) h'.
Proof.
  induction n as [|n IH]; intros c h Hc H.
  { exists h. split; [done|]. by rewrite drop_ge in H by lia. }
  cbn [free_channels]. destruct (lookup_lt_is_Some_2 O c) as [[p y] Hp]; [lia|].
  rewrite (channel_own _ _ _ _ _ c p H) by (by rewrite !list_lookup_fmap, Hp). cbn [mbind option_bind]. rewrite (drop_S O (p, y) c Hp) in H. cbn [app] in H.
  destruct (free_own rest ((ptr, Ptr <$> O.*1) :: drop (S c) O ++ own) h p y) as (h1 & E1 & H1); [eapply holds_perm; [apply Permutation_swap|done]|].
  rewrite E1. cbn [mbind option_bind]. apply IH; [lia|done].
Qed.
Lemma deallocate_channels_own rest own ptr O h : holds rest (array ptr O ++ own) h ->
  exists h', deallocate_channels h ptr (length O) = Some h' /\ holds rest own h'.
Proof.
  intros H. unfold deallocate_channels. destruct (free_channels_own rest own ptr O (length O) 0 h eq_refl H) as (h1 & E1 & H1). rewrite E1. cbn [mbind option_bind].
  by apply (free_own rest own h1 ptr (Ptr <$> O.*1)).
Qed.

Definition blank (z : bool) : cell A := if z then Num zero else Undef.
Lemma reallocate_channels_own z rest own h p O oldcount channels count : Forall (fun q => length (snd q) = oldcount) O ->
  holds rest (array p O ++ own) h ->
  exists p' N h', reallocate_channels zero z h (Some p) (length O) oldcount channels count = Some (p', h') /\
    N.*2 = (fun c => refit (blank z) count (default [] (O.*2 !! c))) <$> seq 0 channels /\ holds rest (array p' N ++ own) h'.
Proof.
  intros HO H. unfold reallocate_channels.
  destruct (allocate_channels_own z rest _ h channels count H) as (p' & h1 & N & E1 & Hl & HN & H1). rewrite E1. cbn [mbind option_bind].
  assert (Hc : exists h2 N', (if decide (oldcount = 0%nat) then Some h1 else copy_channels h1 p' p 0 (length O `min` channels) (oldcount `min` count)) = Some h2 /\
    N'.*2 = (fun c => refit (blank z) count (default [] (O.*2 !! c))) <$> seq 0 channels /\ holds rest (array p' N' ++ array p O ++ own) h2).
  { rewrite Forall_lookup in HO, HN. destruct (decide (oldcount = 0%nat)) as [E0|N0].
    - exists h1, N. split; [done|]. split; [|done]. apply list_eq. intros j. rewrite !list_lookup_fmap. destruct (N !! j) as [[q x]|] eqn:Hj.
      + rewrite lookup_seq_lt by (rewrite <- Hl; by eapply lookup_lt_Some). cbn. rewrite list_lookup_fmap. specialize (HN j _ Hj). cbn in HN. rewrite HN. f_equal.
        destruct (O !! j) as [[b y]|] eqn:Hy; cbn; [specialize (HO j _ Hy); cbn in HO; destruct y; [|cbn in HO; lia]|]; unfold refit; by rewrite take_nil, Nat.sub_0_r.
      + rewrite lookup_seq_ge; [done|]. rewrite <- Hl. by apply lookup_ge_None_1.
    - destruct (copy_channels_own rest own p' p O (oldcount `min` count)) with (n := (length O `min` channels)%nat) (c := 0%nat) (h := h1) (N := N) as (h2 & N' & E2 & Hf & H2 & Hv); try lia; try done.
      { apply Forall_lookup. intros j q Hj. rewrite (HO j q Hj). lia. } { apply Forall_lookup. intros j q Hj. rewrite (HN j q Hj), replicate_length. lia. }
      exists h2, N'. split; [done|]. split; [|done]. assert (Hl' : length N' = channels) by (apply (f_equal length) in Hf; rewrite !fmap_length in Hf; lia).
      apply list_eq. intros j. rewrite !list_lookup_fmap. destruct (N !! j) as [[q x]|] eqn:Hj.
      + rewrite lookup_seq_lt by (rewrite <- Hl; by eapply lookup_lt_Some). rewrite (Hv j q x Hj). cbn. rewrite !list_lookup_fmap. f_equal.
        specialize (HN j _ Hj). cbn in HN. rewrite HN. pose proof (lookup_lt_Some _ _ _ Hj).
        destruct (O !! j) as [[b y]|] eqn:Hy; cbn.
        * pose proof (lookup_lt_Some _ _ _ Hy). rewrite decide_True by lia. specialize (HO j _ Hy). cbn in HO. unfold refit. rewrite drop_replicate, HO. f_equal.
          -- destruct (Nat.le_ge_cases oldcount count); [rewrite !take_ge by lia; done|f_equal; lia].
          -- f_equal. lia.
        * apply lookup_ge_None_1 in Hy. rewrite decide_False by lia. unfold refit. by rewrite take_nil, Nat.sub_0_r.
      + rewrite lookup_seq_ge by (rewrite <- Hl; by apply lookup_ge_None_1). rewrite lookup_ge_None_2; [done|]. apply lookup_ge_None_1 in Hj. lia. }
  destruct Hc as (h2 & N' & E2 & Hn & H2). rewrite E2. cbn [mbind option_bind].
  destruct (deallocate_channels_own rest (array p' N' ++ own) p O h2) as (h3 & E3 & H3).
  { eapply holds_perm; [|exact H2]. rewrite !app_assoc. apply Permutation_app_tail, Permutation_app_comm. }
  rewrite E3. cbn [mbind option_bind]. by exists p', N', h3.
Qed.
End Proofs.
