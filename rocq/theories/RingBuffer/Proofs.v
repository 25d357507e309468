(** Proofs about the sequential ring buffer model. *)
From stdpp Require Import base list numbers.
From Coq Require Import Lia.
From Verif.RingBuffer Require Import Model Spec.

Section proofs.
Context {T : Type}.
Implicit Types (b : ring T) (xs ys q : list T).

Lemma load_ok (a : list T) off n :
  off + n <= length a -> load a off n = Some (take n (drop off a)).
Proof. intros H. unfold load. case_decide; [done|lia]. Qed.

Lemma store_ok (a : list T) off xs :
  off + length xs <= length a ->
  store a off xs = Some (take off a ++ xs ++ drop (off + length xs) a).
Proof. intros H. unfold store. case_decide; [done|lia]. Qed.

Lemma lookup_app_if (l1 l2 : list T) i :
  (l1 ++ l2) !! i =
  if decide (i < length l1) then l1 !! i else l2 !! (i - length l1).
Proof.
  case_decide; [by apply lookup_app_l | apply lookup_app_r; lia].
Qed.

Lemma lookup_take_if (l : list T) n i :
  take n l !! i = if decide (i < n) then l !! i else None.
Proof. case_decide; [by apply lookup_take | apply lookup_take_ge; lia]. Qed.

Lemma store_spec (a a' : list T) off xs :
  store a off xs = Some a' ->
  length a' = length a /\
  forall j, a' !! j = if decide (off <= j /\ j < off + length xs)
                      then xs !! (j - off) else a !! j.
Proof.
  unfold store. case_decide as H; [|done]. intros [= <-]. split.
  - rewrite !app_length, take_length, drop_length. lia.
  - intros j. rewrite lookup_app_if, take_length, lookup_take_if, lookup_app_if.
    rewrite Nat.min_l by lia.
    repeat case_decide; try done; try lia.
    rewrite lookup_drop. f_equal. lia.
Qed.

Lemma wrap_small r m : r < m -> wrap r m = Some r.
Proof. intros H. unfold wrap. simpl. case_decide; [lia|done]. Qed.

Lemma wrap_once r m : 0 < m -> r < 2 * m ->
  wrap r m = Some (if decide (r < m) then r else r - m).
Proof.
  intros Hm H. case_decide; [by apply wrap_small|].
  unfold wrap. simpl. case_decide; [|lia].
  destruct r; simpl; case_decide; try lia; try done.
Qed.

(** Representation invariant and abstraction. *)
Definition wf b : Prop :=
  length (buf b) = size b /\ writer b < size b /\ reader b < size b.

Definition contents b : list T :=
  take (getReadSpace b) (drop (reader b) (buf b) ++ take (reader b) (buf b)).

Definition slot (m r i : nat) : nat := if decide (r + i < m) then r + i else r + i - m.

Lemma readSpace_lt b : wf b -> getReadSpace b < size b.
Proof.
  intros (?&?&?). unfold getReadSpace, readSpaceFor. repeat case_decide; lia.
Qed.

Lemma writeSpace_eq b : wf b -> getWriteSpace b = getSize b - getReadSpace b.
Proof.
  intros (?&?&?). unfold getWriteSpace, writeSpaceFor, getReadSpace, readSpaceFor, getSize.
  repeat case_decide; lia.
Qed.

Lemma contents_length b : wf b -> length (contents b) = getReadSpace b.
Proof.
  intros H. pose proof (readSpace_lt b H). destruct H as (?&?&?).
  unfold contents. rewrite take_length, app_length, drop_length, take_length. lia.
Qed.

Lemma contents_lookup b i : wf b -> i < getReadSpace b ->
  contents b !! i = buf b !! slot (size b) (reader b) i.
Proof.
  intros H Hi. pose proof (readSpace_lt b H). destruct H as (?&?&?).
  unfold contents, slot.
  rewrite lookup_take_if, lookup_app_if, drop_length, lookup_drop, lookup_take_if.
  repeat case_decide; try lia; try done.
  f_equal. lia.
Qed.

Lemma copy_out_spec b n : wf b -> n <= getReadSpace b ->
  copy_out b (reader b) n = Some (take n (contents b)).
Proof.
  intros H Hn. pose proof (readSpace_lt b H). destruct H as (Hl&?&?).
  unfold copy_out, contents. rewrite take_take, Nat.min_l by lia.
  case_decide.
  - rewrite load_ok by lia. rewrite take_app_le; [done|rewrite drop_length; lia].
  - rewrite load_ok by lia. cbn [mbind option_bind].
    rewrite load_ok by lia. cbn [mbind option_bind].
    f_equal. rewrite drop_0.
    rewrite (take_ge (drop _ _)) by (rewrite drop_length; lia).
    rewrite <- (firstn_skipn (length (drop (reader b) (buf b))) (take n _)).
    rewrite take_take, Nat.min_l by (rewrite drop_length; lia).
    rewrite take_app. f_equal.
    rewrite skipn_firstn_comm, drop_app, drop_length, take_take.
    f_equal. lia.
Qed.

Lemma copy_in_spec b xs : wf b -> length xs <= getWriteSpace b ->
  exists buf', copy_in b (writer b) xs = Some buf' /\ length buf' = size b /\
  forall j, buf' !! j =
    if decide (writer b <= j /\ j < writer b + length xs /\ j < size b) then xs !! (j - writer b)
    else if decide (j + size b < writer b + length xs) then xs !! (j + size b - writer b)
    else buf b !! j.
Proof.
  intros H Hn. pose proof (writeSpace_eq b H) as Hw.
  destruct H as (Hl&?&?). unfold copy_in, getSize in *. case_decide.
  - rewrite store_ok by lia. eexists; split; [done|].
    destruct (store_spec (buf b) _ _ _ (store_ok (buf b) (writer b) xs ltac:(lia))) as [Hs Hj].
    split; [lia|]. intros j. rewrite Hj. repeat case_decide; try done; try lia.
  - rewrite store_ok by (rewrite take_length; lia). cbn [mbind option_bind].
    destruct (store_spec (buf b) _ _ _ (store_ok (buf b) (writer b) (take (size b - writer b) xs)
       ltac:(rewrite take_length; lia))) as [Hs1 Hj1].
    set (b1 := _ ++ _) in *. clearbody b1.
    rewrite store_ok by (rewrite drop_length; lia). eexists; split; [done|].
    destruct (store_spec b1 _ _ _ (store_ok b1 0 (drop (size b - writer b) xs)
       ltac:(rewrite drop_length; lia))) as [Hs2 Hj2].
    split; [lia|]. intros j. rewrite Hj2, Hj1. rewrite drop_length, take_length.
    rewrite Nat.min_l by lia. rewrite lookup_drop, lookup_take_if.
    repeat case_decide; try done; try lia.
    f_equal. lia.
Qed.

Lemma contents_eq b q : wf b -> length q = getReadSpace b ->
  (forall i, i < length q -> buf b !! slot (size b) (reader b) i = q !! i) ->
  contents b = q.
Proof.
  intros H Hl Hq. apply list_eq. intros i.
  destruct (decide (i < length q)) as [Hi|Hi].
  - rewrite contents_lookup by (try done; lia). auto.
  - rewrite !lookup_ge_None_2; [done|lia|rewrite contents_length by done; lia].
Qed.

(** Appending [xs] and publishing the new write index. *)
Lemma append_spec b xs : wf b -> length xs <= getWriteSpace b ->
  exists buf' w', copy_in b (writer b) xs = Some buf' /\
    wrap (writer b + length xs) (size b) = Some w' /\
    let b' := Ring buf' w' (reader b) (size b) in
    wf b' /\ contents b' = contents b ++ xs /\
    getReadSpace b' = getReadSpace b + length xs.
Proof.
  intros H Hn. destruct (copy_in_spec b xs H Hn) as (buf' & Hc & Hlen & Hlk).
  pose proof (writeSpace_eq b H) as Hw. pose proof (readSpace_lt b H) as Hr.
  pose proof H as (Hl&?&?). unfold getSize in *.
  exists buf', (if decide (writer b + length xs < size b) then writer b + length xs
                else writer b + length xs - size b).
  split; [done|]. split.
  { rewrite wrap_once by lia. done. }
  cbn zeta. set (w' := if decide _ then _ else _).
  assert (Hrs : getReadSpace (Ring buf' w' (reader b) (size b)) = getReadSpace b + length xs).
  { clear Hlk Hc. unfold getReadSpace, readSpaceFor, w' in *. cbn in *.
    repeat case_decide; try lia. }
  assert (Hwf : wf (Ring buf' w' (reader b) (size b))).
  { split; [done|]. cbn. unfold w'. case_decide; lia. }
  split; [done|]. split; [|done].
  apply contents_eq; [done| |].
  { rewrite app_length, contents_length, Hrs by done. done. }
  intros i. rewrite app_length, contents_length by done. intros Hi.
  cbn [buf size reader]. rewrite Hlk.
  rewrite lookup_app_if, contents_length by done.
  assert (Hws : getReadSpace b =
    if decide (reader b < writer b) then writer b - reader b
    else if decide (writer b < reader b) then writer b + size b - reader b else 0) by done.
  destruct (decide (i < getReadSpace b)) as [Hlt|Hge].
  - rewrite contents_lookup by done. unfold slot in *.
    clear Hrs Hwf Hlk. repeat case_decide; try lia; try done.
  - unfold slot in *. clear Hrs Hwf Hlk.
    repeat case_decide; try lia; try (f_equal; lia).
Qed.

(** Dropping [n] from the front and publishing the new read index. *)
Lemma drop_spec b n : wf b -> n <= getReadSpace b ->
  exists r', wrap (reader b + n) (size b) = Some r' /\
    let b' := Ring (buf b) (writer b) r' (size b) in
    wf b' /\ contents b' = drop n (contents b).
Proof.
  intros H Hn. pose proof (readSpace_lt b H) as Hr. pose proof H as (Hl&?&?).
  exists (slot (size b) (reader b) n). split.
  { rewrite wrap_once by lia. unfold slot. done. }
  cbn zeta. set (r' := slot _ _ _).
  assert (Hrs : getReadSpace (Ring (buf b) (writer b) r' (size b)) = getReadSpace b - n).
  { unfold getReadSpace, readSpaceFor, r', slot in *. cbn in *.
    repeat case_decide; try lia. }
  assert (Hwf : wf (Ring (buf b) (writer b) r' (size b))).
  { split; [done|]. cbn. unfold r', slot. case_decide; lia. }
  split; [done|]. apply contents_eq; [done| |].
  { rewrite drop_length, contents_length, Hrs by done. done. }
  intros i. rewrite drop_length, contents_length by done. intros Hi.
  rewrite lookup_drop, contents_lookup by (try done; lia).
  cbn [buf size reader]. f_equal. unfold r', slot. repeat case_decide; lia.
Qed.

Lemma ring_new_wf n (junk : list T) : length junk = n + 1 -> wf (ring_new n junk).
Proof. intros H. unfold wf, ring_new; cbn. lia. Qed.

Lemma ring_new_contents n (junk : list T) : contents (ring_new n junk) = [].
Proof. done. Qed.

Lemma clamp_min n a : (if decide (a < n) then a else n) = n `min` a.
Proof. case_decide; lia. Qed.

Lemma write_spec b s n : wf b -> n <= length s ->
  exists b', write b s n = Some (b', n `min` getWriteSpace b) /\ wf b' /\
    size b' = size b /\ contents b' = contents b ++ take (n `min` getWriteSpace b) s.
Proof.
  intros H Hn. unfold write. fold (getWriteSpace b). rewrite clamp_min.
  case_decide as Hz.
  { exists b. rewrite Hz. rewrite take_0, app_nil_r. auto. }
  rewrite load_ok by lia. cbn [mbind option_bind]. rewrite drop_0.
  destruct (append_spec b (take (n `min` getWriteSpace b) s) H) as (buf' & w' & Hc & Hw & Hwf & Hct & _).
  { rewrite take_length. lia. }
  rewrite Hc. cbn [mbind option_bind].
  rewrite take_length, Nat.min_l in Hw by lia. rewrite Hw. cbn [mbind option_bind].
  eexists; split; [done|]. auto.
Qed.

Lemma zero_spec (z : T) b n : wf b ->
  exists b', zero_fill z b n = Some (b', n `min` getWriteSpace b) /\ wf b' /\
    size b' = size b /\ contents b' = contents b ++ replicate (n `min` getWriteSpace b) z.
Proof.
  intros H. unfold zero_fill. fold (getWriteSpace b). rewrite clamp_min.
  case_decide as Hz.
  { exists b. rewrite Hz. cbn. rewrite app_nil_r. auto. }
  destruct (append_spec b (replicate (n `min` getWriteSpace b) z) H) as (buf' & w' & Hc & Hw & Hwf & Hct & _).
  { rewrite replicate_length. lia. }
  rewrite Hc. cbn [mbind option_bind].
  rewrite replicate_length in Hw. rewrite Hw. cbn [mbind option_bind].
  eexists; split; [done|]. auto.
Qed.

Lemma read_spec b d n : wf b -> n <= length d ->
  let k := n `min` getReadSpace b in
  exists b', read b d n = Some (b', take k (contents b) ++ drop k d, k) /\ wf b' /\
    size b' = size b /\ contents b' = drop k (contents b).
Proof.
  intros H Hn k. unfold read. fold (getReadSpace b). rewrite clamp_min. fold k.
  case_decide as Hz.
  { exists b. rewrite Hz. rewrite take_0, !drop_0. auto. }
  rewrite copy_out_spec by (try done; lia). cbn [mbind option_bind].
  assert (Hlen : length (take k (contents b)) = k).
  { rewrite take_length, contents_length by done. lia. }
  rewrite store_ok by lia. cbn [mbind option_bind].
  destruct (drop_spec b k H ltac:(lia)) as (r' & Hw & Hwf & Hct).
  rewrite Hw. cbn [mbind option_bind].
  rewrite Hlen, take_0. cbn. eexists; split; [done|]. auto.
Qed.

Lemma readAdding_spec add b d n : wf b -> n <= length d ->
  let k := n `min` getReadSpace b in
  exists b', readAdding add b d n
     = Some (b', zip_with add (take k d) (take k (contents b)) ++ drop k d, k) /\ wf b' /\
    size b' = size b /\ contents b' = drop k (contents b).
Proof.
  intros H Hn k. unfold readAdding. fold (getReadSpace b). rewrite clamp_min. fold k.
  case_decide as Hz.
  { exists b. rewrite Hz. rewrite !take_0, !drop_0. auto. }
  rewrite copy_out_spec by (try done; lia). cbn [mbind option_bind].
  assert (Hlen : length (take k (contents b)) = k).
  { rewrite take_length, contents_length by done. lia. }
  rewrite load_ok by lia. cbn [mbind option_bind]. rewrite drop_0.
  assert (Hlz : length (zip_with add (take k d) (take k (contents b))) = k).
  { rewrite zip_with_length, Hlen, take_length. lia. }
  rewrite store_ok by lia. cbn [mbind option_bind].
  destruct (drop_spec b k H ltac:(lia)) as (r' & Hw & Hwf & Hct).
  rewrite Hw. cbn [mbind option_bind].
  rewrite Hlz, take_0. cbn. eexists; split; [done|]. auto.
Qed.

Lemma peek_spec b d n : wf b -> n <= length d ->
  let k := n `min` getReadSpace b in
  peek b d n = Some (take k (contents b) ++ drop k d, k).
Proof.
  intros H Hn k. unfold peek. fold (getReadSpace b). rewrite clamp_min. fold k.
  case_decide as Hz.
  { rewrite Hz. rewrite take_0, !drop_0. auto. }
  rewrite copy_out_spec by (try done; lia). cbn [mbind option_bind].
  assert (Hlen : length (take k (contents b)) = k).
  { rewrite take_length, contents_length by done. lia. }
  rewrite store_ok by lia. cbn [mbind option_bind].
  rewrite Hlen, take_0. done.
Qed.

Lemma skip_spec b n : wf b ->
  let k := n `min` getReadSpace b in
  exists b', skip b n = Some (b', k) /\ wf b' /\
    size b' = size b /\ contents b' = drop k (contents b).
Proof.
  intros H k. unfold skip. fold (getReadSpace b). rewrite clamp_min. fold k.
  case_decide as Hz.
  { exists b. rewrite Hz. rewrite drop_0. auto. }
  destruct (drop_spec b k H ltac:(lia)) as (r' & Hw & Hwf & Hct).
  rewrite Hw. cbn [mbind option_bind]. eexists; split; [done|]. auto.
Qed.

Lemma readSpace_zero b : wf b -> getReadSpace b = 0 <-> writer b = reader b.
Proof.
  intros (?&?&?). unfold getReadSpace, readSpaceFor. repeat case_decide; lia.
Qed.

Lemma head_lookup (q : list T) : head q = q !! 0.
Proof. by destruct q. Qed.

Lemma peekOne_spec z b : wf b -> peekOne z b = Some (default z (head (contents b))).
Proof.
  intros H. unfold peekOne. pose proof (readSpace_zero b H) as Hz.
  case_decide as Hd.
  - rewrite (nil_length_inv (contents b)); [done|]. rewrite contents_length; tauto.
  - rewrite head_lookup, contents_lookup by (try done; lia).
    destruct H as (Hl&Hw&Hr). unfold slot. rewrite decide_True by lia. rewrite Nat.add_0_r.
    destruct (lookup_lt_is_Some_2 (buf b) (reader b)) as [x ->]; [lia|done].
Qed.

Lemma readOne_spec z b : wf b ->
  exists b', readOne z b = Some (b', default z (head (contents b))) /\ wf b' /\
    size b' = size b /\ contents b' = drop 1 (contents b).
Proof.
  intros H. pose proof (peekOne_spec z b H) as Hp. unfold peekOne in Hp. unfold readOne.
  pose proof (readSpace_zero b H) as Hz.
  destruct (decide (writer b = reader b)) as [Hd|Hd].
  - exists b. injection Hp as Hp. split; [by rewrite <- Hp|].
    rewrite (nil_length_inv (contents b)); [done|]. rewrite contents_length; tauto.
  - rewrite Hp. cbn [mbind option_bind].
    destruct (drop_spec b 1 H ltac:(lia)) as (r' & Hw & Hwf & Hct).
    assert (r' = if decide (reader b + 1 = size b) then 0 else reader b + 1) as <-.
    { destruct H as (?&?&?). rewrite wrap_once in Hw by lia. injection Hw as <-.
      repeat case_decide; lia. }
    eexists; split; [done|]. auto.
Qed.

Lemma reset_spec b : wf b -> wf (reset b) /\ contents (reset b) = [].
Proof.
  intros (?&?&?). split; [done|].
  unfold contents, getReadSpace, readSpaceFor, reset. cbn.
  rewrite !decide_False by lia. done.
Qed.

Lemma step_refines z add b o : wf b -> op_ok o ->
  exists b' r, step z add b o = Some (b', r) /\ wf b' /\ size b' = size b /\
    spec_step z add (getSize b) (contents b) o = (contents b', r).
Proof.
  intros H Ho.
  pose proof (contents_length b H) as Hcl. pose proof (writeSpace_eq b H) as Hws.
  destruct o as [s n|n|d n|d n| |d n| |n| | |]; cbn [step op_ok spec_step] in *.
  - destruct (write_spec b s n H Ho) as (b' & -> & Hwf & Hs & Hc). cbn [mbind option_bind].
    exists b', (RCount (n `min` getWriteSpace b)). split_and!; try done.
    by rewrite Hcl, <- Hws, Hc.
  - destruct (zero_spec z b n H) as (b' & -> & Hwf & Hs & Hc). cbn [mbind option_bind].
    exists b', (RCount (n `min` getWriteSpace b)). split_and!; try done.
    by rewrite Hcl, <- Hws, Hc.
  - destruct (read_spec b d n H Ho) as (b' & -> & Hwf & Hs & Hc). cbn [mbind option_bind].
    eexists b', _. split_and!; try done. by rewrite Hcl, Hc.
  - destruct (readAdding_spec add b d n H Ho) as (b' & -> & Hwf & Hs & Hc). cbn [mbind option_bind].
    eexists b', _. split_and!; try done. by rewrite Hcl, Hc.
  - destruct (readOne_spec z b H) as (b' & -> & Hwf & Hs & Hc). cbn [mbind option_bind].
    eexists b', _. split_and!; try done. rewrite Hc. by destruct (contents b).
  - rewrite (peek_spec b d n H Ho). cbn [mbind option_bind]. eexists b, _. split_and!; try done. by rewrite Hcl.
  - rewrite (peekOne_spec z b H). cbn [mbind option_bind]. eexists b, _. split_and!; try done.
  - destruct (skip_spec b n H) as (b' & -> & Hwf & Hs & Hc). cbn [mbind option_bind].
    eexists b', _. split_and!; try done. by rewrite Hcl, Hc.
  - destruct (reset_spec b H) as [Hwf Hc]. eexists (reset b), _. split_and!; try done.
    by rewrite Hc.
  - eexists b, _. split_and!; try done. by rewrite Hcl.
  - eexists b, _. split_and!; try done. by rewrite Hcl, Hws.
Qed.

Lemma run_refines z add os : forall b, wf b -> Forall op_ok os ->
  exists b' rs, run z add b os = Some (b', rs) /\ wf b' /\ size b' = size b /\
    spec_run z add (getSize b) (contents b) os = (contents b', rs).
Proof.
  induction os as [|o os IH]; intros b H Hos; cbn [run spec_run].
  { exists b, []. auto. }
  inversion Hos as [|? ? Ho Hos']; subst.
  destruct (step_refines z add b o H Ho) as (b1 & r & -> & Hwf & Hs & Hsp).
  cbn [mbind option_bind].
  destruct (IH b1 Hwf Hos') as (b2 & rs & -> & Hwf2 & Hs2 & Hsp2).
  cbn [mbind option_bind]. exists b2, (r :: rs). split_and!; try done.
  { congruence. }
  rewrite Hsp. unfold getSize in *. rewrite Hs in Hsp2. by rewrite Hsp2.
Qed.

(** Trace-level FIFO law of the specification queue. *)
Lemma spec_fifo z add cap os : forall q q' rs,
  Forall op_ok os -> Forall transfer_op os ->
  spec_run z add cap q os = (q', rs) ->
  q ++ accepted z os rs = delivered os rs ++ q'.
Proof.
  induction os as [|o os IH]; intros q q' rs Hok Ht Hr; cbn in *.
  { injection Hr as <- <-. cbn. by rewrite app_nil_r. }
  inversion Hok as [|? ? Ho Hok']; subst. inversion Ht as [|? ? Hto Ht']; subst.
  destruct (spec_step z add cap q o) as [q1 r] eqn:Hs.
  destruct (spec_run z add cap q1 os) as [q2 rs2] eqn:Hs2.
  injection Hr as <- <-. cbn.
  specialize (IH _ _ _ Hok' Ht' Hs2).
  destruct o as [s n|n|d n|d n| |d n| |n| | |]; cbn in Hs, Hto, Ho; try done;
    injection Hs as <- <-; cbn; try done.
  - by rewrite app_assoc.
  - by rewrite app_assoc.
  - rewrite take_app_alt by (rewrite take_length; lia).
    rewrite <- app_assoc, <- IH, app_assoc, firstn_skipn. done.
Qed.

(** Capacity bound of the specification queue. *)
Lemma spec_bounded z add cap os : forall q q' rs, length q <= cap ->
  spec_run z add cap q os = (q', rs) -> length q' <= cap.
Proof.
  induction os as [|o os IH]; intros q q' rs Hq Hr; cbn in *.
  { by injection Hr as <- <-. }
  destruct (spec_step z add cap q o) as [q1 r] eqn:Hs.
  destruct (spec_run z add cap q1 os) as [q2 rs2] eqn:Hs2.
  injection Hr as <- <-. eapply IH; [|done].
  destruct o as [s n|n|d n|d n| |d n| |n| | |]; cbn in Hs;
    try (injection Hs as <- <-; rewrite ?app_length, ?take_length, ?replicate_length, ?drop_length; lia).
  all: try (destruct q; injection Hs as <- <-; cbn in *; lia).
Qed.

(** [resized] *)
Lemma resized_loop_spec b : wf b -> forall k fuel nb,
  k <= getReadSpace b -> k <= fuel -> wf nb ->
  exists nb', resized_loop fuel b (slot (size b) (reader b) (getReadSpace b - k)) nb = Some nb' /\
    wf nb' /\ size nb' = size nb /\
    contents nb' = contents nb ++
       take (getWriteSpace nb) (drop (getReadSpace b - k) (contents b)).
Proof.
  intros H. pose proof (readSpace_lt b H) as Hlt. pose proof (contents_length b H) as Hcl.
  induction k as [|k IH]; intros fuel nb Hk Hf Hnb.
  - exists nb. replace (getReadSpace b - 0) with (getReadSpace b) by lia.
    rewrite drop_ge by lia. rewrite take_nil, app_nil_r.
    assert (slot (size b) (reader b) (getReadSpace b) = writer b) as ->.
    { destruct H as (?&?&?). unfold slot, getReadSpace, readSpaceFor. repeat case_decide; lia. }
    destruct fuel; cbn; rewrite decide_True by done; auto.
  - destruct fuel as [|fuel]; [lia|]. cbn [resized_loop].
    assert (Hne : slot (size b) (reader b) (getReadSpace b - S k) <> writer b).
    { destruct H as (?&?&?). unfold slot, getReadSpace, readSpaceFor in *. repeat case_decide; lia. }
    rewrite decide_False by done.
    rewrite <- contents_lookup by (try done; lia).
    destruct (lookup_lt_is_Some_2 (contents b) (getReadSpace b - S k)) as [x Hx]; [lia|].
    rewrite Hx. cbn [mbind option_bind].
    destruct (write_spec nb [x] 1 Hnb ltac:(cbn; lia)) as (nb1 & -> & Hwf1 & Hs1 & Hc1).
    cbn [mbind option_bind fst].
    assert ((if decide (slot (size b) (reader b) (getReadSpace b - S k) + 1 = size b) then 0
            else slot (size b) (reader b) (getReadSpace b - S k) + 1) =
            slot (size b) (reader b) (getReadSpace b - k)) as ->.
    { destruct H as (?&?&?). unfold slot. repeat case_decide; lia. }
    destruct (IH fuel nb1 ltac:(lia) ltac:(lia) Hwf1) as (nb2 & -> & Hwf2 & Hs2 & Hc2).
    exists nb2. split_and!; try done; try congruence.
    rewrite Hc2, Hc1, <- app_assoc. f_equal.
    pose proof (writeSpace_eq nb Hnb). pose proof (writeSpace_eq nb1 Hwf1).
    pose proof (contents_length nb Hnb). pose proof (contents_length nb1 Hwf1) as Hl1.
    rewrite Hc1, app_length, take_length in Hl1. cbn [length] in Hl1.
    pose proof (readSpace_lt nb Hnb).
    unfold getSize in *.
    rewrite (drop_S _ x (getReadSpace b - S k)) by done.
    replace (S (getReadSpace b - S k)) with (getReadSpace b - k) by lia.
    destruct (getWriteSpace nb) as [|ws] eqn:Hws.
    + rewrite (Nat.min_r 1 0) by lia. cbn.
      replace (getWriteSpace nb1) with 0 by lia. by rewrite take_0.
    + rewrite (Nat.min_l 1 (S ws)) by lia. cbn. f_equal. f_equal. lia.
Qed.

Lemma resized_spec b n (junk : list T) : wf b -> length junk = n + 1 ->
  exists nb, resized b n junk = Some nb /\ wf nb /\ getSize nb = n /\
    contents nb = take n (contents b).
Proof.
  intros H Hj. pose proof (readSpace_lt b H).
  destruct (resized_loop_spec b H (getReadSpace b) (size b) (ring_new n junk)) as (nb & Hr & Hwf & Hs & Hc);
    [lia|lia|by apply ring_new_wf|].
  rewrite Nat.sub_diag in Hr.
  assert (slot (size b) (reader b) 0 = reader b) as Hslot.
  { destruct H as (?&?&?). unfold slot. case_decide; lia. }
  rewrite Hslot in Hr. exists nb. split_and!; try done.
  { unfold getSize. rewrite Hs. cbn. lia. }
  rewrite Hc, Nat.sub_diag, drop_0, ring_new_contents, app_nil_l. f_equal.
  unfold getWriteSpace, writeSpaceFor, ring_new. cbn [writer reader size]. case_decide; lia.
Qed.

Lemma peek_skip_read b d n : wf b -> n <= length d ->
  exists d' k b', peek b d n = Some (d', k) /\ skip b n = Some (b', k) /\
             read b d n = Some (b', d', k).
Proof.
  intros H Hn. destruct (read_spec b d n H Hn) as (b1 & Hr & _ & _ & _).
  rewrite (peek_spec b d n H Hn).
  eexists _, _, b1. split; [done|]. split; [|done].
  revert Hr. unfold read, skip. fold (getReadSpace b). rewrite !clamp_min.
  destruct (decide (n `min` getReadSpace b = 0)) as [Hz|Hz].
  { intros [= <- _]. by rewrite Hz. }
  destruct (copy_out b (reader b) _); cbn [mbind option_bind]; [|done].
  destruct (store d 0 _); cbn [mbind option_bind]; [|done].
  destruct (wrap _ _); cbn [mbind option_bind]; [|done].
  by intros [= <- _].
Qed.

Lemma read_read b d1 d2 m n : wf b -> m <= length d1 -> n <= length d2 ->
  exists b1 b2 e1 e2 k1 k2, read b d1 m = Some (b1, e1, k1) /\ read b1 d2 n = Some (b2, e2, k2) /\
    forall d, m + n <= length d -> exists e, read b d (m + n) = Some (b2, e, k1 + k2) /\
      take (k1 + k2) e = take k1 e1 ++ take k2 e2.
Proof.
  intros H Hm Hn.
  destruct (read_spec b d1 m H Hm) as (b1 & Hr1 & Hwf1 & Hs1 & Hc1).
  destruct (read_spec b1 d2 n Hwf1 Hn) as (b2 & Hr2 & Hwf2 & Hs2 & Hc2).
  pose proof (contents_length b H) as L. pose proof (contents_length b1 Hwf1) as L1.
  rewrite Hc1, drop_length in L1.
  eexists b1, b2, _, _, _, _. split; [done|]. split; [done|].
  intros d Hd. destruct (read_spec b d (m+n) H Hd) as (b3 & Hr3 & Hwf3 & Hs3 & Hc3).
  assert (Hk : m `min` getReadSpace b + n `min` getReadSpace b1 = (m + n) `min` getReadSpace b) by lia.
  exists (take ((m + n) `min` getReadSpace b) (contents b) ++ drop ((m + n) `min` getReadSpace b) d).
  rewrite Hk. split.
  - rewrite Hr3. f_equal. f_equal. f_equal.
    assert (Hcore : reader b3 = reader b2 /\ buf b3 = buf b2 /\ writer b3 = writer b2).
    { (* read changes only the read index, by the amount read *)
      assert (Hgen : forall b d n b' e, wf b -> n <= length d ->
         read b d n = Some (b', e, n `min` getReadSpace b) ->
         buf b' = buf b /\ writer b' = writer b /\
         reader b' = slot (size b) (reader b) (n `min` getReadSpace b)).
      { clear. intros b d n b' e H Hn. pose proof (readSpace_lt b H).
        unfold read. fold (getReadSpace b). rewrite clamp_min.
        case_decide as Hz.
        - intros [= <- _ _]. rewrite Hz. unfold slot. destruct H as (?&?&?).
          rewrite decide_True by lia. rewrite Nat.add_0_r. done.
        - destruct (copy_out b (reader b) _); cbn [mbind option_bind]; [|done].
          destruct (store d 0 _); cbn [mbind option_bind]; [|done].
          destruct H as (?&?&?). rewrite wrap_once by lia. cbn [mbind option_bind]. intros [= <- _]. done. }
      destruct (Hgen _ _ _ _ _ H Hm Hr1) as (A1&A2&A3).
      destruct (Hgen _ _ _ _ _ Hwf1 Hn Hr2) as (B1&B2&B3).
      destruct (Hgen _ _ _ _ _ H Hd Hr3) as (C1&C2&C3).
      rewrite B1, B2, B3, C1, C2, C3, A1, A2, A3, Hs1. split_and!; try done.
      pose proof (readSpace_lt b H). destruct H as (?&?&?).
      rewrite <- Hk. unfold slot. repeat case_decide; lia. }
    destruct Hcore as (E1&E2&E3). destruct b3, b2; cbn in *. congruence.
  - rewrite !take_app_alt by (rewrite take_length, contents_length by done; lia).
    rewrite Hc1, <- Hk, take_take_drop. done.
Qed.

End proofs.

(** Final forms used by [Props.v]. *)
Section final.
Context {T : Type} (zero : T) (add : T -> T -> T).

Definition reachable (n : nat) (b : ring T) : Prop :=
  exists junk os rs, length junk = n + 1 /\ Forall op_ok os /\
    run zero add (ring_new n junk) os = Some (b, rs).

Lemma getSize_new n (junk : list T) : getSize (ring_new n junk) = n.
Proof. unfold getSize, ring_new; cbn. lia. Qed.

Lemma final_fifo n (junk : list T) os : length junk = n + 1 -> Forall op_ok os ->
  exists b, run zero add (ring_new n junk) os
            = Some (b, snd (spec_run zero add n [] os)).
Proof.
  intros Hj Hos.
  destruct (run_refines zero add os _ (ring_new_wf n junk Hj) Hos) as (b & rs & Hr & Hwf & Hs & Hsp).
  rewrite getSize_new, ring_new_contents in Hsp. exists b. by rewrite Hsp.
Qed.

Lemma reachable_wf n b : reachable n b -> wf b /\ getSize b = n.
Proof.
  intros (junk & os & rs & Hj & Hos & Hr).
  destruct (run_refines zero add os _ (ring_new_wf n junk Hj) Hos) as (b' & rs' & Hr' & Hwf & Hs & Hsp).
  rewrite Hr in Hr'. injection Hr' as <- <-. split; [done|].
  unfold getSize. rewrite Hs. cbn. lia.
Qed.

Lemma final_in_order n (junk : list T) os b rs : length junk = n + 1 ->
  Forall op_ok os -> Forall transfer_op os ->
  run zero add (ring_new n junk) os = Some (b, rs) ->
  exists rest, accepted zero os rs = delivered os rs ++ rest /\
    length rest = getReadSpace b /\
    forall d, length rest <= length d ->
      exists b', read b d (length rest) = Some (b', rest ++ drop (length rest) d, length rest).
Proof.
  intros Hj Hos Ht Hr.
  destruct (run_refines zero add os _ (ring_new_wf n junk Hj) Hos) as (b' & rs' & Hr' & Hwf & Hs & Hsp).
  rewrite Hr in Hr'. injection Hr' as <- <-.
  rewrite getSize_new, ring_new_contents in Hsp.
  pose proof (spec_fifo zero add n os [] _ _ Hos Ht Hsp) as Hf. cbn in Hf.
  pose proof (contents_length b Hwf) as Hl.
  exists (contents b). split; [done|]. split; [done|].
  intros d Hd. destruct (read_spec b d (length (contents b)) Hwf Hd) as (b2 & Hr2 & _).
  rewrite <- Hl, Nat.min_id in Hr2. rewrite (take_ge (contents b)) in Hr2 by lia. eauto.
Qed.

Lemma final_space n b : reachable n b ->
  getReadSpace b + getWriteSpace b = getSize b /\ getSize b = n /\
  forall o, op_ok o -> exists b' r, step zero add b o = Some (b', r).
Proof.
  intros H. destruct (reachable_wf n b H) as [Hwf Hsz].
  pose proof (readSpace_lt b Hwf). pose proof (writeSpace_eq b Hwf). unfold getSize in *.
  split; [lia|]. split; [done|]. intros o Ho.
  destruct (step_refines zero add b o Hwf Ho) as (b' & r & Hs & _). eauto.
Qed.

Lemma final_peek_skip n b d k : reachable n b -> k <= length d ->
  exists d' c b', peek b d k = Some (d', c) /\ skip b k = Some (b', c) /\
             read b d k = Some (b', d', c).
Proof. intros H. apply peek_skip_read. by apply (reachable_wf n). Qed.

Lemma final_read_split n b d1 d2 i j : reachable n b -> i <= length d1 -> j <= length d2 ->
  exists b1 b2 e1 e2 k1 k2, read b d1 i = Some (b1, e1, k1) /\ read b1 d2 j = Some (b2, e2, k2) /\
    forall d, i + j <= length d -> exists e, read b d (i + j) = Some (b2, e, k1 + k2) /\
      take (k1 + k2) e = take k1 e1 ++ take k2 e2.
Proof. intros H. apply read_read. by apply (reachable_wf n). Qed.

(** What a reader would get if it drained the buffer now. *)
Definition drains_to (b : ring T) (q : list T) : Prop :=
  length q = getReadSpace b /\
  forall d, length q <= length d ->
    exists b', read b d (length q) = Some (b', q ++ drop (length q) d, length q).

Lemma drains_contents b : wf b -> drains_to b (contents b).
Proof.
  intros Hwf. pose proof (contents_length b Hwf) as Hl. split; [done|].
  intros d Hd. destruct (read_spec b d (length (contents b)) Hwf Hd) as (b2 & Hr2 & _).
  rewrite <- Hl, Nat.min_id in Hr2. rewrite (take_ge (contents b)) in Hr2 by lia. eauto.
Qed.

Lemma final_resized n b m (junk : list T) q : reachable n b -> length junk = m + 1 ->
  drains_to b q ->
  exists nb, resized b m junk = Some nb /\ getSize nb = m /\ drains_to nb (take m q).
Proof.
  intros H Hj [Hq1 Hq2]. destruct (reachable_wf n b H) as [Hwf _].
  destruct (resized_spec b m junk Hwf Hj) as (nb & Hr & Hnwf & Hns & Hnc).
  exists nb. split; [done|]. split; [done|].
  assert (q = contents b) as ->.
  { destruct (drains_contents b Hwf) as [Hc1 Hc2].
    destruct (Hq2 q ltac:(lia)) as [b1 Hb1]. destruct (Hc2 q ltac:(lia)) as [b2 Hb2].
    replace (length (contents b)) with (length q) in Hb2 by congruence.
    rewrite Hb1 in Hb2. injection Hb2 as _ Heq.
    apply app_inj_1 in Heq as [-> _]; [done|congruence]. }
  rewrite <- Hnc. by apply drains_contents.
Qed.

(** After a resize every later history on the new buffer is that of a fresh
    buffer of the new capacity pre-filled with the kept samples. *)
Lemma final_resized_future n b m (junk : list T) os : reachable n b -> length junk = m + 1 ->
  Forall op_ok os ->
  exists nb b' q, drains_to b q /\ resized b m junk = Some nb /\
    run zero add nb os = Some (b', snd (spec_run zero add m (take m q) os)).
Proof.
  intros H Hj Hos. destruct (reachable_wf n b H) as [Hwf _].
  destruct (resized_spec b m junk Hwf Hj) as (nb & Hr & Hnwf & Hns & Hnc).
  destruct (run_refines zero add os nb Hnwf Hos) as (b' & rs & Hrun & _ & _ & Hsp).
  exists nb, b', (contents b). split; [by apply drains_contents|]. split; [done|].
  rewrite Hns, Hnc in Hsp. by rewrite Hsp.
Qed.

(** Partial form of the short-read promise: the transferred prefix is right and
    the rest of the destination keeps its previous contents. *)
Lemma final_short_read n b d k q : reachable n b -> drains_to b q ->
  length q < k -> k <= length d ->
  (exists b', read b d k = Some (b', q ++ drop (length q) d, length q)) /\
  peek b d k = Some (q ++ drop (length q) d, length q).
Proof.
  intros H [Hq1 Hq2] Hk Hd. destruct (reachable_wf n b H) as [Hwf _].
  assert (q = contents b) as ->.
  { destruct (drains_contents b Hwf) as [Hc1 Hc2].
    destruct (Hq2 q ltac:(lia)) as [b1 Hb1]. destruct (Hc2 q ltac:(lia)) as [b2 Hb2].
    replace (length (contents b)) with (length q) in Hb2 by congruence.
    rewrite Hb1 in Hb2. injection Hb2 as _ Heq.
    apply app_inj_1 in Heq as [-> _]; [done|congruence]. }
  destruct (read_spec b d k Hwf Hd) as (b2 & Hr2 & _).
  pose proof (peek_spec b d k Hwf Hd) as Hp.
  cbn zeta in *. rewrite <- Hq1, Nat.min_r in Hr2, Hp by lia.
  rewrite (take_ge (contents b)) in Hr2, Hp by lia. eauto.
Qed.
End final.
