From stdpp Require Import base list numbers.
From Coq Require Import Lia ZifyNat.
From Verif.RingBuffer Require Import Model Spec Proofs Conc ConcSpec.

Section proofs.
Context {T : Type}.
Implicit Types s : cst T.

Lemma slot_mod m P i : 0 < m -> i < m -> slot m (P mod m) i = (P + i) mod m.
Proof.
  intros Hm Hi. unfold slot. pose proof (Nat.mod_upper_bound P m ltac:(lia)).
  rewrite (Nat.add_mod P i) by lia. rewrite (Nat.mod_small i) by lia.
  case_decide.
  - rewrite (Nat.mod_small (P mod m + i)); lia.
  - assert (P mod m + i = (P mod m + i - m) + 1 * m) as E by lia.
    rewrite E at 2. rewrite Nat.mod_add by lia. rewrite (Nat.mod_small (_ - _)); lia.
Qed.

Lemma mod_inj m p q : 0 < m -> p mod m = q mod m -> p <= q -> q < p + m -> p = q.
Proof.
  intros Hm He Hl Hu.
  pose proof (Nat.div_mod p m ltac:(lia)). pose proof (Nat.div_mod q m ltac:(lia)).
  rewrite He in *.
  assert (p / m = q / m); [|congruence].
  assert (m * (p / m) <= m * (q / m)) by lia.
  assert (m * (q / m) < m * (p / m) + m) by lia.
  nia.
Qed.

Lemma wrap_mod m P i : 0 < m -> i < m -> wrap (P mod m + i) m = Some ((P + i) mod m).
Proof.
  intros Hm Hi. pose proof (Nat.mod_upper_bound P m ltac:(lia)).
  rewrite wrap_once by lia. f_equal. rewrite <- slot_mod by lia. done.
Qed.

Definition total_read (l : list (rreq * list T * nat)) : nat := list_sum (map snd l).

Lemma total_read_app l1 l2 : total_read (l1 ++ l2) = total_read l1 + total_read l2.
Proof. unfold total_read. by rewrite map_app, list_sum_app. Qed.

Lemma accepted_app (l1 l2 : list (list T * nat)) :
  accepted_stream (l1 ++ l2) = accepted_stream l1 ++ accepted_stream l2.
Proof. unfold accepted_stream. by rewrite map_app, concat_app. Qed.

Lemma consumed_app (l1 l2 : list (rreq * list T * nat)) :
  consumed_stream (l1 ++ l2) = consumed_stream l1 ++ consumed_stream l2.
Proof. unfold consumed_stream. by rewrite map_app, concat_app. Qed.

(** The inductive invariant.  [A] is the accepted stream, [R] the number of
    samples consumed so far; both are stream positions, the indices are their
    residues. *)
Definition winv (A : list T) (R : nat) (s : cst T) : Prop :=
  match wp s with
  | WIdle => True
  | WHaveW xs w => w = length A mod csize s
  | WCopy xs w n i =>
    w = length A mod csize s /\ 0 < n /\ n <= length xs /\ i <= n /\
    length A + n <= R + (csize s - 1) /\
    forall k, k < i -> cbuf s !! ((length A + k) mod csize s) = xs !! k
  end.
Definition rinv (A : list T) (R : nat) (s : cst T) : Prop :=
  match rp s with
  | RIdle => True
  | RHaveW q w => exists W, w = W mod csize s /\ R <= W /\ W <= length A
  | RCopy q r n i got =>
    r = R mod csize s /\ 0 < n /\ n <= req_n q /\ i <= n /\ R + n <= length A /\
    match q with
    | QRead _ => got = take i (drop R A)
    | QSkip _ => got = [] /\ i = n
    end
  end.
Definition inv (s : cst T) : Prop :=
  let A := accepted_stream (wlog s) in
  let R := total_read (rlog s) in
  0 < csize s /\ length (cbuf s) = csize s /\
  cw s = length A mod csize s /\ cr s = R mod csize s /\
  R <= length A /\ length A <= R + (csize s - 1) /\
  (forall p, R <= p -> p < length A -> cbuf s !! (p mod csize s) = A !! p) /\
  Forall2 agrees (consumed_stream (rlog s)) (take R A) /\
  Forall count_ok (rlog s) /\
  winv A R s /\ rinv A R s.

Lemma readSpace_mod m W R : 0 < m -> R <= W -> W <= R + (m - 1) ->
  readSpaceFor m (W mod m) (R mod m) = W - R.
Proof.
  intros Hm H1 H2. assert (W - R < m) by lia.
  pose proof (slot_mod m R (W - R) Hm ltac:(lia)) as Hs.
  replace (R + (W - R)) with W in Hs by lia. rewrite <- Hs.
  pose proof (Nat.mod_upper_bound R m ltac:(lia)).
  unfold slot, readSpaceFor. repeat case_decide; lia.
Qed.

Lemma writeSpace_mod m W R : 0 < m -> R <= W -> W <= R + (m - 1) ->
  writeSpaceFor m (W mod m) (R mod m) = m - 1 - (W - R).
Proof.
  intros Hm H1 H2. assert (W - R < m) by lia.
  pose proof (slot_mod m R (W - R) Hm ltac:(lia)) as Hs.
  replace (R + (W - R)) with W in Hs by lia. rewrite <- Hs.
  pose proof (Nat.mod_upper_bound R m ltac:(lia)).
  unfold slot, writeSpaceFor. repeat case_decide; lia.
Qed.

Lemma wstep_inv s : inv s -> exists s', wstep s = Some s' /\ inv s'.
Proof.
  intros (Hm & Hlen & Hw & Hr & HRA & HAR & Hbuf & Hag & Hct & Hwi & Hri).
  destruct s as [bf w r m wt wpc rt rpc wl rl]. cbn [csize cbuf cw cr wp rp wlog rlog wtodo rtodo] in *.
  unfold wstep. cbn [csize cbuf cw cr wp rp wlog rlog wtodo rtodo]. destruct wpc as [|xs w0|xs w0 n i]; unfold winv in Hwi; cbn [csize cbuf cw cr wp rp wlog rlog wtodo rtodo] in *.
  - destruct wt as [|xs todo].
    + eexists; split; [done|]. unfold inv; cbn [csize cbuf cw cr wp rp wlog rlog wtodo rtodo]. split_and!; auto; try done.
    + eexists; split; [done|]. unfold inv; cbn [csize cbuf cw cr wp rp wlog rlog wtodo rtodo]. split_and!; auto; try done.
  - subst w0. rewrite Hr, writeSpace_mod by lia.
    set (A := accepted_stream wl) in *. set (R := total_read rl) in *.
    destruct (decide (_ = 0)) as [Hz|Hz].
    + eexists; split; [done|]. unfold inv; cbn [csize cbuf cw cr wp rp wlog rlog wtodo rtodo].
      assert (accepted_stream (wl ++ [(xs, 0)]) = A) as ->.
      { rewrite accepted_app. cbn. by rewrite app_nil_r. }
      fold R. split_and!; auto; try done. 
    + eexists; split; [done|]. unfold inv; cbn [csize cbuf cw cr wp rp wlog rlog wtodo rtodo]. fold A R.
      split_and!; auto; try done.
      unfold winv; cbn [csize cbuf cw cr wp rp wlog rlog wtodo rtodo]. case_decide; split_and!; try lia; try done; intros; lia.
  - destruct Hwi as (-> & Hn0 & Hnx & Hin & Hcap & Hst).
    set (A := accepted_stream wl) in *. set (R := total_read rl) in *.
    destruct (decide (i < n)) as [Hi|Hi].
    + destruct (lookup_lt_is_Some_2 xs i) as [x Hx]; [lia|]. rewrite Hx. cbn [mbind option_bind].
      fold (slot m (length A mod m) i). rewrite slot_mod by lia.
      rewrite decide_True by (rewrite Hlen; apply Nat.mod_upper_bound; lia).
      eexists; split; [done|]. unfold inv; cbn [csize cbuf cw cr wp rp wlog rlog wtodo rtodo]. fold A R. split_and!; auto; try done.
      * by rewrite insert_length.
      * intros p Hp1 Hp2. rewrite list_lookup_insert_ne; [auto|].
        intros He. assert (p = length A + i); [|lia].
        apply (mod_inj m); lia.
      * unfold winv; cbn [csize cbuf cw cr wp rp wlog rlog wtodo rtodo]. split_and!; auto; try lia; try done.
        intros k Hk. destruct (decide (k = i)) as [->|Hne].
        -- rewrite list_lookup_insert; [done|]. rewrite Hlen. apply Nat.mod_upper_bound; lia.
        -- rewrite list_lookup_insert_ne; [apply Hst; lia|].
           intros He. apply Hne. 
           destruct (decide (k < i)); [|lia].
           assert (length A + k = length A + i); [|lia]. apply (mod_inj m); lia.
    + assert (i = n) as -> by lia. rewrite wrap_mod by lia. cbn [mbind option_bind].
      eexists; split; [done|]. unfold inv; cbn [csize cbuf cw cr wp rp wlog rlog wtodo rtodo].
      assert (accepted_stream (wl ++ [(xs, n)]) = A ++ take n xs) as ->.
      { rewrite accepted_app. cbn. by rewrite app_nil_r. }
      fold R. assert (Hl' : length (A ++ take n xs) = length A + n).
      { rewrite app_length, take_length. lia. }
      rewrite Hl'. split_and!; auto; try lia; try done.
      * intros p Hp1 Hp2. destruct (decide (p < length A)).
        -- rewrite lookup_app_l by lia. auto.
        -- rewrite lookup_app_r by lia. rewrite lookup_take by lia.
           rewrite <- Hst by lia. f_equal. f_equal. lia.
      * rewrite take_app_le by lia. done.
      * unfold rinv in *; cbn [csize cbuf cw cr wp rp wlog rlog wtodo rtodo] in *. destruct rpc as [|q w0|q r0 n0 i0 got]; [done| |].
        -- destruct Hri as (W & HW & H1 & H2). exists W. split_and!; auto; lia.
        -- destruct Hri as (HR & H1 & H2 & H3 & H4 & H5). split_and!; auto; try lia; try done.
           destruct q; [|done]. rewrite H5. rewrite drop_app_le by lia.
           rewrite take_app_le; [done|]. rewrite drop_length. lia.
Qed.

Lemma rstep_inv s : inv s -> exists s', rstep s = Some s' /\ inv s'.
Proof.
  intros (Hm & Hlen & Hw & Hr & HRA & HAR & Hbuf & Hag & Hct & Hwi & Hri).
  destruct s as [bf w r m wt wpc rt rpc wl rl]. cbn [csize cbuf cw cr wp rp wlog rlog wtodo rtodo] in *.
  unfold rstep. cbn [csize cbuf cw cr wp rp wlog rlog wtodo rtodo]. destruct rpc as [|q w0|q r0 n i got]; unfold rinv in Hri; cbn [csize cbuf cw cr wp rp wlog rlog wtodo rtodo] in *.
  - destruct rt as [|q todo].
    + eexists; split; [done|]. unfold inv; cbn [csize cbuf cw cr wp rp wlog rlog wtodo rtodo]. split_and!; auto; try done.
    + eexists; split; [done|]. unfold inv; cbn [csize cbuf cw cr wp rp wlog rlog wtodo rtodo]. split_and!; auto; try done.
      unfold rinv; cbn [csize cbuf cw cr wp rp wlog rlog wtodo rtodo]. exists (length (accepted_stream wl)). auto.
  - destruct Hri as (W & -> & HW1 & HW2).
    set (A := accepted_stream wl) in *. set (R := total_read rl) in *.
    rewrite Hr, readSpace_mod by lia.
    destruct (decide (_ = 0)) as [Hz|Hz].
    + eexists; split; [done|]. unfold inv; cbn [csize cbuf cw cr wp rp wlog rlog wtodo rtodo]. fold A.
      assert (total_read (rl ++ [(q, [], 0)]) = R) as ->.
      { rewrite total_read_app. cbn. fold R. lia. }
      assert (consumed_stream (rl ++ [(q, [], 0)]) = consumed_stream rl) as ->.
      { rewrite consumed_app. cbn. rewrite app_nil_r. destruct q; cbn; by rewrite app_nil_r. }
      split_and!; auto; try done.
      rewrite Forall_app. split; [done|]. constructor; [|done]. destruct q; cbn; split; auto; lia.
    + eexists; split; [done|]. unfold inv; cbn [csize cbuf cw cr wp rp wlog rlog wtodo rtodo]. fold A R. split_and!; auto; try done.
      unfold rinv; cbn [csize cbuf cw cr wp rp wlog rlog wtodo rtodo]. case_decide; destruct q; cbn in *; split_and!; auto; try lia; try done.
  - destruct Hri as (-> & Hn0 & Hnq & Hin & Hcap & Hgot).
    set (A := accepted_stream wl) in *. set (R := total_read rl) in *.
    destruct (decide (i < n)) as [Hi|Hi].
    + destruct q as [rn|rn]; [|lia].
      fold (slot m (R mod m) i). rewrite slot_mod by lia.
      rewrite Hbuf by lia.
      destruct (lookup_lt_is_Some_2 A (R + i)) as [x Hx]; [lia|]. rewrite Hx. cbn [mbind option_bind].
      eexists; split; [done|]. unfold inv; cbn [csize cbuf cw cr wp rp wlog rlog wtodo rtodo]. fold A R. split_and!; auto; try done.
      unfold rinv; cbn [csize cbuf cw cr wp rp wlog rlog wtodo rtodo]. split_and!; auto; try lia; try done.
      rewrite (take_S_r _ _ x); [by rewrite Hgot|]. by rewrite lookup_drop.
    + assert (i = n) as -> by lia. rewrite wrap_mod by lia. cbn [mbind option_bind].
      eexists; split; [done|]. unfold inv; cbn [csize cbuf cw cr wp rp wlog rlog wtodo rtodo]. fold A.
      assert (total_read (rl ++ [(q, got, n)]) = R + n) as ->.
      { rewrite total_read_app. cbn. fold R. lia. }
      assert (Hgl : match q with QRead _ => length got = n | QSkip _ => got = [] end).
      { destruct q; [|tauto]. rewrite Hgot, take_length, drop_length. lia. }
      split_and!; auto; try lia; try done.
      * intros p Hp1 Hp2. apply Hbuf; lia.
      * rewrite consumed_app. rewrite <- take_take_drop. apply Forall2_app; [done|].
        unfold consumed_stream. cbn. rewrite app_nil_r.
        destruct q as [rn|rn].
        -- rewrite Hgot. apply Forall2_fmap_l, Forall_Forall2_diag.
           apply Forall_forall. intros x _. by right.
        -- apply Forall2_same_length_lookup_2; [rewrite replicate_length, take_length, drop_length; lia|].
           intros k x y Hk _. apply lookup_replicate in Hk as [-> _]. by left.
      * rewrite Forall_app. split; [done|]. constructor; [|done]. destruct q; cbn in *; auto.
      * unfold winv in *; cbn [csize cbuf cw cr wp rp wlog rlog wtodo rtodo] in *. destruct wpc as [|xs w0|xs w0 n0 i0]; auto.
        destruct Hwi as (H1&H2&H3&H4&H5&H6). split_and!; auto; try done. lia.
Qed.

Lemma crun_inv sched : forall s, inv s -> exists s', crun s sched = Some s' /\ inv s'.
Proof.
  induction sched as [|t ts IH]; intros s Hs; cbn.
  { eauto. }
  destruct t.
  - destruct (wstep_inv s Hs) as (s1 & -> & H1). cbn. eauto.
  - destruct (rstep_inv s Hs) as (s1 & -> & H1). cbn. eauto.
Qed.

Lemma cinit_inv n (junk : list T) blocks reqs : length junk = n + 1 -> inv (cinit n junk blocks reqs).
Proof.
  intros H. unfold inv, cinit; cbn [csize cbuf cw cr wp rp wlog rlog wtodo rtodo].
  change (accepted_stream []) with (@nil T). change (total_read []) with 0.
  cbn [length]. rewrite Nat.mod_0_l by lia.
  split_and!; auto; try lia; try done.
  constructor.
Qed.

Lemma inv_norace s j : inv s -> writing s j -> reading s j -> False.
Proof.
  intros (Hm & Hlen & Hw & Hr & HRA & HAR & Hbuf & Hag & Hct & Hwi & Hri).
  unfold writing, reading, winv, rinv in *.
  destruct (wp s) as [|xs w0|xs w0 n i]; try done.
  destruct (rp s) as [|q w1|q r0 n1 i1 got]; try done.
  intros (k & Hk & Ej) (k' & Hk' & Ej').
  destruct Hwi as (-> & ? & ? & ? & ? & _). destruct Hri as (-> & ? & ? & ? & ? & _).
  fold (slot (csize s) (length (accepted_stream (wlog s)) mod csize s) k) in Ej.
  fold (slot (csize s) (total_read (rlog s) mod csize s) k') in Ej'.
  rewrite slot_mod in Ej by lia. rewrite slot_mod in Ej' by lia.
  assert (total_read (rlog s) + k' = length (accepted_stream (wlog s)) + k); [|lia].
  apply (mod_inj (csize s)); [lia|congruence|lia|lia].
Qed.

Lemma total_read_consumed l : Forall count_ok l -> total_read l = length (consumed_stream (T:=T) l).
Proof.
  induction 1 as [|[[q got] k] l H Hl IH]; [done|].
  unfold total_read, consumed_stream in *. cbn. rewrite app_length, <- IH. f_equal.
  destruct q; cbn in *.
  - rewrite map_length. lia.
  - by rewrite replicate_length.
Qed.

Lemma conc_correct n (junk : list T) blocks reqs sched : length junk = n + 1 ->
  exists s, crun (cinit n junk blocks reqs) sched = Some s /\
    (exists unread, Forall2 agrees (consumed_stream (rlog s))
        (take (length (consumed_stream (rlog s))) (accepted_stream (wlog s))) /\
      accepted_stream (wlog s) = take (length (consumed_stream (rlog s))) (accepted_stream (wlog s)) ++ unread /\
      length unread = readSpaceFor (csize s) (cw s) (cr s) /\ length unread <= n) /\
    Forall count_ok (rlog s) /\
    (forall j, ~ (writing s j /\ reading s j)).
Proof.
  intros H. destruct (crun_inv sched _ (cinit_inv n junk blocks reqs H)) as (s & Hs & Hi).
  assert (Hsz : csize s = n + 1).
  { assert (Hg : forall sched s s', crun s sched = Some s' -> csize s' = csize (T:=T) s).
    { clear. induction sched as [|t ts IH]; intros s s' Hr; cbn in Hr.
      { by injection Hr as ->. }
      destruct (if t then wstep s else rstep s) as [s1|] eqn:E; cbn in Hr; [|done].
      rewrite (IH _ _ Hr). destruct s as [bf w r m wt wpc rt rpc wl rl].
      destruct t; unfold wstep, rstep in E; cbn in E; repeat first
        [ case_match | progress (injection E as <-) | done
        | match type of E with context [mbind _ ?x] => destruct x; cbn in E end ];
      done. }
    apply (Hg _ _ _ Hs). }
  exists s. split; [done|].
  pose proof Hi as (Hm & Hlen & Hw & Hr & HRA & HAR & Hbuf & Hag & Hct & Hwi & Hri).
  rewrite (total_read_consumed _ Hct) in *.
  split; [|split; [done|]].
  - eexists (drop _ _). split; [exact Hag|]. split; [symmetry; apply firstn_skipn|].
    rewrite drop_length, Hw, Hr, readSpace_mod by lia. lia.
  - intros j [H1 H2]. eapply inv_norace; eauto.
Qed.
End proofs.
