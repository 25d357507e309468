From stdpp Require Import base list numbers sorting.
From Coq Require Import ZArith Lia ZifyNat ZifyBool.
From Verif.Scavenger Require Import Model Spec Proofs Conc.
Local Open Scope Z_scope.

Section proofs.
Context {T : Type}.
Implicit Types (s : cst T) (l : list (option T * Z)).

Definition chand (p : cpc T) : list T :=
  match p with
  | CScan _ t _ | CTime _ t _ | CPtr _ t | CExcess t => [t]
  | _ => []
  end.
Definition shand (p : spc T) : list T := match p with SDel _ ot _ _ => [ot] | _ => [] end.
Definition cpend (p : cpc T) : Z := match p with CCount | CCount2 _ => 1 | _ => 0 end.
Definition spend (p : spc T) : Z := match p with SDel _ _ _ _ | SInc _ _ _ => 1 | _ => 0 end.

Definition cloc (s : cst T) (p : cpc T) : Prop :=
  match p with
  | CScan _ t sec => (t, sec) ∈ c_issued s
  | CTime i t sec => (t, sec) ∈ c_issued s /\ exists x, c_objs s !! i = Some (None, x)
  | CPtr i t => exists x, c_objs s !! i = Some (None, x) /\ (t, x) ∈ c_issued s
  | CCount2 v => v = c_claimed s
  | _ => True
  end.
Definition sloc (ms : Z) (s : cst T) (p : spc T) : Prop :=
  match p with
  | STest i _ _ _ => exists t x, c_objs s !! i = Some (Some t, x)
  | SLoad i cn sec => exists t x, c_objs s !! i = Some (Some t, x) /\ (cn = false -> x + ms < sec)
  | STake i ot cn sec => exists x, c_objs s !! i = Some (Some ot, x) /\ (cn = false -> x + ms < sec)
  | SDel i ot cn sec => exists x, (ot, x) ∈ c_issued s /\ (cn = false -> x + ms < sec)
  | _ => True
  end.

Record cinv (ms : Z) (n : nat) (s : cst T) (p : cpc T) : Prop := {
  ci_thr : c_threads s = [p];
  ci_perm : (c_issued s).*1 ≡ₚ
     c_deleted s ++ held (c_objs s) ++ c_excess s ++ chand p ++ shand (c_scav s);
  ci_cnt : c_claimed s + cpend p = c_scavenged s + spend (c_scav s) + Z.of_nat (length (held (c_objs s)));
  ci_s0 : 0 <= c_scavenged s;
  ci_c0 : 0 <= c_claimed s;
  ci_sb : c_scavenged s + spend (c_scav s) <= Z.of_nat (length (c_deleted s ++ shand (c_scav s)));
  ci_len : length (c_objs s) = n;
  ci_slots : forall t x, (Some t, x) ∈ c_objs s -> (t, x) ∈ c_issued s;
  ci_c : cloc s p;
  ci_s : sloc ms s (c_scav s)
}.

Lemma held_insert_some l i x t y : l !! i = Some (None, x) ->
  held (<[i := (Some t, y)]> l) ≡ₚ t :: held l.
Proof.
  revert i. induction l as [|[f z] l IH]; intros i H; [done|]. destruct i as [|i]; cbn in *.
  - by injection H as -> ->.
  - destruct f; cbn; [|by apply IH]. change (t0 :: held (<[i:=(Some t, y)]> l) ≡ₚ t :: t0 :: held l).
    rewrite (IH _ H). constructor.
Qed.
Lemma held_insert_none l i x t y : l !! i = Some (Some t, x) ->
  held l ≡ₚ t :: held (<[i := (None, y)]> l).
Proof.
  revert i. induction l as [|[f z] l IH]; intros i H; [done|]. destruct i as [|i]; cbn in *.
  - by injection H as -> ->.
  - destruct f; cbn; [|by apply IH]. change (t0 :: held l ≡ₚ t :: t0 :: held (<[i:=(None, y)]> l)).
    rewrite (IH _ H). constructor.
Qed.
Lemma held_insert_time l i x y : l !! i = Some (None, x) -> held (<[i := (None, y)]> l) = held l.
Proof.
  revert i. induction l as [|[f z] l IH]; intros i H; [done|]. destruct i as [|i]; cbn in *.
  - by injection H as -> ->.
  - specialize (IH _ H). destruct f; [f_equal|]; exact IH.
Qed.
Local Arguments held : simpl never.
Lemma elem_insert l i v u : u ∈ <[i := v]> l -> u = v \/ u ∈ l.
Proof.
  intros H. apply elem_of_list_lookup in H as [j Hj].
  destruct (decide (j = i)) as [->|Hne].
  - destruct (decide (i < length l)%nat).
    + rewrite list_lookup_insert in Hj by done. left. congruence.
    + rewrite list_insert_ge in Hj by lia. right. by eapply elem_of_list_lookup_2.
  - rewrite list_lookup_insert_ne in Hj by done. right. by eapply elem_of_list_lookup_2.
Qed.

Lemma cinv_bound ms n s p : cinv ms n s p -> Z.of_nat (length (c_issued s)) + 1 < 2 ^ 32 ->
  c_claimed s + 1 < 2 ^ 32 /\ c_scavenged s + 1 < 2 ^ 32.
Proof.
  intros H Hb. pose proof (Permutation_length (ci_perm _ _ _ _ H)) as L.
  rewrite fmap_length, !app_length in L. destruct H as [? ? C ? ? B ? ? ? ?].
  rewrite app_length in B. assert (0 <= cpend p) by (destruct p; cbn; lia).
  assert (0 <= spend (c_scav s)) by (destruct (c_scav s); cbn; lia). lia.
Qed.

Lemma cinv_step ms n s p (l : label T) s' : cinv ms n s p -> lstep ms s l = Some s' ->
  Z.of_nat (length (c_issued s)) + 1 < 2 ^ 32 ->
  exists p', cinv ms n s' p'.
Proof.
  intros H Hst Hb. pose proof (cinv_bound _ _ _ _ H Hb) as [Hbc Hbs].
  destruct H as [Ht Hp Hc H0 Hc0 Hsb Hl Hs Hcl Hsl]. destruct l as [k t sec|k now|cn sec|]; cbn in Hst.
  - rewrite Ht in Hst. destruct k as [|k]; [|by destruct k]. cbn in Hst.
    destruct p; try done. injection Hst as <-. exists (CScan 0 t sec).
    constructor; cbn in *; auto; try lia.
    + rewrite fmap_app, Hp. cbn. rewrite <- !app_assoc. do 3 apply Permutation_app_head.
      apply Permutation_app_comm.
    + intros u x Hu. apply elem_of_app; left; auto.
    + apply elem_of_app; right. by apply elem_of_list_singleton.
    + destruct (c_scav s); cbn in *; auto. destruct Hsl as (x & A & B). exists x.
      split; [apply elem_of_app; by left|done].
  - unfold cstep in Hst. rewrite Ht in Hst. destruct k as [|k]; [|by destruct k].
    cbn [lookup list_lookup mbind option_bind] in Hst.
    destruct p as [|i t sec|i t sec|i t| |v|t]; [done|..].
    + destruct (c_objs s !! i) as [[[u|] x]|] eqn:E; injection Hst as <-.
      * exists (CScan (S i) t sec). constructor; cbn in *; auto. by rewrite Ht.
      * exists (CTime i t sec). constructor; cbn in *; eauto. by rewrite Ht.
      * exists (CExcess t). constructor; cbn in *; auto. by rewrite Ht.
    + destruct Hcl as [Hi [x E]]. rewrite E in Hst. cbn in Hst. injection Hst as <-.
      exists (CPtr i t). pose proof (lookup_lt_Some _ _ _ E).
      constructor; cbn in *; auto; try (by rewrite Ht); rewrite ?(held_insert_time _ _ _ _ E); auto.
      * by rewrite insert_length.
      * intros u y Hu. apply elem_insert in Hu as [Hu|Hu]; [done|auto].
      * exists sec. by rewrite list_lookup_insert.
      * destruct (c_scav s); cbn in *; auto; destruct Hsl as [? Hsl]; 
        [destruct Hsl as (y & Hy)|destruct Hsl as (y & Hy & Hz)|destruct Hsl as (Hy & Hz)];
        (destruct (decide (i0 = i)) as [->|]; [rewrite E in Hy; done|]);
        rewrite list_lookup_insert_ne by done; eauto.
    + destruct Hcl as (x & E & Hi). rewrite E in Hst. cbn in Hst. injection Hst as <-.
      exists CCount. pose proof (lookup_lt_Some _ _ _ E).
      pose proof (held_insert_some _ _ _ t x E) as HP.
      constructor; cbn in *; auto; try (by rewrite Ht).
      * rewrite HP, Hp. apply Permutation_app_head. cbn. rewrite Permutation_middle.
        apply Permutation_app_head. rewrite Permutation_middle. done.
      * apply Permutation_length in HP. cbn in HP. lia.
      * by rewrite insert_length.
      * intros u y Hu. apply elem_insert in Hu as [Hu|Hu]; [|auto]. injection Hu as -> ->. done.
      * destruct (c_scav s); cbn in *; auto; destruct Hsl as [? Hsl]; 
        [destruct Hsl as (y & Hy)|destruct Hsl as (y & Hy & Hz)|destruct Hsl as (Hy & Hz)];
        (destruct (decide (i0 = i)) as [->|]; [rewrite E in Hy; done|]);
        rewrite list_lookup_insert_ne by done; eauto.
    + injection Hst as <-. exists (CCount2 (c_claimed s)). constructor; cbn in *; auto. by rewrite Ht.
    + injection Hst as <-. exists CIdle. cbn in Hcl, Hc. subst v.
      constructor; cbn in *; auto; try (by rewrite Ht); rewrite u32_small by lia; lia.
    + injection Hst as <-. exists CIdle. constructor; cbn in *; auto; try (by rewrite Ht).
      by rewrite Hp, <- !app_assoc.
  - destruct (c_scav s) eqn:E; try done. injection Hst as <-. exists p.
    constructor; cbn in *; auto. 
  - unfold sstep1 in Hst. exists p. destruct (c_scav s) as [|cn sec|i cn sec any|i cn sec any|i cn sec|i ot cn sec|i ot cn sec|i cn sec|cn sec any|sec] eqn:E; [done|..].
    + injection Hst as <-. destruct (c_claimed s <=? c_scavenged s); constructor; cbn in *; auto.
    + destruct (c_objs s !! i) as [[[u|] x]|] eqn:E2; injection Hst as <-; constructor; cbn in *; eauto.
    + destruct Hsl as (t & x & E2). rewrite E2 in Hst. cbn in Hst. injection Hst as <-.
      destruct (cn || (x + ms <? sec)) eqn:E3; constructor; cbn in *; auto.
      exists t, x. split; [done|]. intros ->. lia.
    + destruct Hsl as (t & x & E2 & Hx). rewrite E2 in Hst. cbn in Hst. injection Hst as <-.
      constructor; cbn in *; eauto.
    + destruct Hsl as (x & E2 & Hx). rewrite E2 in Hst. cbn in Hst. injection Hst as <-.
      pose proof (held_insert_none _ _ _ _ x E2) as HP. pose proof (lookup_lt_Some _ _ _ E2).
      constructor; cbn in *; auto.
      * rewrite Hp, HP. apply Permutation_app_head. rewrite app_nil_r, !(assoc_L (++)).
        cbn. apply Permutation_cons_append.
      * apply Permutation_length in HP. cbn in HP. lia.
      * rewrite app_nil_r in Hsb. rewrite app_length. cbn. lia.
      * by rewrite insert_length.
      * intros u y Hu. apply elem_insert in Hu as [Hu|Hu]; [done|auto].
      * destruct p; cbn in *; auto.
        { destruct Hcl as (A & y & B). split; [done|]. exists y.
          destruct (decide (i0 = i)) as [->|]; [rewrite E2 in B; done|].
          by rewrite list_lookup_insert_ne. }
        { destruct Hcl as (y & A & B). exists y. split; [|done].
          destruct (decide (i0 = i)) as [->|]; [rewrite E2 in A; done|].
          by rewrite list_lookup_insert_ne. }
      * exists x. split; [|done]. apply Hs. by eapply elem_of_list_lookup_2.
    + injection Hst as <-. constructor; cbn in *; auto.
      * rewrite Hp, <- !app_assoc. apply Permutation_app_head. rewrite app_nil_r, !(assoc_L (++)).
        rewrite Permutation_app_comm. by rewrite <- !app_assoc.
      * rewrite app_nil_r. done.
    + injection Hst as <-. constructor; cbn in *; auto; try (rewrite u32_small by lia; lia).
    + injection Hst as <-. destruct (cn || any || (c_last s + ms <? sec)); constructor; cbn in *; auto.
    + injection Hst as <-. constructor; cbn in *; auto.
      * rewrite Hp, <- !app_assoc. apply Permutation_app_head. rewrite !app_nil_r.
        rewrite !(assoc_L (++)). apply Permutation_app_tail. apply Permutation_app_comm.
      * rewrite app_nil_r in Hsb |- *. rewrite app_length. lia.
Qed.

Lemma cinv_new ms n : cinv ms n (c_new n 1) CIdle.
Proof.
  assert (held (replicate n (None, 0)) = @nil T) as E.
  { unfold held. clear. induction n; cbn; auto. }
  constructor; cbn; auto; try lia.
  - rewrite E. done.
  - rewrite E. done.
  - by rewrite replicate_length.
  - intros t x H. apply elem_of_replicate in H as [? _]. done.
Qed.

Lemma issued_mono ms s (l : label T) s' : lstep ms s l = Some s' ->
  (length (c_issued s) <= length (c_issued s'))%nat.
Proof.
  destruct l as [k t sec|k now|cn sec|]; cbn.
  - destruct (c_threads s !! k) as [p|]; cbn; [|done]. destruct p; try done.
    intros H; injection H as <-. cbn. rewrite app_length. lia.
  - unfold cstep. destruct (c_threads s !! k) as [p|]; cbn; [|done].
    destruct p; try done; cbn.
    + destruct (c_objs s !! i) as [[[?|] ?]|]; intros H; injection H as <-; done.
    + destruct (c_objs s !! i) as [[? ?]|]; cbn; [|done]. intros H; injection H as <-; done.
    + destruct (c_objs s !! i) as [[? ?]|]; cbn; [|done]. intros H; injection H as <-; done.
    + intros H; injection H as <-; done.
    + intros H; injection H as <-; done.
    + intros H; injection H as <-; done.
  - destruct (c_scav s); try done. intros H; injection H as <-; done.
  - unfold sstep1. destruct (c_scav s); try done; cbn.
    all: try (intros H; injection H as <-; done).
    + destruct (c_objs s !! i) as [[[?|] ?]|]; intros H; injection H as <-; done.
    + destruct (c_objs s !! i) as [[? ?]|]; cbn; [|done]. intros H; injection H as <-; done.
    + destruct (c_objs s !! i) as [[[?|] ?]|]; cbn; try done. intros H; injection H as <-; done.
    + destruct (c_objs s !! i) as [[? ?]|]; cbn; [|done]. intros H; injection H as <-; done.
Qed.
Lemma issued_mono_run ms ls : forall s s', lrun ms s ls = Some s' ->
  (length (c_issued s) <= length (c_issued s'))%nat.
Proof.
  induction ls as [|l ls IH]; cbn; intros s s' H; [by injection H as <-|].
  destruct (lstep ms s l) as [s1|] eqn:E; cbn in H; [|done].
  apply issued_mono in E. apply IH in H. lia.
Qed.

Lemma cinv_run ms n ls : forall s p s', cinv ms n s p -> lrun ms s ls = Some s' ->
  Z.of_nat (length (c_issued s')) + 1 < 2 ^ 32 -> exists p', cinv ms n s' p'.
Proof.
  induction ls as [|l ls IH]; cbn; intros s p s' H Hr Hb; [injection Hr as <-; eauto|].
  destruct (lstep ms s l) as [s1|] eqn:E; cbn in Hr; [|done].
  pose proof (issued_mono _ _ _ _ E). pose proof (issued_mono_run _ _ _ _ Hr).
  destruct (cinv_step ms n s p l s1 H E) as [p1 HH]; [lia|]. eauto.
Qed.

Lemma final_conc_once ms n ls s : lrun ms (c_new n 1) ls = Some s ->
  Z.of_nat (length (c_issued s)) + 1 < 2 ^ 32 ->
  (exists rest, (c_issued s).*1 ≡ₚ c_deleted s ++ rest) /\
  (quiescent s -> (c_issued s).*1 ≡ₚ c_deleted s ++ snd (destroy (to_scav ms s))).
Proof.
  intros Hr Hb. destruct (cinv_run ms n ls _ _ s (cinv_new ms n) Hr Hb) as [p H].
  pose proof (cinv_bound _ _ _ _ H Hb) as [Hbc Hbs].
  destruct H as [Ht Hp Hc H0 Hc0 Hsb Hl Hs Hcl Hsl].
  split; [eauto|]. intros [Hq1 Hq2]. rewrite Ht in Hq1. apply Forall_cons_1 in Hq1 as [-> _].
  rewrite Hq2 in *. cbn [chand shand cpend spend] in *. rewrite !app_nil_r in *.
  apply (destroy_spec n ms (to_scav ms s)); [|rewrite fmap_length; lia].
  unfold sinv, to_scav; cbn [objs excess claimed scavenged msec]. split_and!; auto; try lia.
  apply Permutation_length in Hp. rewrite !app_length in Hp. lia.
Qed.

(** Grace period, concurrently: a slot object is deleted by an unforced sweep
    only when its time is up. *)
Lemma final_conc_grace ms n ls s i ot sec : lrun ms (c_new n 1) ls = Some s ->
  Z.of_nat (length (c_issued s)) + 1 < 2 ^ 32 ->
  c_scav s = SDel i ot false sec ->
  exists x, (ot, x) ∈ c_issued s /\ x + ms < sec.
Proof.
  intros Hr Hb E. destruct (cinv_run ms n ls _ _ s (cinv_new ms n) Hr Hb) as [p H].
  destruct H as [Ht Hp Hc H0 Hc0 Hsb Hl Hs Hcl Hsl]. rewrite E in Hsl. cbn in Hsl.
  destruct Hsl as (x & A & B). eauto.
Qed.

(** No step of a reachable state is stuck on a null pointer or a bad slot. *)
Lemma final_conc_progress ms n ls s : lrun ms (c_new n 1) ls = Some s ->
  Z.of_nat (length (c_issued s)) + 1 < 2 ^ 32 ->
  (c_scav s <> SIdle -> is_Some (lstep ms s LS)) /\
  (c_threads s <> [CIdle] -> forall now, is_Some (lstep ms s (LC 0 now))).
Proof.
  intros Hr Hb. destruct (cinv_run ms n ls _ _ s (cinv_new ms n) Hr Hb) as [p H].
  destruct H as [Ht Hp Hc H0 Hc0 Hsb Hl Hs Hcl Hsl]. split.
  - intros Hne. cbn. unfold sstep1. destruct (c_scav s); try done; cbn in Hsl; try (eexists; done).
    + destruct (c_objs s !! i) as [[[?|] ?]|]; eauto.
    + destruct Hsl as (t & x & ->). cbn. eauto.
    + destruct Hsl as (t & x & -> & _). cbn. eauto.
    + destruct Hsl as (x & -> & _). cbn. eauto.
  - intros Hne now. cbn. unfold cstep. rewrite Ht in *. cbn.
    destruct p; try done; cbn in Hcl; try (eexists; done).
    + destruct (c_objs s !! i) as [[[?|] ?]|]; eauto.
    + destruct Hcl as (_ & x & ->). cbn. eauto.
    + destruct Hcl as (x & -> & _). cbn. eauto.
Qed.
End proofs.
