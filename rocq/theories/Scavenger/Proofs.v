From stdpp Require Import base list numbers sorting.
From Coq Require Import ZArith Lia ZifyNat ZifyBool.
From Verif.Scavenger Require Import Model Spec.
Local Open Scope Z_scope.

Section proofs.
Context {T : Type}.
Implicit Types (s : scav T) (l : list (option T * Z)).

Definition held l : list T := omap fst l.

Lemma put_first_held l t sec l' : put_first l t sec = Some l' ->
  held l' ≡ₚ t :: held l /\ length l' = length l.
Proof.
  revert l'. induction l as [|[[u|] x] l IH]; cbn; intros l' H; [done| |].
  - destruct (put_first l t sec) as [l1|]; cbn in *; [|done]. injection H as <-.
    destruct (IH l1 eq_refl) as [A B]. cbn. split; [|lia]. rewrite A. constructor.
  - injection H as <-. done.
Qed.
Lemma put_first_none l t sec : put_first l t sec = None -> length (held l) = length l.
Proof.
  induction l as [|[[u|] x] l IH]; cbn; intros H; [done| |done].
  destruct (put_first l t sec); cbn in *; [done|]. unfold held in IH. by rewrite IH.
Qed.
Lemma held_le l : (length (held l) <= length l)%nat.
Proof. unfold held. induction l as [|[[u|] x] l IH]; cbn; lia. Qed.

Definition small (k : Z) := k < 2 ^ 32.

Lemma u32_small k : 0 <= k -> k + 1 < 2 ^ 32 -> u32_incr k = k + 1.
Proof. intros. unfold u32_incr. apply Z.mod_small. lia. Qed.

Lemma sweep_spec l cn ms sec : forall cnt r d c, sweep l cn ms sec cnt = (r, d, c) ->
  0 <= cnt -> cnt + Z.of_nat (length (held l)) < 2 ^ 32 ->
  held l ≡ₚ d ++ held r /\ c = cnt + Z.of_nat (length d) /\ length r = length l /\
  (cn = true -> held r = []) /\
  (forall t x, (Some t, x) ∈ r -> (Some t, x) ∈ l) /\
  (cn = false -> forall t, t ∈ d -> exists x, (Some t, x) ∈ l /\ x + ms < sec).
Proof.
  induction l as [|[[u|] x] l IH]; cbn; intros cnt r d c H H0 H1.
  - injection H as <- <- <-. cbn. split_and!; auto; try lia. intros _ t Ht. by apply elem_of_nil in Ht.
  - destruct (cn || (x + ms <? sec)) eqn:E.
    + destruct (sweep l cn ms sec (u32_incr cnt)) as [[r1 d1] c1] eqn:Es. injection H as <- <- <-.
      rewrite u32_small in Es by (unfold held in *; cbn in *; lia).
      destruct (IH _ _ _ _ Es) as (A & B & C & D & E1 & F); [lia|unfold held in *; cbn in *; lia|].
      cbn. split_and!; auto; try lia.
      * intros t y Ht. apply elem_of_cons in Ht as [Ht|Ht]; [done|]. right. auto.
      * intros -> t Ht. apply elem_of_cons in Ht as [->|Ht].
        { exists x. split; [left|lia]. }
        destruct (F eq_refl t Ht) as (y & ? & ?). exists y. split; [by right|done].
    + destruct (sweep l cn ms sec cnt) as [[r1 d1] c1] eqn:Es. injection H as <- <- <-.
      destruct (IH _ _ _ _ Es) as (A & B & C & D & E1 & F); [lia|unfold held in *; cbn in *; lia|].
      cbn. split_and!; auto; try lia.
      * change (u :: held l ≡ₚ d1 ++ u :: held r1). rewrite A. by rewrite Permutation_middle.
      * intros t y Ht. apply elem_of_cons in Ht as [Ht|Ht]; [rewrite Ht; left|]. right. auto.
      * intros -> t Ht. destruct (F eq_refl t Ht) as (y & ? & ?). exists y. split; [by right|done].
  - destruct (sweep l cn ms sec cnt) as [[r1 d1] c1] eqn:Es. injection H as <- <- <-.
    destruct (IH _ _ _ _ Es) as (A & B & C & D & E1 & F); [lia|unfold held in *; cbn in *; lia|].
    cbn. split_and!; auto; try lia.
    * intros t y Ht. apply elem_of_cons in Ht as [Ht|Ht]; [done|]. right. auto.
    * intros Hc t Ht. destruct (F Hc t Ht) as (y & ? & ?). exists y. split; [by right|done].
Qed.

(** What is in hand is what was handed over and not deleted; counters agree. *)
Definition sinv (n : nat) (sec : Z) s (all deleted : list T) : Prop :=
  all ≡ₚ deleted ++ held (objs s) ++ excess s /\
  claimed s = scavenged s + Z.of_nat (length (held (objs s))) /\
  0 <= scavenged s /\ claimed s <= Z.of_nat (length all) /\
  length (objs s) = n /\ msec s = sec.

Lemma sinv_new n sec : sinv n sec (scav_new sec n) [] [].
Proof.
  assert (held (replicate n (None, 0)) = []) as E.
  { unfold held. induction n; cbn; auto. }
  unfold sinv, scav_new; cbn [objs excess claimed scavenged msec]. rewrite E. split_and!; auto; try (cbn; lia). by rewrite replicate_length.
Qed.

Lemma sinv_step n sec s all del o : sinv n sec s all del ->
  Z.of_nat (length all) + 1 < 2 ^ 32 ->
  sinv n sec (fst (sstep s o)) (all ++ handed_over [o]) (del ++ snd (sstep s o)).
Proof.
  intros (A & B & C & D & E & F) Hb. destruct o as [t c1 c2|cn now]; cbn [sstep fst snd handed_over omap list_omap].
  - unfold claim. destruct (put_first (objs s) t c1) as [l|] eqn:Ep.
    + destruct (put_first_held _ _ _ _ Ep) as [P1 P2].
      unfold sinv; cbn [objs excess claimed scavenged msec]. rewrite (u32_small (claimed s)) by lia.
      rewrite app_nil_r, app_length. cbn [length].
      split_and!; try lia.
      * rewrite P1, A. rewrite <- !app_assoc. cbn. apply Permutation_app_head.
        rewrite Permutation_middle. rewrite (Permutation_app_comm (excess s) [t]). done.
      * apply Permutation_length in P1. cbn in P1. lia.
    + unfold sinv, pushExcess; cbn [objs excess claimed scavenged msec]. rewrite app_nil_r, app_length. cbn [length]. split_and!; auto; try lia.
      rewrite A, <- !app_assoc. done.
  - rewrite app_nil_r. unfold scavenge. destruct (Z.leb_spec (claimed s) (scavenged s)).
    + cbn. rewrite app_nil_r. done.
    + destruct (sweep (objs s) cn (msec s) now (scavenged s)) as [[l d] c] eqn:Es.
      destruct (sweep_spec _ _ _ _ _ _ _ _ Es) as (P1 & P2 & P3 & P4 & _); [lia|lia|].
      pose proof (Permutation_length P1) as PL. rewrite app_length in PL.
      destruct (cn || negb (Nat.eqb (length d) 0) || _); cbn.
      * unfold sinv; cbn [objs excess claimed scavenged msec]. split_and!; auto; try lia.
        rewrite A, P1, <- !app_assoc, app_nil_r. apply Permutation_app_head.
        apply Permutation_app_head. apply Permutation_app_comm.
      * unfold sinv; cbn [objs excess claimed scavenged msec]. split_and!; auto; try lia. by rewrite A, P1, <- !app_assoc.
Qed.

Lemma handed_over_app (a b : list (sop T)) : handed_over (a ++ b) = handed_over a ++ handed_over b.
Proof. apply omap_app. Qed.

Lemma srun_inv n sec os : forall s all del, sinv n sec s all del ->
  Z.of_nat (length all) + Z.of_nat (length (handed_over os)) + 1 < 2 ^ 32 ->
  sinv n sec (fst (srun s os)) (all ++ handed_over os) (del ++ concat (snd (srun s os))).
Proof.
  induction os as [|o os IH]; intros s all del H Hb; cbn [srun].
  - cbn. by rewrite !app_nil_r.
  - assert (Hho : handed_over (o :: os) = handed_over [o] ++ handed_over os) by (apply (handed_over_app [o] os)).
    rewrite Hho in Hb |- *. rewrite app_length in Hb.
    destruct (sstep s o) as [s1 d] eqn:E. destruct (srun s1 os) as [s2 ds] eqn:E2. cbn [fst snd].
    pose proof (sinv_step n sec s all del o H ltac:(lia)) as H1. rewrite E in H1. cbn [fst snd] in H1.
    specialize (IH s1 _ _ H1). rewrite E2 in IH. cbn [fst snd] in IH.
    cbn [concat]. rewrite <- !app_assoc in IH. apply IH. rewrite app_length. lia.
Qed.

Lemma destroy_spec n sec s all del : sinv n sec s all del ->
  Z.of_nat (length all) + 1 < 2 ^ 32 ->
  all ≡ₚ del ++ snd (destroy s).
Proof.
  intros (A & B & C & D & E & F) Hb. unfold destroy. destruct (Z.ltb_spec (scavenged s) (claimed s)).
  - destruct (sweep (objs s) true (msec s) 0 (scavenged s)) as [[l d] c] eqn:Es.
    destruct (sweep_spec _ _ _ _ _ _ _ _ Es) as (P1 & P2 & P3 & P4 & _); [lia|lia|]. cbn.
    rewrite A, P1, P4 by done. by rewrite app_nil_r.
  - cbn. assert (held (objs s) = []) as E0 by (apply nil_length_inv; lia). by rewrite A, E0.
Qed.

Lemma final_once n sec (os : list (sop T)) :
  Z.of_nat (length (handed_over os)) + 1 < 2 ^ 32 ->
  let '(s, ds) := srun (scav_new sec n) os in
  (exists rest, handed_over os ≡ₚ concat ds ++ rest) /\
  handed_over os ≡ₚ concat ds ++ snd (destroy s).
Proof.
  intros Hb. pose proof (srun_inv n sec os _ _ _ (sinv_new n sec)) as H. cbn [length app] in H.
  destruct (srun (scav_new sec n) os) as [s ds]. cbn [fst snd] in H. specialize (H ltac:(lia)).
  split.
  - destruct H as [H _]. eauto.
  - eapply destroy_spec; [exact H|]. lia.
Qed.

(** Grace period. *)
Definition ginv s (os : list (sop T)) : Prop :=
  forall t x, (Some t, x) ∈ objs s -> handed_over_at os t x.

Lemma put_first_elem l t sec l' u x : put_first l t sec = Some l' -> (Some u, x) ∈ l' ->
  (u = t /\ x = sec) \/ (Some u, x) ∈ l.
Proof.
  revert l'. induction l as [|[[v|] y] l IH]; cbn; intros l' H Hu; [done| |].
  - destruct (put_first l t sec) as [l1|] eqn:E; cbn in *; [|done]. injection H as <-.
    apply elem_of_cons in Hu as [Hu|Hu]; [rewrite Hu; right; left|].
    destruct (IH l1 eq_refl Hu) as [?|?]; [by left|]. right; by right.
  - injection H as <-. apply elem_of_cons in Hu as [Hu|Hu]; [left; by injection Hu as -> ->|].
    right; by right.
Qed.

Lemma handed_at_mono os o x t : handed_over_at (T := T) os x t -> handed_over_at (os ++ [o]) x t.
Proof. intros [t2 H]. exists t2. apply elem_of_app; by left. Qed.

(** One scavenge: what it deletes came from an expired slot, or from the excess list. *)
Lemma scavenge_deletes n sec s all del now t : sinv n sec s all del ->
  Z.of_nat (length all) + 1 < 2 ^ 32 ->
  t ∈ snd (scavenge s false now) ->
  (exists x, (Some t, x) ∈ objs s /\ x + sec < now) \/ t ∈ excess s.
Proof.
  intros (A & B & C & D & E & F) Hb. unfold scavenge.
  destruct (Z.leb_spec (claimed s) (scavenged s)); [intros Ht; by apply elem_of_nil in Ht|].
  destruct (sweep (objs s) false (msec s) now (scavenged s)) as [[l d] c] eqn:Es.
  destruct (sweep_spec _ _ _ _ _ _ _ _ Es) as (P1 & P2 & P3 & P4 & P5 & P6); [lia|lia|].
  intros Ht. assert (t ∈ d \/ t ∈ excess s) as [Hd|Hd]; [|left|by right].
  - destruct (false || _ || _); cbn in Ht; [|by left]. apply elem_of_app in Ht. done.
  - rewrite F in P6. by apply P6.
Qed.

Lemma ginv_step n sec s os all del o : sinv n sec s all del -> Z.of_nat (length all) + 1 < 2 ^ 32 ->
  ginv s os -> ginv (fst (sstep s o)) (os ++ [o]).
Proof.
  intros (A & B & C & D & E & F) Hb H. destruct o as [t c1 c2|cn now]; cbn [sstep fst].
  - unfold claim. destruct (put_first (objs s) t c1) as [l|] eqn:Ep; intros u x Hu; cbn in Hu.
    + destruct (put_first_elem _ _ _ _ _ _ Ep Hu) as [[-> ->]|Hu']; [|by apply handed_at_mono, H].
      exists c2. apply elem_of_app; right. by apply elem_of_list_singleton.
    + by apply handed_at_mono, H.
  - intros u x Hu. apply handed_at_mono, H. revert Hu. unfold scavenge.
    destruct (Z.leb_spec (claimed s) (scavenged s)); [done|].
    destruct (sweep (objs s) cn (msec s) now (scavenged s)) as [[l d] c] eqn:Es.
    destruct (sweep_spec _ _ _ _ _ _ _ _ Es) as (P1 & P2 & P3 & P4 & P5 & P6); [lia|lia|].
    destruct (_ || _ || _); cbn; apply P5.
Qed.

Lemma srun_snoc s os o : srun (T := T) s (os ++ [o]) =
  let '(s1, ds) := srun s os in let '(s2, d) := sstep s1 o in (s2, ds ++ [d]).
Proof.
  revert s. induction os as [|a os IH]; intros s; cbn.
  - by destruct (sstep s o).
  - destruct (sstep s a) as [s1 d]. rewrite IH. destruct (srun s1 os) as [s2 ds].
    by destruct (sstep s2 o).
Qed.

Lemma overflowed_mono n sec (os : list (sop T)) o t : overflowed n sec os t -> overflowed n sec (os ++ [o]) t.
Proof.
  intros (pre & c1 & c2 & post & -> & H). exists pre, c1, c2, (post ++ [o]).
  split; [by rewrite <- app_assoc|done].
Qed.

Lemma run_ginv n sec os :
  Z.of_nat (length (handed_over os)) + 1 < 2 ^ 32 ->
  ginv (fst (srun (scav_new sec n) os)) os /\
  forall t, t ∈ excess (fst (srun (scav_new sec n) os)) -> overflowed n sec os t.
Proof.
  induction os as [|o os IH] using rev_ind; intros Hb.
  - cbn. split; [|intros t Ht; by apply elem_of_nil in Ht]. intros t x Ht. cbn in Ht.
    apply elem_of_replicate in Ht as [? _]. done.
  - rewrite handed_over_app, app_length in Hb.
    destruct (IH ltac:(lia)) as [G X].
    pose proof (srun_inv n sec os _ _ _ (sinv_new n sec)) as H. cbn [length app] in H.
    specialize (H ltac:(lia)).
    rewrite srun_snoc. destruct (srun (scav_new sec n) os) as [s ds] eqn:Es. cbn [fst snd] in *.
    destruct (sstep s o) as [s2 d] eqn:E2. cbn [fst].
    pose proof (ginv_step n sec s os _ _ o H ltac:(lia) G) as G2. rewrite E2 in G2.
    split; [done|]. intros t Ht.
    destruct o as [u c1 c2|cn now]; cbn [sstep] in E2.
    + injection E2 as <- <-. unfold claim in Ht.
      destruct (put_first (objs s) u c1) as [l|] eqn:Ep; cbn in Ht; [by apply overflowed_mono, X|].
      apply elem_of_app in Ht as [Ht|Ht]; [by apply overflowed_mono, X|].
      apply elem_of_list_singleton in Ht as ->. exists os, c1, c2, []. split; [done|].
      rewrite Es. cbn [snd]. apply put_first_none in Ep.
      destruct H as (A & B & C & D & E & F). apply Permutation_length in A.
      rewrite !app_length in A. unfold outstanding. lia.
    + apply overflowed_mono, X. revert Ht. unfold scavenge in E2.
      destruct (Z.leb_spec (claimed s) (scavenged s)); [by injection E2 as <- <-|].
      destruct (sweep (objs s) cn (msec s) now (scavenged s)) as [[l d1] c] eqn:Esw.
      destruct (_ || _ || _); cbn in E2; injection E2 as <- <-; cbn; [|done].
      intros Ht; by apply elem_of_nil in Ht.
Qed.

Lemma final_grace n sec (os : list (sop T)) now t :
  Z.of_nat (length (handed_over os)) + 1 < 2 ^ 32 ->
  t ∈ snd (scavenge (fst (srun (scav_new sec n) os)) false now) ->
  (exists x, handed_over_at os t x /\ x + sec < now) \/ overflowed n sec os t.
Proof.
  intros Hb Ht. destruct (run_ginv n sec os Hb) as [G X].
  pose proof (srun_inv n sec os _ _ _ (sinv_new n sec)) as H. cbn [length app] in H.
  specialize (H ltac:(lia)).
  destruct (scavenge_deletes n sec _ _ _ now t H ltac:(lia) Ht) as [(x & Hx & Hlt)|Hx].
  - left. exists x. split; [by apply G|done].
  - right. by apply X.
Qed.

(** Excess objects exist only while every slot is taken. *)
Definition full_inv s : Prop := excess s <> [] -> length (held (objs s)) = length (objs s).

Lemma sweep_old l ms sec : forall cnt, Forall (fun p => p.1 <> None -> p.2 + ms < sec) l ->
  held (fst (fst (sweep l false ms sec cnt))) = [] /\
  (held l <> [] -> snd (fst (sweep l false ms sec cnt)) <> []).
Proof.
  induction l as [|[[u|] x] l IH]; cbn; intros cnt H; [done| |];
    apply Forall_cons_1 in H as [H1 H2]; cbn in H1.
  - specialize (H1 ltac:(done)). apply Z.ltb_lt in H1. rewrite H1.
    destruct (IH (u32_incr cnt) H2) as [A _].
    destruct (sweep l false ms sec (u32_incr cnt)) as [[r d] c]. cbn in *. done.
  - destruct (IH cnt H2) as [A B]. destruct (sweep l false ms sec cnt) as [[r d] c]. done.
Qed.

Lemma full_step n sec s all del o : sinv n sec s all del -> Z.of_nat (length all) + 1 < 2 ^ 32 ->
  full_inv s -> full_inv (fst (sstep s o)).
Proof.
  intros (A & B & C & D & E & F) Hb H. destruct o as [t c1 c2|cn now]; cbn [sstep fst].
  - unfold claim. destruct (put_first (objs s) t c1) as [l|] eqn:Ep; intros Hne; cbn in *.
    + specialize (H Hne). destruct (put_first_held _ _ _ _ Ep) as [P1 P2].
      apply Permutation_length in P1. cbn in P1. pose proof (held_le l). lia.
    + by apply put_first_none in Ep.
  - unfold scavenge. destruct (Z.leb_spec (claimed s) (scavenged s)); [done|].
    destruct (sweep (objs s) cn (msec s) now (scavenged s)) as [[l d] c] eqn:Es.
    destruct (sweep_spec _ _ _ _ _ _ _ _ Es) as (P1 & P2 & P3 & P4 & P5 & P6); [lia|lia|].
    destruct (Nat.eqb_spec (length d) 0) as [Hd|Hd].
    + apply nil_length_inv in Hd as ->. rewrite app_nil_l in P1. apply Permutation_length in P1.
      destruct (_ || _ || _); intros Hne; cbn [fst clearExcess excess objs] in *; [done|]. specialize (H Hne). lia.
    + rewrite orb_true_r. cbn. by intros Hne.
Qed.

Lemma run_full n sec os : Z.of_nat (length (handed_over os)) + 1 < 2 ^ 32 ->
  full_inv (fst (srun (scav_new (T := T) sec n) os)).
Proof.
  induction os as [|o os IH] using rev_ind; intros Hb; [by intros Hne|].
  rewrite handed_over_app, app_length in Hb. specialize (IH ltac:(lia)).
  pose proof (srun_inv n sec os _ _ _ (sinv_new n sec)) as H. cbn [length app] in H.
  specialize (H ltac:(lia)).
  rewrite srun_snoc. destruct (srun (scav_new sec n) os) as [s ds]. cbn [fst snd] in *.
  pose proof (full_step n sec s _ _ o H ltac:(lia) IH) as G. by destruct (sstep s o).
Qed.

Lemma final_all_freed n sec (os : list (sop T)) now :
  (1 <= n)%nat -> Z.of_nat (length (handed_over os)) + 1 < 2 ^ 32 ->
  (forall t x, handed_over_at os t x -> x + sec < now) ->
  let '(s, ds) := srun (scav_new sec n) os in
  handed_over os ≡ₚ concat ds ++ snd (scavenge s false now).
Proof.
  intros Hn Hb Hold. pose proof (run_full n sec os Hb) as HF.
  destruct (run_ginv n sec os Hb) as [G _].
  pose proof (srun_inv n sec os _ _ _ (sinv_new n sec)) as H. cbn [length app] in H.
  specialize (H ltac:(lia)).
  destruct (srun (scav_new sec n) os) as [s ds]. cbn [fst snd] in *.
  destruct H as (A & B & C & D & E & F). unfold scavenge, full_inv in *.
  destruct (Z.leb_spec (claimed s) (scavenged s)).
  - assert (held (objs s) = []) as E0 by (apply nil_length_inv; lia).
    rewrite E0 in *. cbn [length] in HF. assert (excess s = []) as E1.
    { destruct (excess s); [done|]. specialize (HF ltac:(done)). lia. }
    by rewrite A, E1.
  - destruct (sweep_old (objs s) (msec s) now (scavenged s)) as [S1 S2].
    { apply list.Forall_forall. intros [[u|] x] Hx Hu; cbn in *; [|done]. rewrite F. eapply Hold, G, Hx. }
    destruct (sweep (objs s) false (msec s) now (scavenged s)) as [[l d] c] eqn:Es. cbn [fst snd] in *.
    destruct (sweep_spec _ _ _ _ _ _ _ _ Es) as (P1 & P2 & P3 & P4 & P5 & P6); [lia|lia|].
    destruct d as [|d0 d]; [exfalso; apply S2; [|done]; intros E0; rewrite E0 in *; cbn [length] in *; lia|].
    cbn. rewrite A, P1, S1, app_nil_r. done.
Qed.
End proofs.
