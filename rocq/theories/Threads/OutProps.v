(** Property C36: retrieving while the worker enlarges the output buffer. *)
From stdpp Require Import prelude.
From Coq Require Import Lia.
From Verif Require Import Threads.OutModel.
From stdpp Require Import list.

(** The client does not retrieve while the worker is replacing the buffer: no [Load] to [Read]
    overlaps a [Copy] to [Install]. *)
Fixpoint apart (s : out) (es : list ev) : Prop :=
  (copied s = None \/ held s = None) /\ match es with [] => True | e :: es => apart (step s e) es end.
(** Nothing is missing in what the client gets: no sample comes before all earlier ones have. *)
Definition gapless (l : list nat) : Prop := forall k x y, l !! k = Some x -> (y < x)%nat -> y ∈ take k l.

(** Everything delivered is delivered gapless, up to [top]; no buffer starts after [top]. *)
Record Inv (s : out) : Prop := MkInv {
  v_cur : exists lo, bufs s !! cur s = Some (lo, produced s);
  v_top : exists top, (forall y, (y < top)%nat -> y ∈ delivered s) /\ (forall y, y ∈ delivered s -> (y < top)%nat) /\ gapless (delivered s) /\
    (forall b lo hi, bufs s !! b = Some (lo, hi) -> (lo <= top)%nat) /\ (forall lo hi, copied s = Some (lo, hi) -> (lo <= top)%nat);
  v_copied : forall lo hi, copied s = Some (lo, hi) -> hi = produced s /\ (lo <= hi)%nat;
  v_ok : forall b lo hi, bufs s !! b = Some (lo, hi) -> (lo <= hi <= produced s)%nat;
  v_held : forall b, held s = Some b -> is_Some (bufs s !! b)
}.
Lemma begin_inv : Inv begin.
Proof.
  constructor; cbn; try done.
  - by exists 0%nat.
  - exists 0%nat. split; [lia|]. split; [intros y Hy; by apply elem_of_nil in Hy|]. split; [intros k x y Hk; by rewrite lookup_nil in Hk|]. split; [|done].
    intros b lo hi Hb. apply list_lookup_singleton_Some in Hb as [_ E]. by injection E as <- <-.
  - intros b lo hi Hb. apply list_lookup_singleton_Some in Hb as [_ E]. by injection E as <- <-.
Qed.
Lemma gapless_app l lo k top : gapless l -> (forall y, (y < top)%nat -> y ∈ l) -> (lo <= top)%nat -> gapless (l ++ seq lo k).
Proof.
  intros Hg Ht Hl j x y Hj Hy. apply lookup_app_Some in Hj as [Hj|[Hge Hj]].
  - rewrite take_app_le by (apply lookup_lt_Some in Hj; lia). by eapply Hg.
  - apply lookup_seq in Hj as [-> Hj]. rewrite take_app_ge by lia. apply elem_of_app. destruct (decide (y < top)%nat) as [H|H]; [left; by apply Ht|right].
    apply elem_of_list_lookup. exists (y - lo)%nat. rewrite lookup_take by lia. apply lookup_seq. lia.
Qed.
Lemma step_inv s e : Inv s -> Inv (step s e).
Proof.
  intros K. destruct (v_cur s K) as [lo0 Hc0]. destruct (v_top s K) as (top & T1 & T2 & T3 & T4 & T5). destruct e as [n| | | |n]; cbn.
  - destruct (copied s) eqn:Hcp; [done|]. rewrite Hc0. destruct K. constructor; cbn; try done.
    + exists lo0. rewrite list_lookup_insert; [done|by eapply lookup_lt_Some].
    + exists top. split; [exact T1|]. split; [exact T2|]. split; [exact T3|]. split; [|done]. intros b lo hi Hb. destruct (decide (b = cur s)) as [->|Hne].
      * rewrite list_lookup_insert in Hb by (by eapply lookup_lt_Some). injection Hb as <- <-. by eapply T4.
      * rewrite list_lookup_insert_ne in Hb by done. by eapply T4.
    + intros b lo hi Hb. destruct (decide (b = cur s)) as [->|Hne].
      * rewrite list_lookup_insert in Hb by (by eapply lookup_lt_Some). injection Hb as <- <-. specialize (v_ok0 _ _ _ Hc0). lia.
      * rewrite list_lookup_insert_ne in Hb by done. specialize (v_ok0 _ _ _ Hb). lia.
    + intros b Hb. apply lookup_lt_is_Some. rewrite insert_length. by apply lookup_lt_is_Some, v_held0.
  - destruct (copied s) eqn:Hcp; [done|]. rewrite Hc0. destruct K. constructor; cbn; try done.
    + exists top. split; [exact T1|]. split; [exact T2|]. split; [exact T3|]. split; [exact T4|]. intros lo hi E. injection E as <- <-. by eapply T4.
    + intros lo hi E. injection E as <- <-. split; [done|]. specialize (v_ok0 _ _ _ Hc0). lia.
  - destruct (copied s) as [[lo1 hi1]|] eqn:Hcp; [|done]. destruct K. pose proof (v_copied0 _ _ Hcp) as [-> Hle]. constructor; cbn; try done.
    + exists lo1. by rewrite list_lookup_middle.
    + exists top. split; [exact T1|]. split; [exact T2|]. split; [exact T3|]. split; [|done]. intros b lo hi Hb. apply lookup_app_Some in Hb as [Hb|[_ Hb]]; [by eapply T4|].
      apply list_lookup_singleton_Some in Hb as [_ E]. injection E as <- <-. by eapply T5.
    + intros b lo hi Hb. apply lookup_app_Some in Hb as [Hb|[_ Hb]]; [by eapply v_ok0|].
      apply list_lookup_singleton_Some in Hb as [_ E]. injection E as <- <-. lia.
    + intros b Hb. apply lookup_lt_is_Some. rewrite app_length. pose proof (proj1 (lookup_lt_is_Some _ _) (v_held0 _ Hb)). lia.
  - destruct (held s) eqn:Hh; [done|]. destruct K. constructor; cbn; try done.
    intros b E. injection E as <-. by eexists.
  - destruct (held s) as [b|] eqn:Hh; [|done]. destruct (bufs s !! b) as [[lo hi]|] eqn:Hb; [|done]. set (k := (n `min` (hi - lo))%nat). destruct K.
    pose proof (v_ok0 _ _ _ Hb) as Hr. pose proof (T4 _ _ _ Hb) as Ht. assert (Hk : (k <= hi - lo)%nat) by lia. clearbody k. constructor; cbn; try done.
    + destruct (decide (b = cur s)) as [->|Hne].
      * rewrite Hc0 in Hb. injection Hb as <- <-. exists (lo0 + k)%nat. rewrite list_lookup_insert; [done|by eapply lookup_lt_Some].
      * exists lo0. by rewrite list_lookup_insert_ne.
    + exists (top `max` (lo + k))%nat. split.
      { intros y Hy. apply elem_of_app. destruct (decide (y < top)%nat); [left; by apply T1|right]. apply elem_of_seq. lia. }
      split; [intros y [Hy|Hy]%elem_of_app; [specialize (T2 _ Hy); lia|apply elem_of_seq in Hy; lia]|]. split; [by eapply gapless_app|]. split.
      * intros c lo' hi' Hc. destruct (decide (c = b)) as [->|Hne].
        -- rewrite list_lookup_insert in Hc by (by eapply lookup_lt_Some). injection Hc as <- <-. lia.
        -- rewrite list_lookup_insert_ne in Hc by done. specialize (T4 _ _ _ Hc). lia.
      * intros lo' hi' Hc. specialize (T5 _ _ Hc). lia.
    + intros c lo' hi' Hc. destruct (decide (c = b)) as [->|Hne].
      * rewrite list_lookup_insert in Hc by (by eapply lookup_lt_Some). injection Hc as <- <-. lia.
      * rewrite list_lookup_insert_ne in Hc by done. by eapply v_ok0.
Qed.
Lemma run_inv es : forall s, Inv s -> Inv (run s es).
Proof. induction es as [|e es IH]; intros s K; [done|]. cbn. by apply IH, step_inv. Qed.

(** ** Without overlap *)
Record Once (s : out) : Prop := MkOnce {
  o_exact : exists lo, bufs s !! cur s = Some (lo, produced s) /\ (lo <= produced s)%nat /\ delivered s = seq 0 lo /\ (forall b, copied s = Some b -> b = (lo, produced s));
  o_held : forall b, held s = Some b -> b = cur s
}.
Lemma step_once s e : Once s -> copied s = None \/ held s = None -> copied (step s e) = None \/ held (step s e) = None -> Once (step s e).
Proof.
  intros [(lo & H1 & H2 & H3 & H4) H5] Ha Ha'. destruct e as [n| | | |n]; cbn in *.
  - destruct (copied s) eqn:Hcp; [by constructor; [exists lo|]; rewrite ?Hcp|]. rewrite H1. constructor; cbn; [|done]. exists lo. split; [|split; [lia|done]].
    rewrite list_lookup_insert; [done|by eapply lookup_lt_Some].
  - destruct (copied s) eqn:Hcp; [by constructor; [exists lo|]; rewrite ?Hcp|]. rewrite H1. constructor; cbn; [|done]. exists lo. split; [done|]. split; [done|]. split; [done|]. intros b E. by injection E as <-.
  - destruct (copied s) as [b|] eqn:Hcp; [|by constructor; [exists lo|]; rewrite ?Hcp]. rewrite (H4 b eq_refl). destruct Ha as [|Hh]; [done|]. constructor; cbn; [|by rewrite Hh].
    exists lo. by rewrite list_lookup_middle.
  - destruct (held s) eqn:Hh; [constructor; [by exists lo|by rewrite Hh]|]. constructor; cbn; [by exists lo|]. intros b E. by injection E as <-.
  - destruct (held s) as [b|] eqn:Hh; [|constructor; [by exists lo|by rewrite Hh]]. pose proof (H5 b eq_refl) as ->. rewrite H1 in *. cbn in *. destruct Ha as [Hcp|]; [|done].
    constructor; cbn; [|done]. set (k := (n `min` (produced s - lo))%nat). exists (lo + k)%nat. split; [rewrite list_lookup_insert; [done|by eapply lookup_lt_Some]|]. split; [lia|].
    split; [by rewrite H3, seq_app|]. by rewrite Hcp.
Qed.
Lemma run_once es : forall s, Once s -> apart s es -> Once (run s es).
Proof.
  induction es as [|e es IH]; intros s K [Ha H]; [done|]. cbn. apply IH; [|done]. apply step_once; [done|done|]. by destruct es; destruct H.
Qed.
Lemma begin_once : Once begin.
Proof. constructor; [|done]. by exists 0%nat. Qed.

(** C36.  As long as the client is not retrieving just while the worker is replacing the
    buffer, it has got every sample once and in order, and the rest is in the buffer. *)
Theorem C36_retrieve_partial es : apart begin es -> let s := run begin es in
  exists lo, bufs s !! cur s = Some (lo, produced s) /\ (lo <= produced s)%nat /\ delivered s = seq 0 lo.
Proof. intros Ha s. destruct (run_once es begin begin_once Ha) as [(lo & H1 & H2 & H3 & _) _]. by exists lo. Qed.
Print Assumptions C36_retrieve_partial.

(** In every interleaving nothing is lost: no sample is delivered before all earlier ones have
    been, and what has not been delivered is in the buffer. *)
Theorem C36_nothing_lost es : let s := run begin es in gapless (delivered s) /\
  exists lo top, bufs s !! cur s = Some (lo, produced s) /\ (lo <= top)%nat /\ (forall y, y ∈ delivered s <-> (y < top)%nat).
Proof.
  intros s. pose proof (run_inv es begin begin_inv) as K. fold s in K. destruct (v_cur s K) as [lo H]. destruct (v_top s K) as (top & T1 & T2 & T3 & T4 & _).
  split; [done|]. exists lo, top. split; [done|]. split; [by eapply T4|]. intros y. split; [apply T2|apply T1].
Qed.
Print Assumptions C36_nothing_lost.

(** But samples may come twice: those read from the old buffer after it has been copied, be it
    before the new one is in place or after, with the address taken before. *)
Theorem C36_retrieve_refuted : exists es es', delivered (run begin es) = [0; 1; 0; 1; 2; 3]%nat /\ delivered (run begin es') = [0; 1; 0; 1; 2; 3]%nat.
Proof. exists [Produce 4; Copy; Load; Read 2; Install; Load; Read 4], [Produce 4; Load; Copy; Install; Read 2; Load; Read 4]. by vm_compute. Qed.
Print Assumptions C36_retrieve_refuted.

Example C36_case : let es := [Produce 4; Load; Read 3; Copy; Install; Produce 5; Load; Read 4] in
  apart begin es /\ delivered (run begin es) = [0; 1; 2; 3; 4; 5; 6]%nat /\ bufs (run begin es) = [(3, 4); (7, 9)]%nat.
Proof. split; [cbn; by auto 20|by vm_compute]. Qed.
