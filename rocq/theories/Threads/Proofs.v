(** The worker thread: what holds in every reachable state, and how far it is from ending. *)
From stdpp Require Import prelude.
From Coq Require Import Lia.
From Verif Require Import Threads.Model Threads.Spec.
From stdpp Require Import list.

Section Proofs.
Context (z : sizes) (Hz : proper z).
Implicit Types s : st.

(** ** The accumulator *)
Lemma piece_going f c si l f' c' : piece z false f c si = (l, f', c') -> (f <= sw z)%nat ->
  l = false /\ c' = c /\ (f' <= sw z)%nat /\ ((si < sw z)%nat -> (0 < f')%nat).
Proof.
  unfold piece. cbn [andb]. intros E Hf. destruct (si <? f `max` sw z)%nat eqn:Es; injection E as <- <- <-.
  - apply Nat.ltb_lt in Es. repeat split; lia.
  - apply Nat.ltb_ge in Es. rewrite orb_false_r. repeat split; lia.
Qed.
Lemma piece_draining f c si l f' c' : piece z true f c si = (l, f', c') -> (1 <= inc z)%nat ->
  (f' <= f)%nat /\ (l = false -> (f' < f)%nat) /\ (l = true <-> f' = 0%nat) /\ ((f = 0%nat -> c = true) -> f' = 0%nat -> c' = true).
Proof.
  unfold piece. cbn [andb]. intros E Hi. destruct (Nat.eqb_spec f 0) as [->|Hf].
  { injection E as <- <- <-. repeat split; auto; done. }
  set (si1 := if (si =? 0)%nat then inc z else si) in *. assert (H1 : (1 <= si1)%nat) by (unfold si1; destruct (Nat.eqb_spec si 0); lia). clearbody si1.
  destruct (Nat.leb_spec f si1) as [Hle|Hgt].
  - rewrite Nat.ltb_irrefl in E. injection E as <- <- <-. rewrite orb_true_r. repeat split; auto; try lia; done.
  - rewrite (proj2 (Nat.ltb_lt si1 f)) in E by lia. injection E as <- <- <-. repeat split; try done; lia.
Qed.
Lemma pieces_going sis : forall f c l0 l f' c', pieces z false f c l0 sis = (l, f', c') -> (f <= sw z)%nat -> l0 = false ->
  l = false /\ c' = c /\ (f' <= sw z)%nat /\ (sis <> [] -> Forall (fun si => (si < sw z)%nat) sis -> (0 < f')%nat).
Proof.
  induction sis as [|si sis IH]; intros f c l0 l f' c' E Hf ->; cbn [pieces] in E.
  { by injection E as <- <- <-. }
  destruct (piece z false f c si) as [[l1 f1] c1] eqn:E1. destruct (piece_going _ _ _ _ _ _ E1 Hf) as (-> & -> & H1 & H2).
  destruct (IH _ _ _ _ _ _ E H1 eq_refl) as (-> & -> & H3 & H4). repeat split; try done. intros _ HF. apply Forall_cons_1 in HF as [HF1 HF].
  destruct sis as [|x sis]; [|by apply H4]. cbn in E. injection E as <-. by apply H2.
Qed.
Lemma pieces_draining sis : forall f c l0 l f' c', pieces z true f c l0 sis = (l, f', c') -> (1 <= inc z)%nat ->
  (f' <= f)%nat /\ (sis <> [] -> (l = false -> (f' < f)%nat) /\ (l = true <-> f' = 0%nat)) /\ ((f = 0%nat -> c = true) -> f' = 0%nat -> c' = true).
Proof.
  induction sis as [|si sis IH]; intros f c l0 l f' c' E Hi; cbn [pieces] in E.
  { injection E as <- <- <-. repeat split; auto; done. }
  destruct (piece z true f c si) as [[l1 f1] c1] eqn:E1. destruct (piece_draining _ _ _ _ _ _ E1 Hi) as (H1 & H2 & H3 & H4).
  destruct (IH _ _ _ _ _ _ E Hi) as (H5 & H6 & H7). split; [lia|]. split; [|auto]. intros _.
  destruct sis as [|x sis]; [cbn in E; injection E as <- <- <-; auto|]. destruct (H6 ltac:(done)) as [H8 H9]. split; [|done]. intros Hl. specialize (H8 Hl). lia.
Qed.
Lemma bits_nonempty sh : bits z sh <> [].
Proof.
  unfold bits. destruct Hz as [_ Hw _]. destruct (Nat.leb_spec sh (aw z)) as [?|Hgt]; [done|].
  assert (H4 : (1 <= aw z / 4)%nat) by (apply (Nat.div_le_mono 4 (aw z) 4); lia).
  assert (H5 : (1 <= (sh + aw z / 4 - 1) / (aw z / 4))%nat).
  { rewrite <- (Nat.div_same (aw z / 4)) at 1 by lia. apply Nat.div_le_mono; lia. }
  destruct ((sh + aw z / 4 - 1) / (aw z / 4))%nat; [lia|done].
Qed.
Lemma bits_small k : overlapping z -> Forall (fun si => (si < sw z)%nat) (bits z (shifts z k)).
Proof.
  intros [Hb Hs]. unfold bits. destruct (Nat.leb_spec (shifts z k) (aw z)) as [Hle|Hgt].
  - constructor; [by apply Hs|done].
  - apply Forall_forall. intros x Hx. apply elem_of_list_fmap in Hx as (i & -> & _). lia.
Qed.

(** ** The invariant *)
Definition okpc s : Prop :=
  match at_ s with
  | Test2 false rs | Wait2 rs => draining s = false -> (0 < rs <= unread s)%nat /\ (chunks s = 0%nat -> (aw z / 2 <= rs)%nat) /\ ((rs < aw z / 2)%nat -> rs = unread s /\ closed s = true)
  | Take false => draining s = false -> (aw z / 2 <= unread s)%nat /\ ((aw z <= unread s)%nat \/ closed s = true)
  | Skip false => draining s = false /\ (aw z / 2 <= unread s)%nat /\ ((aw z <= unread s)%nat \/ closed s = true)
  | Test1 true | Test2 true _ | Take true | Chunk true | Done => draining s = true /\ fill s = 0%nat
  | Skip true => False
  | Abandoned => abandon s = true
  | _ => True
  end.
(** The window being taken counts as taken when its samples have been skipped. *)
Definition skips s : nat := match at_ s with Skip _ => length (windows s) - 1 | _ => length (windows s) end.
Record Inv s : Prop := MkInv {
  i_read : (unread s <= written s)%nat;
  i_some : (0 < unread s)%nat;
  i_fill : (fill s <= sw z)%nat;
  i_drain : draining s = true -> closed s = true /\ (0 < chunks s)%nat /\ forall i, (i < written s)%nat -> covered s i;
  i_first : draining s = false -> chunks s = 0%nat -> at_ s <> Chunk false -> (aw z / 2 <= unread s)%nat;
  i_open : closed s = false -> (aw z / 2 <= unread s)%nat;
  i_pc : okpc s;
  i_pos : written s = (unread s + skips s * inc z)%nat;
  i_count : draining s = false -> length (windows s) = (chunks s + match at_ s with Skip _ | Chunk _ => 1 | _ => 0 end)%nat;
  i_win : forall k a n, windows s !! k = Some (a, n) -> a = (k * inc z)%nat /\ (n = aw z \/ closed s = true /\ (a + n)%nat = written s);
  i_skip : (exists fin, at_ s = Skip fin) -> windows s <> []
}.

Lemma half : (aw z / 2 + inc z <= aw z)%nat.
Proof. destruct Hz as [Hi _ _]. pose proof (Nat.div_mod (aw z) 2 ltac:(lia)). pose proof (Nat.mod_upper_bound (aw z) 2 ltac:(lia)). lia. Qed.

(** Everything up to the end of the last window is covered. *)
Lemma covered_upto s (K : Inv s) k a n i : windows s !! k = Some (a, n) -> (i < a + n)%nat -> covered s i.
Proof.
  revert a n. induction k as [|k IH]; intros a n Hk Hi.
  - destruct (i_win s K 0 a n Hk) as [-> _]. exists 0%nat, n. split; [by eapply elem_of_list_lookup_2|lia].
  - destruct (decide (a <= i)%nat) as [Ha|Ha]; [exists a, n; split; [by eapply elem_of_list_lookup_2|lia]|].
    destruct (windows s !! k) as [[b m]|] eqn:Hb; [|apply lookup_ge_None in Hb; apply lookup_lt_Some in Hk; lia].
    apply (IH b m eq_refl). destruct (i_win s K _ _ _ Hk) as [-> _]. destruct (i_win s K _ _ _ Hb) as [-> [->|[Hc Hw]]].
    + pose proof half. destruct Hz as [? _ _]. nia.
    + rewrite Hw. pose proof (i_pos s K). unfold skips in *. apply lookup_lt_Some in Hk. destruct (at_ s); nia.
Qed.

Lemma start_inv : Inv (start z).
Proof.
  destruct Hz as [Hi Hw Hc]. constructor; cbn -[Nat.div]; try done; try lia.
  - by intros [? ?].
Qed.

(** Draining is decided on the true read space, when all is covered. *)
Lemma drain_covered s rs : Inv s -> (exists fin, at_ s = Test2 fin rs) \/ at_ s = Wait2 rs -> draining s = false -> (rs < aw z / 2)%nat ->
  closed s = true /\ (0 < chunks s)%nat /\ forall i, (i < written s)%nat -> covered s i.
Proof.
  intros K Hat Hd Hrs. pose proof (i_pc s K) as Hp. unfold okpc in Hp.
  assert (H : rs = unread s /\ closed s = true /\ (0 < chunks s)%nat /\ skips s = length (windows s)).
  { unfold skips. destruct Hat as [[[] E]|E]; rewrite E in *.
    - by destruct Hp as [? _]; congruence.
    - destruct (Hp Hd) as (H1 & H2 & H3). destruct (H3 Hrs) as [-> H4]. destruct (chunks s) eqn:Ec; [specialize (H2 eq_refl); lia|]. repeat split; [done|lia].
    - destruct (Hp Hd) as (H1 & H2 & H3). destruct (H3 Hrs) as [-> H4]. destruct (chunks s) eqn:Ec; [specialize (H2 eq_refl); lia|]. repeat split; [done|lia]. }
  destruct H as (-> & Hc & Hn & Hk). split; [done|]. split; [done|]. intros i Hi.
  pose proof (i_count s K Hd) as Hcnt. destruct (windows s !! (length (windows s) - 1)%nat) as [[a n]|] eqn:Hw; [|apply lookup_ge_None in Hw; lia].
  apply (covered_upto s K _ a n i Hw). destruct (i_win s K _ _ _ Hw) as [-> [->|[_ ->]]]; [|done].
  pose proof (i_pos s K) as Hpos. rewrite Hk in Hpos. pose proof half. destruct Hz as [? _ _].
  assert (length (windows s) = S (length (windows s) - 1)) as E by lia. rewrite E in Hpos. nia.
Qed.

Lemma test_inv s rs ok d : Inv s -> (exists fin, at_ s = Test2 fin rs) \/ at_ s = Wait2 rs -> test z s rs = (ok, d) ->
  (d = true -> closed s = true /\ (0 < chunks s)%nat /\ forall i, (i < written s)%nat -> covered s i) /\
  (draining s = true -> d = true) /\ (d = true -> ok = true) /\
  (d = false -> ok = true -> (aw z / 2 <= unread s)%nat /\ ((aw z <= unread s)%nat \/ closed s = true)) /\
  (ok = false -> closed s = false).
Proof.
  intros K Hat. unfold test. destruct (draining s) eqn:Hd; cbn [negb andb].
  { rewrite andb_false_r. intros E. injection E as <- <-. split; [intros _; by apply (i_drain s K)|]. repeat split; done. }
  assert (Hr : (0 < rs <= unread s)%nat).
  { pose proof (i_pc s K) as Hp. unfold okpc in Hp. destruct Hat as [[[] E]|E]; rewrite E in Hp; [by destruct Hp; congruence|by apply Hp|by apply Hp]. }
  rewrite andb_true_r. pose proof (half) as Hh. pose proof (pr_inc z Hz) as Hi.
  destruct (Nat.ltb_spec rs (aw z)) as [Hlt|Hge]; [|intros E; injection E as <- <-; repeat split; try done; try lia; intros; left; lia].
  destruct (closed s) eqn:Hcl; cbn [negb]; [|intros E; by injection E as <- <-].
  destruct (Nat.eqb_spec rs 0) as [->|_]; [lia|].
  destruct (Nat.ltb_spec rs (aw z / 2)) as [Hl2|Hg2]; intros E; injection E as <- <-.
  - split; [intros _; destruct (drain_covered s rs K Hat Hd Hl2) as (_ & ? & ?); done|]. done.
  - repeat split; try done; try lia; by right.
Qed.

Lemma covered_more s s' i : (forall w, w ∈ windows s -> w ∈ windows s') -> covered s i -> covered s' i.
Proof. intros H (a & n & Hin & Hb). exists a, n. split; [by apply H|done]. Qed.

(** What the worker changes between two chunks: only where it is and whether it drains. *)
Lemma goto_inv s p d : Inv s -> (draining s = true -> d = true) ->
  (d = true -> closed s = true /\ (0 < chunks s)%nat /\ forall i, (i < written s)%nat -> covered s i) ->
  (forall fin, at_ s <> Skip fin) -> (forall fin, p <> Skip fin) -> (forall fin, at_ s <> Chunk fin) -> (d = false -> forall fin, p <> Chunk fin) ->
  okpc (goto p (drainTo d s)) -> Inv (goto p (drainTo d s)).
Proof.
  intros K Hd1 Hd2 Hs1 Hs2 Hc1 Hc2 Hp. destruct K. constructor; cbn in *; try done.
  - intros Hd Hch Hne. apply i_first0; [by destruct (draining s); [rewrite Hd1 in Hd|]|done|apply Hc1].
  - rewrite i_pos0. f_equal. f_equal. unfold skips. cbn. destruct (at_ s), p; try done; exfalso; first [exact (Hs1 _ eq_refl)|exact (Hs2 _ eq_refl)].
  - intros Hd. assert (Hd' : draining s = false) by (by destruct (draining s); [rewrite Hd1 in Hd|]). rewrite (i_count0 Hd'). f_equal.
    destruct (at_ s), p; try done; exfalso; first [exact (Hs1 _ eq_refl)|exact (Hs2 _ eq_refl)|exact (Hc1 _ eq_refl)|exact (Hc2 Hd _ eq_refl)].
  - intros [fin E]. by destruct (Hs2 fin).
Qed.
Lemma same s : drainTo (draining s) s = s.
Proof. by destruct s. Qed.

Lemma worker_inv s : Inv s -> Inv (worker z s).
Proof.
  intros K. pose proof (i_pc s K) as Hp. unfold worker. unfold okpc in Hp.
  assert (G : forall p, (forall fin, at_ s <> Skip fin) -> (forall fin, p <> Skip fin) -> (forall fin, at_ s <> Chunk fin) -> (draining s = false -> forall fin, p <> Chunk fin) -> okpc (goto p s) -> Inv (goto p s)).
  { intros p H1 H2 H3 H4 H5. rewrite <- (same s). apply goto_inv; first [done|by apply (i_drain s K)|by rewrite same]. }
  destruct (at_ s) as [| |fin|fin rs|fin|fin|fin| |rs| | | |] eqn:Hat.
  - apply G; try done; by destruct (closed s).
  - apply G; try done. pose proof (i_some s K). destruct (Nat.eqb_spec (unread s) 0); [lia|done].
  - apply G; try done. destruct fin; unfold okpc; cbn -[Nat.div]; [done|]. intros Hd. split; [pose proof (i_some s K); lia|]. split.
    + intros Hch. apply (i_first s K); try done. by rewrite Hat.
    + intros Hlt. split; [done|]. destruct (closed s) eqn:Hc; [done|]. pose proof (i_open s K Hc). lia.
  - destruct (test z s rs) as [ok d] eqn:Ht. destruct (test_inv s rs ok d K (or_introl (ex_intro _ fin Hat)) Ht) as (T1 & T2 & T3 & T4 & T5).
    apply goto_inv; try done; [by rewrite Hat|by destruct ok, fin|by rewrite Hat|by destruct ok, fin|]. destruct fin.
    + destruct Hp as [Hd Hf]. rewrite (T3 (T2 Hd)). cbn. split; [by apply T2|done].
    + destruct ok; cbn; [|done]. by intros Hd; apply T4.
  - destruct (draining s) eqn:Hd.
    + apply G; try done. cbn. destruct fin; [by destruct Hp|done].
    + destruct fin; [by destruct Hp|]. destruct (Hp eq_refl) as [P1 P2].
      assert (Hk : skips s = length (windows s)) by (unfold skips; by rewrite Hat).
      destruct K. rewrite Hk in i_pos0. split; cbn -[Nat.div].
      * done.
      * done.
      * done.
      * done.
      * done.
      * done.
      * done.
      * unfold skips. cbn. rewrite app_length. cbn. lia.
      * intros _. rewrite app_length, (i_count0 Hd). cbn. rewrite Hat. lia.
      * intros k a n Hl. apply lookup_app_Some in Hl as [Hl|[Hl1 Hl2]]; [by apply i_win0|]. apply list_lookup_singleton_Some in Hl2 as [Hl2 E]. injection E as <- <-.
        split; [assert (k = length (windows s)) as -> by lia; lia|]. destruct (decide (aw z <= unread s)%nat) as [H|H]; [left; lia|right]. split; [by destruct P2; [lia|]|lia].
      * intros _. by destruct (windows s).
  - destruct fin; [done|]. destruct Hp as (Hd & P1 & P2). pose proof half. destruct Hz as [Hi _ _].
    assert (Hk : skips s = (length (windows s) - 1)%nat) by (unfold skips; by rewrite Hat). assert (Hne : windows s <> []) by (apply (i_skip s K); by eexists).
    assert (Hl : length (windows s) = S (length (windows s) - 1)) by (destruct (windows s); [done|cbn; lia]).
    destruct K. rewrite Hk in i_pos0. split; cbn -[Nat.div].
    * lia.
    * lia.
    * done.
    * congruence.
    * done.
    * intros Hc. destruct P2 as [P2|P2]; [lia|congruence].
    * done.
    * unfold skips. cbn. rewrite Hl. nia.
    * intros _. by rewrite (i_count0 Hd), Hat.
    * done.
    * by intros [? ?].
  - destruct (pieces z (draining s) (fill s) (complete s) false (bits z (shifts z (chunks s)))) as [[l f] c] eqn:Hp2.
    pose proof (bits_nonempty (shifts z (chunks s))) as Hb. pose proof (i_fill s K) as Hf.
    assert (Hk : skips s = length (windows s)) by (unfold skips; by rewrite Hat).
    destruct (draining s) eqn:Hd.
    + destruct (pieces_draining _ _ _ _ _ _ _ Hp2 (proj1 (pr_inc z Hz))) as (H1 & H2 & _). destruct (H2 Hb) as [H3 H4].
      destruct K. rewrite Hk in i_pos0. split; cbn -[Nat.div].
      * done.
      * done.
      * lia.
      * intros _. destruct (i_drain0 Hd) as (? & ? & ?). split; [done|]. split; [lia|done].
      * done.
      * done.
      * unfold okpc. cbn. destruct fin.
        { destruct Hp as [_ Hf0]. assert (f = 0%nat) as -> by lia. by rewrite (proj2 H4 eq_refl). }
        destruct l; [|done]. split; [done|]. by apply H4.
      * unfold skips. cbn. rewrite i_pos0. by destruct l, fin.
      * done.
      * done.
      * intros [fin' E]. by destruct l, fin.
    + destruct fin; [by destruct Hp|]. destruct (pieces_going _ _ _ _ _ _ _ Hp2 Hf eq_refl) as (-> & -> & H1 & _).
      destruct K. rewrite Hk in i_pos0. split; cbn -[Nat.div].
      * done.
      * done.
      * done.
      * done.
      * done.
      * done.
      * done.
      * done.
      * intros _. rewrite (i_count0 Hd), Hat. lia.
      * done.
      * by intros [? ?].
  - apply G; try done. unfold okpc; cbn -[Nat.div]. intros Hd. split; [pose proof (i_some s K); lia|]. split.
    + intros Hch. apply (i_first s K); try done. by rewrite Hat.
    + intros Hlt. split; [done|]. destruct (closed s) eqn:Hc; [done|]. pose proof (i_open s K Hc). lia.
  - destruct (test z s rs) as [ok d] eqn:Ht. destruct (test_inv s rs ok d K (or_intror Hat) Ht) as (T1 & T2 & T3 & T4 & T5).
    apply goto_inv; try done; [by rewrite Hat|by destruct ok, (abandon s)|by rewrite Hat|by destruct ok, (abandon s)|]. by destruct ok, (abandon s).
  - by apply G.
  - apply G; try done; by destruct (abandon s) eqn:?.
  - done.
  - done.
Qed.

Lemma step_inv s a : Inv s -> Inv (step z s a).
Proof.
  intros K. destruct a as [|k| |]; cbn [step]; [by apply worker_inv|..].
  - destruct (closed s) eqn:Hc; [done|]. destruct (abandon s) eqn:Ha; [done|]. cbn [orb]. set (n := (k `min` (cap z - unread s))%nat). clearbody n. destruct K.
    split; cbn -[Nat.div]; try done; try lia.
    + intros Hd. destruct (i_drain0 Hd) as [? _]. congruence.
    + intros Hd H1 H2. specialize (i_first0 Hd H1 H2). lia.
    + intros _. specialize (i_open0 Hc). lia.
    + unfold okpc in *. cbn -[Nat.div]. destruct (at_ s) as [| |[]|[] rs|[]|[]|[]| |rs| | | |]; try done.
      * intros Hd. destruct (i_pc0 Hd) as (H1 & H2 & H3). split; [lia|]. split; [done|]. intros Hlt. destruct (H3 Hlt). congruence.
      * intros Hd. destruct (i_pc0 Hd) as (H1 & [H2|H2]); [|congruence]. split; [lia|left; lia].
      * destruct i_pc0 as (H0 & H1 & [H2|H2]); [|congruence]. split; [done|]. split; [lia|left; lia].
      * intros Hd. destruct (i_pc0 Hd) as (H1 & H2 & H3). split; [lia|]. split; [done|]. intros Hlt. destruct (H3 Hlt). congruence.
      * congruence.
    + unfold skips in *. cbn. lia.
    + intros j a m Hj. destruct (i_win0 j a m Hj) as [? [?|[? ?]]]; [|congruence]. split; [done|by left].
  - destruct (abandon s) eqn:Ha; [done|]. destruct K. split; cbn -[Nat.div]; try done.
    + intros Hd. by destruct (i_drain0 Hd) as [_ ?].
    + unfold okpc in *. cbn -[Nat.div]. destruct (at_ s) as [| |[]|[] rs|[]|[]|[]| |rs| | | |]; try done.
      * intros Hd. destruct (i_pc0 Hd) as (H1 & H2 & H3). split; [lia|]. split; [done|]. intros Hlt. by destruct (H3 Hlt).
      * intros Hd. destruct (i_pc0 Hd) as (H1 & _). split; [lia|by right].
      * destruct i_pc0 as (H0 & H1 & _). split; [done|]. split; [lia|by right].
      * intros Hd. destruct (i_pc0 Hd) as (H1 & H2 & H3). split; [lia|]. split; [done|]. intros Hlt. by destruct (H3 Hlt).
      * congruence.
    + intros j a m Hj. destruct (i_win0 j a m Hj) as [? [?|[? ?]]]; (split; [done|]); [by left|by right].
  - destruct K. split; cbn -[Nat.div]; try done. unfold okpc in *. cbn -[Nat.div]. by destruct (at_ s) as [| |[]|[] rs|[]|[]|[]| |rs| | | |].
Qed.
Lemma run_inv acts : forall s, Inv s -> Inv (run z s acts).
Proof. induction acts as [|a acts IH]; intros s K; [done|]. cbn. by apply IH, step_inv. Qed.

(** ** The end *)
Definition fin_ s : bool := match at_ s with Test1 f | Test2 f _ | Take f | Skip f | Chunk f => f | Done | Abandoned => true | _ => false end.
Definition left_ s : nat := if draining s then fill s else (S (sw z) + unread s)%nat.
Definition rank s : nat :=
  match at_ s with
  | Wait1 => 12 | Wait2 _ => 11 | Waiting => 10 | Check => 9 | Loop1 => 8 | Loop2 => 7
  | Test1 _ => 6 | Test2 _ _ => 5 | Take _ => 4 | Skip _ => 3 | Chunk _ => if draining s then 3 else 9 | Done | Abandoned => 0
  end.
Definition rank_abandon s : nat :=
  match at_ s with
  | Loop1 => 14 | Loop2 => 13 | Test1 _ => 12 | Test2 _ _ => 11 | Take _ => 10 | Skip _ => 9 | Chunk _ => if draining s then 9 else 15
  | Wait1 => 6 | Wait2 _ => 5 | Waiting => 4 | Check => 3 | Done | Abandoned => 0
  end.
Definition measure (r : st -> nat) s : nat := (40 * left_ s + r s + if fin_ s then 0 else 20)%nat.

Lemma drained_left s rs ok d : Inv s -> test z s rs = (ok, d) -> (left_ (drainTo d s) <= left_ s)%nat.
Proof.
  intros K. unfold test, left_. cbn [drainTo draining fill unread]. pose proof (i_fill s K). destruct (draining s) eqn:Hd; cbn [negb andb].
  - rewrite andb_false_r. intros E. by injection E as <- <-.
  - rewrite andb_true_r. destruct (rs <? aw z)%nat; [|intros E; by injection E as <- <-]. destruct (closed s); cbn [negb]; [|intros E; by injection E as <- <-].
    destruct (rs =? 0)%nat; [intros E; by injection E as <- <-|]. destruct (rs <? aw z / 2)%nat; intros E; injection E as <- <-; lia.
Qed.

(** One turn of the worker, after the input is complete or the worker abandoned. *)
Lemma turn s : Inv s -> ~ ended s -> (closed s = true \/ abandon s = true) ->
  let r := if abandon s then rank_abandon else rank in (measure r (worker z s) < measure r s)%nat.
Proof.
  intros K He Hca r. pose proof (i_pc s K) as Hp. unfold okpc in Hp.
  assert (Hr : forall p d, left_ (goto p (drainTo d s)) = left_ (drainTo d s)) by done.
  assert (Hg : forall p, left_ (goto p s) = left_ s) by done.
  destruct (at_ s) as [| |fin|fin rs|fin|fin|fin| |rs| | | |] eqn:Hat; try (exfalso; apply He; unfold ended; by auto);
    unfold measure, r; clear r; destruct (abandon s) eqn:Ha; unfold worker; rewrite Hat.
  all: try (match goal with |- context [test] =>
    destruct (test z s rs) as [ok d] eqn:Ht; pose proof (drained_left s rs ok d K Ht) as Hl;
    destruct (test_inv s rs ok d K) as (T1 & T2 & T3 & T4 & T5); [eauto|done|]; rewrite ?Ha, Hr; cbn [negb andb] end).
  all: try rewrite Hg.
  all: try (unfold rank, rank_abandon, fin_; cbn [goto at_ drainTo]; rewrite Hat; lia).
  - unfold rank, rank_abandon, fin_; cbn [goto at_]; rewrite Hat. destruct (closed s); lia.
  - unfold rank, rank_abandon, fin_; cbn [goto at_]; rewrite Hat. destruct Hca as [->|]; [lia|done].
  - pose proof (i_some s K). destruct (Nat.eqb_spec (unread s) 0); [lia|]. unfold rank, rank_abandon, fin_; cbn [goto at_]; rewrite Hat. lia.
  - pose proof (i_some s K). destruct (Nat.eqb_spec (unread s) 0); [lia|]. unfold rank, rank_abandon, fin_; cbn [goto at_]; rewrite Hat. lia.
  - unfold rank, rank_abandon, fin_; cbn [goto at_ drainTo]; rewrite Hat. destruct ok, fin; lia.
  - unfold rank, rank_abandon, fin_; cbn [goto at_ drainTo]; rewrite Hat. destruct ok; [destruct fin; lia|]. destruct Hca as [Hc|]; [by rewrite T5 in Hc|done].
  - unfold rank, rank_abandon, fin_, left_. destruct (draining s) eqn:Hd; cbn -[Nat.mul]; rewrite Hat, ?Hd; destruct fin; lia.
  - unfold rank, rank_abandon, fin_, left_. destruct (draining s) eqn:Hd; cbn -[Nat.mul]; rewrite Hat, ?Hd; destruct fin; lia.
  - destruct fin; [done|]. destruct Hp as (Hd & P1 & _). destruct Hz as [Hi _ _]. unfold rank, rank_abandon, fin_, left_; cbn -[Nat.mul]; rewrite Hat, Hd. lia.
  - destruct fin; [done|]. destruct Hp as (Hd & P1 & _). destruct Hz as [Hi _ _]. unfold rank, rank_abandon, fin_, left_; cbn -[Nat.mul]; rewrite Hat, Hd. lia.
  - destruct (pieces z (draining s) (fill s) (complete s) false (bits z (shifts z (chunks s)))) as [[l f] c] eqn:Hp2.
    pose proof (bits_nonempty (shifts z (chunks s))) as Hb. pose proof (i_fill s K) as Hf. unfold rank, rank_abandon, fin_, left_; cbn -[Nat.mul]; rewrite Hat. destruct (draining s) eqn:Hd.
    + destruct (pieces_draining _ _ _ _ _ _ _ Hp2 (proj1 (pr_inc z Hz))) as (H1 & H2 & _). destruct (H2 Hb) as [H3 H4]. destruct l; [destruct fin; lia|].
      specialize (H3 eq_refl). destruct fin; [destruct Hp; lia|lia].
    + destruct fin; [by destruct Hp|]. destruct (pieces_going _ _ _ _ _ _ _ Hp2 Hf eq_refl) as (-> & -> & _). lia.
  - destruct (pieces z (draining s) (fill s) (complete s) false (bits z (shifts z (chunks s)))) as [[l f] c] eqn:Hp2.
    pose proof (bits_nonempty (shifts z (chunks s))) as Hb. pose proof (i_fill s K) as Hf. unfold rank, rank_abandon, fin_, left_; cbn -[Nat.mul]; rewrite Hat. destruct (draining s) eqn:Hd.
    + destruct (pieces_draining _ _ _ _ _ _ _ Hp2 (proj1 (pr_inc z Hz))) as (H1 & H2 & _). destruct (H2 Hb) as [H3 H4]. destruct l; [destruct fin; lia|].
      specialize (H3 eq_refl). destruct fin; [destruct Hp; lia|lia].
    + destruct fin; [by destruct Hp|]. destruct (pieces_going _ _ _ _ _ _ _ Hp2 Hf eq_refl) as (-> & -> & _). lia.
  - unfold rank, rank_abandon, fin_; cbn [goto at_ drainTo]; rewrite Hat. destruct ok; cbn; lia.
  - unfold rank, rank_abandon, fin_; cbn [goto at_ drainTo]; rewrite Hat. destruct ok; cbn; lia.
  - rewrite Ha. unfold rank, rank_abandon, fin_; cbn [goto at_]; rewrite Hat. lia.
  - rewrite Ha. unfold rank, rank_abandon, fin_; cbn [goto at_]; rewrite Hat. lia.
Qed.

Lemma ended_step s a : ended s -> ended (step z s a).
Proof.
  unfold ended. destruct a as [|k| |]; cbn [step]; [unfold worker| | |]; intros [H|H]; try rewrite H; auto.
  all: try (destruct (closed s || abandon s); cbn; by auto).
  all: try (destruct (abandon s); cbn; by auto).
Qed.
Lemma ended_run acts : forall s, ended s -> ended (run z s acts).
Proof. induction acts as [|a acts IH]; intros s H; [done|]. cbn. by apply IH, ended_step. Qed.
Lemma flags_step s a : (closed s = true -> closed (step z s a) = true) /\ (abandon s = true -> abandon (step z s a) = true).
Proof.
  destruct a as [|k| |]; cbn [step].
  - unfold worker. by repeat case_match.
  - by destruct (closed s) eqn:?, (abandon s) eqn:?; cbn; auto; rewrite ?Heqb, ?Heqb0.
  - by destruct (abandon s) eqn:?; cbn; auto.
  - done.
Qed.
(** How many turns are left at most. *)
Definition mu s : nat := if abandon s then measure rank_abandon s else (measure rank s + 7)%nat.
Lemma worker_abandon s : abandon (worker z s) = abandon s.
Proof. unfold worker. by repeat case_match. Qed.
Lemma mu_worker s : Inv s -> ~ ended s -> (closed s = true \/ abandon s = true) -> (mu (worker z s) < mu s)%nat.
Proof. intros K He Hca. pose proof (turn s K He Hca) as H. unfold mu. rewrite worker_abandon. cbn zeta in H. destruct (abandon s); lia. Qed.
Lemma mu_client s a : (closed s = true \/ abandon s = true) -> a <> Worker -> (mu (step z s a) <= mu s)%nat.
Proof.
  intros Hca Ha. destruct a as [|k| |]; [done|..]; cbn [step].
  - assert (closed s || abandon s = true) as -> by (destruct Hca as [->| ->]; [done|apply orb_true_r]). done.
  - destruct (abandon s) eqn:Hab; [done|]. unfold mu. cbn [abandon]. rewrite Hab. done.
  - unfold mu, measure, left_, fin_, rank, rank_abandon. cbn -[Nat.mul]. destruct (abandon s); [done|]. destruct (at_ s); try (destruct (draining s)); try destruct fin; lia.
Qed.
Lemma mu_zero s : (mu s = 0)%nat -> ended s.
Proof.
  unfold mu, measure, fin_, rank_abandon. intros H. destruct (abandon s); [|lia]. unfold ended. destruct (at_ s); auto; exfalso.
  all: try lia. destruct (draining s); lia.
Qed.
Lemma ends acts : forall s, Inv s -> (closed s = true \/ abandon s = true) -> (mu s <= turns acts)%nat -> ended (run z s acts).
Proof.
  induction acts as [|a acts IH]; intros s K Hca Ht.
  - cbn in *. apply mu_zero. lia.
  - cbn [run fold_left]. change (fold_left (step z) acts (step z s a)) with (run z (step z s a) acts).
    assert (Hca' : closed (step z s a) = true \/ abandon (step z s a) = true) by (destruct (flags_step s a), Hca; auto).
    assert (Hde : ended s \/ ~ ended s) by (unfold ended; destruct (at_ s); auto; right; by intros [?|?]). destruct Hde as [He|He]; [by apply ended_run, ended_step|].
    apply IH; [by apply step_inv|done|]. destruct a; cbn [turns] in Ht.
    + pose proof (mu_worker s K He Hca). cbn [step]. lia.
    + pose proof (mu_client s (Write k) Hca ltac:(done)). lia.
    + pose proof (mu_client s Close Hca ltac:(done)). lia.
    + pose proof (mu_client s Abandon Hca ltac:(done)). lia.
Qed.

(** ** Complete *)
Definition Full s : Prop :=
  (draining s = true -> fill s = 0%nat -> complete s = true) /\ (draining s = false -> (0 < chunks s)%nat -> (0 < fill s)%nat).
Lemma full_step s a : overlapping z -> Inv s -> Full s -> Full (step z s a).
Proof.
  intros Ho K [F1 F2]. destruct a as [|k| |]; cbn [step].
  - unfold worker. destruct (at_ s) as [| |fin|fin rs|fin|fin|fin| |rs| | | |] eqn:Hat; try done.
    + destruct (test z s rs) as [ok d] eqn:Ht. destruct (test_inv s rs ok d K (or_introl (ex_intro _ fin Hat)) Ht) as (T1 & T2 & _).
      split; cbn; [|intros Hd; apply F2; destruct (draining s); [by rewrite T2 in Hd|done]].
      intros Hd Hf. destruct (draining s); [by apply F1|]. destruct (T1 Hd) as (_ & Hc & _). specialize (F2 eq_refl Hc). lia.
    + destruct (draining s) eqn:Hd; split; cbn; rewrite ?Hd; auto.
    + destruct (pieces z (draining s) (fill s) (complete s) false (bits z (shifts z (chunks s)))) as [[l f] c] eqn:Hp2.
      pose proof (bits_nonempty (shifts z (chunks s))) as Hb. destruct (draining s) eqn:Hd.
      * destruct (pieces_draining _ _ _ _ _ _ _ Hp2 (proj1 (pr_inc z Hz))) as (_ & _ & H). split; [|done]. intros _. cbn. auto.
      * destruct (pieces_going _ _ _ _ _ _ _ Hp2 (i_fill s K) eq_refl) as (_ & _ & _ & H). split; [done|]. intros _ _. cbn. apply H; [done|]. by apply bits_small.
    + destruct (test z s rs) as [ok d] eqn:Ht. destruct (test_inv s rs ok d K (or_intror Hat) Ht) as (T1 & T2 & _).
      split; cbn; [|intros Hd; apply F2; destruct (draining s); [by rewrite T2 in Hd|done]].
      intros Hd Hf. destruct (draining s); [by apply F1|]. destruct (T1 Hd) as (_ & Hc & _). specialize (F2 eq_refl Hc). lia.
  - by destruct (closed s || abandon s).
  - by destruct (abandon s).
  - done.
Qed.
Lemma full_run acts : forall s, overlapping z -> Inv s -> Full s -> Full (run z s acts).
Proof. induction acts as [|a acts IH]; intros s Ho K F; [done|]. cbn. apply IH; [done|by apply step_inv|by apply full_step]. Qed.

(** ** Room for the client *)
Definition pos s : nat := (written s - unread s)%nat.
Definition far s : nat :=
  match at_ s with
  | Skip _ => 1 | Take _ => 2 | Test2 _ rs => if (aw z <=? rs)%nat then 3 else 11 | Test1 _ => 4 | Loop2 => 5 | Chunk _ => 5 | Loop1 => 6
  | Check => 7 | Waiting => 8 | Wait2 _ => 9 | Wait1 => 10 | Done | Abandoned => 0
  end.
Definition moved (p : nat) s : Prop := (p < pos s)%nat \/ closed s = true \/ abandon s = true.
Lemma pos_step s a : Inv s -> (pos s <= pos (step z s a))%nat.
Proof.
  intros K. pose proof (i_read s K). unfold pos. destruct a as [|k| |]; cbn [step].
  - unfold worker. repeat case_match; cbn; lia.
  - destruct (closed s || abandon s); cbn; lia.
  - destruct (abandon s); cbn; lia.
  - cbn. lia.
Qed.
Lemma moved_step p s a : Inv s -> moved p s -> moved p (step z s a).
Proof. intros K [H|[H|H]]; unfold moved; [left; pose proof (pos_step s a K); lia|right; left; by apply flags_step|right; right; by apply flags_step]. Qed.
Lemma moved_run p acts : forall s, Inv s -> moved p s -> moved p (run z s acts).
Proof. induction acts as [|a acts IH]; intros s K H; [done|]. cbn. apply IH; [by apply step_inv|by apply moved_step]. Qed.
Lemma room p acts : forall s, Inv s -> (aw z <= unread s)%nat -> (p <= pos s)%nat -> (far s <= turns acts)%nat -> moved p (run z s acts).
Proof.
  induction acts as [|a acts IH]; intros s K Hu Hp Ht.
  - cbn in *. unfold moved, far in *. pose proof (i_pc s K) as Hpc. unfold okpc in Hpc. destruct (at_ s) eqn:Hat; try lia; [destruct (_ <=? _)%nat; lia|..].
    + right. left. by apply (i_drain s K), Hpc.
    + by right; right.
  - cbn [run fold_left]. change (fold_left (step z) acts (step z s a)) with (run z (step z s a) acts).
    pose proof (step_inv s a K) as K'. pose proof (pos_step s a K) as Hps. pose proof (i_pc s K) as Hpc. unfold okpc in Hpc.
    destruct (closed s) eqn:Hc; [apply moved_run; [done|]; right; left; by apply flags_step|].
    destruct (abandon s) eqn:Ha; [apply moved_run; [done|]; right; right; by apply flags_step|].
    assert (Hd : draining s = false) by (destruct (draining s) eqn:Hd; [by destruct (i_drain s K Hd); congruence|done]).
    destruct a as [|k| |]; cbn [turns] in Ht.
    + cbn [step] in *. unfold worker in *. unfold far in Ht.
      destruct (at_ s) as [| |fin|fin rs|fin|fin|fin| |rs| | | |] eqn:Hat.
      * rewrite Hc in *. apply IH; [done|done|lia|unfold far; cbn; lia].
      * pose proof (i_some s K). destruct (Nat.eqb_spec (unread s) 0); [lia|]. apply IH; [done|done|lia|unfold far; cbn; lia].
      * apply IH; [done|done|lia|]. unfold far. cbn [goto at_]. rewrite (proj2 (Nat.leb_le _ _) Hu). lia.
      * destruct fin; [by destruct Hpc; congruence|]. unfold test in *. rewrite Hd, Hc in *. cbn [negb andb] in *. rewrite andb_true_r in *.
        destruct (Nat.ltb_spec rs (aw z)) as [Hlt|Hge].
        -- rewrite (proj2 (Nat.leb_gt _ _) Hlt) in Ht. apply IH; [done|done|lia|unfold far; cbn; lia].
        -- rewrite (proj2 (Nat.leb_le _ _) Hge) in Ht. apply IH; [done|done|lia|unfold far; cbn; lia].
      * destruct fin; [by destruct Hpc; congruence|]. rewrite Hd in *. apply IH; [done|done|lia|unfold far; cbn; lia].
      * apply moved_run; [done|]. left. unfold pos. cbn. pose proof (i_read s K). destruct Hz as [Hi _ _]. unfold pos in Hp. pose proof half. lia.
      * destruct fin; [by destruct Hpc; congruence|]. destruct (pieces z (draining s) (fill s) (complete s) false (bits z (shifts z (chunks s)))) as [[l f] c] eqn:Hp2.
        rewrite Hd in Hp2. destruct (pieces_going _ _ _ _ _ _ _ Hp2 (i_fill s K) eq_refl) as (-> & _). apply IH; [done|done|lia|unfold far; cbn; lia].
      * apply IH; [done|done|lia|unfold far; cbn; lia].
      * rewrite Ha in *. destruct (test z s rs) as [ok d]. apply IH; [done|done|lia|]. unfold far. destruct ok; cbn; lia.
      * apply IH; [done|done|lia|unfold far; cbn; lia].
      * rewrite Ha in *. apply IH; [done|done|lia|unfold far; cbn; lia].
      * by destruct Hpc; congruence.
      * congruence.
    + apply IH; [done| |lia|]; cbn [step]; rewrite Hc, Ha; cbn [orb]; [cbn; lia|done].
    + apply moved_run; [done|]. right. left. cbn [step]. by rewrite Ha.
    + apply moved_run; [done|]. right. right. done.
Qed.
End Proofs.
