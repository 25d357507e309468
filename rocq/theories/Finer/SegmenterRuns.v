(** A segmenter over a sequence of frames. *)
From stdpp Require Import prelude list numbers.
From Coq Require Import ZArith QArith Lia.
From Verif Require Import RingBuffer.Model Filters.Model Filters.Spec Filters.HFProofs Filters.Memoryless Finer.SegmenterModel Finer.SegmenterSpec Finer.Segmenter.
From stdpp Require Import list.
Local Open Scope Z_scope.

Lemma numeric_range cls : Forall (in_range 3) (map numeric cls).
Proof. induction cls as [|c cls IH]; cbn; constructor; [|done]. unfold in_range. destruct c; cbn; lia. Qed.
Definition reachable (n : nat) (f : hf) : Prop := exists os, Forall (hf_op_ok 3) os /\ hf_run (newFilter n) os = Some f.
Lemma filter_step n f cls : (1 <= n)%nat -> reachable n f ->
  exists f' l, hf_filter f (map numeric cls) true = Some (f', l) /\ reachable n f' /\ length l = length cls /\
    snd <$> hf_filter f (map numeric cls) true = snd <$> hf_filter (newFilter n) (map numeric cls) true /\
    forall i, (i < length cls)%nat -> exists x, l !! i = Some x /\ in_range 3 x /\ (array_harmless n (map numeric cls) -> is_mode (centred n (map numeric cls) i) x).
Proof.
  intros Hn (os & Ho & Er). destruct (final_hf_filter 3 n os f (map numeric cls) true Hn ltac:(lia) Ho (numeric_range _) Er) as (f' & l & E & Hl & Hi).
  exists f', l. split; [done|]. rewrite map_length in Hl, Hi. split; [|split; [done|split; [|done]]].
  - destruct (filter_ops 3 _ _ _ _ (numeric_range cls) E) as (os' & Ho' & Er'). exists (os ++ os'). split; [by apply Forall_app|]. rewrite hf_run_app, Er. done.
  - apply (modal_filter_same 3 n os [] f (newFilter n) _ Hn ltac:(lia) Ho ltac:(constructor) (numeric_range _) Er). done.
Qed.
Lemma segments_ok n fft rate frames : (1 <= n)%nat -> 0 < fft -> (0 < rate)%Q -> forall f, reachable n f ->
  Forall (fun cls => 2 * (Z.of_nat (length cls) - 1) < fft) frames -> exists ss, segments fft rate f frames = Some ss /\ Forall2 (segmented n fft rate) frames ss.
Proof.
  intros Hn Hf Hr. induction frames as [|cls frames IH]; intros f Hreach Hl; cbn [segments].
  - exists []. split; [done|constructor].
  - apply Forall_cons in Hl as [Hl Hl']. destruct (filter_step n f cls Hn Hreach) as (f' & l & E & Hreach' & El & Esame & Hi). unfold segment. rewrite E. cbn [mbind option_bind].
    destruct (IH f' Hreach' Hl') as (ss & -> & Hss). cbn [mbind option_bind]. eexists. split; [done|]. constructor; [|done].
    exists l. split; [done|]. split; [done|]. rewrite <- El in Hl. pose proof (boundaries_ok fft rate l Hf Hr Hl) as Hb. cbv zeta in Hb. destruct Hb as [Hb1 Hb2].
    split; [done|]. split; [done|]. by apply (ordered fft rate l).
Qed.
Lemma segments_same n fft rate frames : (1 <= n)%nat -> forall f, reachable n f -> forall ss, segments fft rate f frames = Some ss ->
  Forall2 (fun cls s => snd <$> segment fft rate (newFilter n) cls = Some s) frames ss.
Proof.
  intros Hn. induction frames as [|cls frames IH]; intros f Hreach ss H; cbn [segments] in H.
  - injection H as <-. constructor.
  - destruct (filter_step n f cls Hn Hreach) as (f' & l & E & Hreach' & El & Esame & Hi). unfold segment in H at 1. rewrite E in H. cbn [mbind option_bind] in H.
    destruct (segments fft rate f' frames) as [ss'|] eqn:Es; [|done]. cbn [mbind option_bind] in H. injection H as <-. constructor; [|by eapply IH].
    rewrite E in Esame. cbn [fmap option_fmap option_map snd] in Esame. unfold segment. destruct (hf_filter (newFilter n) (map numeric cls) true) as [[g l']|]; [|done]. cbn in Esame. injection Esame as <-. done.
Qed.
