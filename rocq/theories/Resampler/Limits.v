(** Reset at a constant ratio, the supported ratios, output lengths. *)
From stdpp Require Import prelude.
From Coq Require Import ZArith QArith Qround Qabs Lia Znumtheory Lqa.
From Verif.MathMisc Require Import Model Spec Proofs.
From Verif.Resampler Require Import Model Spec Phases Core Loops Proofs Changes.
Local Open Scope Z_scope.
Local Set Default Proof Using "Type*".

Definition same_ratio {A} (r : Q) (o : op A) : Prop :=
  match o with Resample _ _ ratio _ => (ratio == r)%Q | Reset => True end.

Section Reset.
Context (A : arith) (c : config) (Hch : 1 <= channels c).
Notation T := (T A).
Notation ch := (channels c).
Notation empty := (empty A c).
Notation live := (live A c).
Notation bq_ok := (bq_ok A c).
Notation valid := (valid A c).

Definition plain (r : Q) (b : bq A) : Prop :=
  bq_ok b /\ old b = state0 /\ fade_count b = 0 /\
  (initialised b = true -> (p_ratio (parameters (cur b)) == r)%Q).

Lemma plain_step r b o ys b' : plain r b -> valid o -> same_ratio r o -> step A c b o = Some (ys, b') ->
  plain r b'.
Proof.
  intros (Hb & Ho & Hf & Hr) Hv Hs Hstep. destruct o as [ins n ratio final|]; cbn [step] in Hstep.
  2: { injection Hstep as <- <-. destruct (step_ok A c Hch b Reset Hb I) as (? & ? & [= <- <-] & Hb' & _).
       split_and!; try done. }
  cbn in Hs. destruct (call_ratio A c Hch b ins n ratio final ys b' Hb Hv Hstep) as [Hi Hp].
  destruct (resample_ok A c Hch b ins n ratio final Hb Hv) as (ys2 & b2 & Heq & Hb2 & _).
  rewrite Hstep in Heq. injection Heq as <- <-.
  split; [done|]. assert (old b' = state0 /\ fade_count b' = 0) as [? ?].
  2: { split_and!; try done. intros _. by rewrite Hp. }
  revert Hstep. unfold resampleInterleaved. destruct (_ =? _); [done|]. cbv zeta.
  unfold prepare. destruct (initialised b) eqn:Ei; cbn [negb].
  - destruct (Qeq_bool _ _) eqn:E; [|apply Qeq_bool_neq in E; exfalso; apply E; rewrite Hs, (Hr eq_refl); reflexivity].
    cbn [mbind option_bind]. destruct (main_loop _ _ _ _ _ _) as [[[outs s1] rest]|]; [|done]. cbn [mbind option_bind].
    rewrite Hf, (fade_zero A c Hch). cbn [mbind option_bind]. intros [= <- <-]. done.
  - destruct (state_for_ratio _ _ _ _ _) as [s|]; [|done].
    cbn [mbind option_bind cur old fade_count]. destruct (main_loop _ _ _ _ _ _) as [[[outs s1] rest]|]; [|done].
    cbn [mbind option_bind]. rewrite Hf, (fade_zero A c Hch). cbn [mbind option_bind]. intros [= <- <-]. done.
Qed.
Lemma plain_run r : forall ops b yss b', plain r b -> Forall valid ops -> Forall (same_ratio r) ops ->
  run A c b ops = Some (yss, b') -> plain r b'.
Proof.
  induction ops as [|o ops IH]; intros b yss b' Hp Hv Hs; cbn [run].
  - by intros [= <- <-].
  - apply Forall_cons_1 in Hv as [Hv1 Hv2]. apply Forall_cons_1 in Hs as [Hs1 Hs2].
    destruct (step A c b o) as [[ys b1]|] eqn:E; [|done]. cbn [mbind option_bind].
    destruct (run A c b1 ops) as [[zss b2]|] eqn:E2; [|done]. cbn [mbind option_bind].
    intros [= <- <-]. eapply IH; [|done..]. by eapply plain_step.
Qed.

(** A state to be built does not depend on what its storage held before. *)
Lemma target_irrelevant t1 t2 ratio prev : current_channel t1 = current_channel t2 ->
  (fixed c = false -> sorted_filter t1 = sorted_filter t2) ->
  state_for_ratio A c t1 ratio prev = state_for_ratio A c t2 ratio prev.
Proof.
  intros Hc Hs. unfold state_for_ratio, phase_data_for. rewrite Hc.
  destruct (fixed c); [done|]. rewrite Hs by done. done.
Qed.

Definition fresh (b : bq A) : Prop :=
  (empty (cur b) \/ live (cur b)) /\ old b = state0 /\ fade_count b = 0 /\ initialised b = false.
Lemma fresh_runs : forall ops b1 b2, fresh b1 -> fresh b2 ->
  fst <$> run A c b1 ops = fst <$> run A c b2 ops.
Proof.
  induction ops as [|o ops IH]; intros b1 b2 H1 H2; cbn [run]; [done|].
  destruct o as [ins n ratio final|]; cbn [step].
  - assert (resampleInterleaved A c b1 n ins ratio final = resampleInterleaved A c b2 n ins ratio final) as ->; [|done].
    destruct H1 as (Hc1 & Ho1 & Hf1 & Hi1), H2 as (Hc2 & Ho2 & Hf2 & Hi2).
    unfold resampleInterleaved. destruct (_ =? _); [done|]. cbv zeta. unfold prepare.
    rewrite Hi1, Hi2, Ho1, Ho2, Hf1, Hf2. cbn [negb].
    rewrite (target_irrelevant (cur b1) (cur b2)); [done| |].
    + by rewrite !(live_channel A c Hch).
    + intros Hf. by rewrite !(live_sorted A c Hch).
  - cbn [mbind option_bind].
    assert (Hr : forall b, fresh b -> fresh (reset b)).
    { intros b (? & ? & ? & ?). unfold fresh, reset. by cbn. }
    specialize (IH (reset b1) (reset b2) (Hr _ H1) (Hr _ H2)).
    destruct (run A c (reset b1) ops) as [[y1 c1]|], (run A c (reset b2) ops) as [[y2 c2]|]; cbn in *; congruence.
Qed.

Lemma reset_fresh r ops yss b : Forall valid ops -> Forall (same_ratio r) ops ->
  run A c construct ops = Some (yss, b) ->
  forall ops', fst <$> run A c (reset b) ops' = fst <$> run A c construct ops'.
Proof.
  intros Hv Hs Hr ops'.
  assert (Hp : plain r b).
  { eapply plain_run; [|exact Hv|exact Hs|exact Hr]. split_and!; try done. by apply (construct_ok A c). }
  destruct Hp as ((Hc & _) & Ho & Hf & _). apply fresh_runs.
  - split_and!; done.
  - split_and!; try done. by left.
Qed.
End Reset.

(** ** Supported ratios *)
Lemma dist_bounds ratio x y e : 1 <= y -> (dist ratio x y < e)%Q ->
  (inject_Z x < (ratio + e) * inject_Z y)%Q /\ ((ratio - e) * inject_Z y < inject_Z x)%Q.
Proof.
  intros Hy. unfold dist. rewrite Qabs_Qlt_condition. intros [H1 H2].
  assert (Hyq : (0 < inject_Z y)%Q) by (rewrite <- (Zlt_Qlt 0); lia).
  set (z := (inject_Z x / inject_Z y)%Q) in *.
  assert (Hz : (inject_Z x == z * inject_Z y)%Q).
  { unfold z. field. intros E. rewrite E in Hyq. by apply Qlt_irrefl in Hyq. }
  rewrite Hz. split; apply Qmult_lt_compat_r; lra.
Qed.

Lemma supported_range qu fx ratio : ((1 # 10000) <= ratio)%Q -> (ratio <= 64)%Q ->
  exists fuel0, forall c, qual c = qu -> fixed c = fx -> (fuel0 <= fuel c)%nat -> 1 <= channels c ->
  exists p, supported c ratio p /\ Z.gcd (numerator p) (denominator p) = 1 /\
    (Qabs (ratio - effective_of p) < 1 # 700)%Q.
Proof.
  intros Hlo Hhi.
  set (m := if fx then 192000 else if Qlt_le_dec 1 ratio
            then Qceiling (inject_Z (rational_max (quality_params qu)) / ratio)%Q
            else rational_max (quality_params qu)).
  assert (Hm : 750 <= m <= 192000 /\ ((ratio <= 1)%Q -> 48000 <= m)).
  { unfold m. destruct fx; [split; [lia|lia]|].
    assert (Hrm : 48000 <= rational_max (quality_params qu) <= 192000) by (destruct qu; cbn; lia).
    destruct (Qlt_le_dec 1 ratio) as [H1|H1]; [|split; [lia|lia]].
    set (rm := rational_max _) in *.
    split; [|intros; exfalso; lra].
    assert (Hr0 : (0 < ratio)%Q) by lra.
    split.
    - assert (inject_Z 749 < inject_Z (Qceiling (inject_Z rm / ratio)))%Q as H; [|rewrite <- Zlt_Qlt in H; lia].
      eapply Qlt_le_trans; [|apply Qle_ceiling]. apply Qlt_shift_div_l; [done|].
      assert (inject_Z 48000 <= inject_Z rm)%Q by (rewrite <- Zle_Qle; lia).
      unfold inject_Z at 1. unfold inject_Z at 1 in H. lra.
    - rewrite <- (Qceiling_Z 192000). apply Qceiling_resp_le.
      apply Qle_shift_div_r; [done|].
      assert (inject_Z rm <= inject_Z 192000)%Q by (rewrite <- Zle_Qle; lia).
      unfold inject_Z at 2. unfold inject_Z at 2 in H. lra. }
  destruct Hm as [Hm1 Hm2].
  destruct (farey_ok ratio farey_eps m ltac:(lra) eq_refl ltac:(lia)) as [fuel0 Hf].
  exists fuel0. intros c Hq Hfx Hfu Hch. destruct (Hf (fuel c) Hfu) as ([x y] & Hfa & Hx & Hy & Hg & _ & Hd & _).
  cbn [fst snd] in *.
  assert (Hpick : pick_params c ratio = fill_params c ratio x y).
  { unfold pick_params, qp. rewrite Hq, Hfx. fold m.
    assert (pickNearestRational (fuel c) ratio m = Some (x, y)) as -> by exact Hfa. done. }
  destruct (fill_params_some c Hch ratio x y ltac:(lia) ltac:(lia)) as [p Hp].
  destruct (fill_params_ok c Hch ratio x y p ltac:(lia) ltac:(lia) Hp) as (Hn & Hdn & Hgp & Hcross & Hpr & Hptz).
  assert (Hxy : numerator p = x /\ denominator p = y).
  { revert Hp. unfold fill_params. rewrite gcd_ok, Hg by lia. cbn [mbind option_bind]. cbn [Z.eqb].
    intros [= <-]. cbn. rewrite !Z.quot_1_r. done. }
  destruct Hxy as [Hnx Hdy].
  assert (Hme : ((1 # Z.to_pos m) <= 1 # 750)%Q) by (unfold Qle; cbn; lia).
  assert (Hd' : (dist ratio x y < 1 # 700)%Q).
  { eapply Qlt_trans; [exact Hd|]. unfold farey_eps. lra. }
  destruct (dist_bounds ratio x y _ ltac:(lia) Hd') as [Hb1 _].
  destruct (dist_bounds ratio x y _ ltac:(lia) Hd) as [_ Hb2].
  assert (Hyq : (1 <= inject_Z y)%Q) by (rewrite <- (Zle_Qle 1); lia).
  assert (Hx1 : 1 <= x).
  { assert (0 < x); [|lia]. rewrite (Zlt_Qlt 0). eapply Qle_lt_trans; [|exact Hb2].
    apply Qmult_le_0_compat; [|lra].
    destruct (Qlt_le_dec 1 ratio) as [H1|H1].
    - unfold farey_eps. lra.
    - assert ((1 # Z.to_pos m) <= 1 # 48000)%Q by (specialize (Hm2 H1); unfold Qle; cbn; lia).
      unfold farey_eps. lra. }
  assert (Hx2 : x <= 65 * y).
  { rewrite Zle_Qle, inject_Z_mult. unfold inject_Z at 2.
    eapply Qle_trans; [apply Qlt_le_weak, Hb1|]. apply Qmult_le_compat_r; lra. }
  assert (Hmax : 1 <= Z.max y x <= 12480000) by lia.
  exists p. split_and!; [| |].
  - split_and!; [by rewrite Hpick|lia|lia|].
    unfold filter_length_for. rewrite Hptz, Hnx, Hdy.
    assert (Hl : Qfloor (inject_Z (Z.max y x) / cut (qp c) * inject_Z (p_multiple (qp c)) + 1) <= 1600000000).
    { rewrite <- (Qfloor_Z 1600000000). apply Qfloor_resp_le.
      assert (inject_Z (Z.max y x) <= inject_Z 12480000)%Q by (rewrite <- Zle_Qle; lia).
      set (z := inject_Z (Z.max y x)) in *. unfold inject_Z in *.
      unfold qp; destruct (qual c); cbn [quality_params cut p_multiple];
        unfold Qdiv; [setoid_replace (/ (9 # 10))%Q with (10 # 9)%Q by reflexivity
                     |setoid_replace (/ (975 # 1000))%Q with (1000 # 975)%Q by reflexivity
                     |setoid_replace (/ (995 # 1000))%Q with (1000 # 995)%Q by reflexivity]; lra. }
    unfold int_max. destruct (Z.even _); lia.
  - done.
  - unfold effective_of, frac. rewrite Hnx, Hdy. unfold dist in Hd'.
    setoid_replace (x # Z.to_pos y)%Q with (inject_Z x / inject_Z y)%Q; [done|].
    unfold Qdiv, Qeq, inject_Z, Qinv. cbn. destruct y; cbn; lia.
Qed.

(** ** Output lengths *)
Section Lengths.
Context (v : conversion) (Hn : 1 <= cnum v) (Hd : 1 <= cden v) (Hh : 0 <= chalf v).
(** [frames_at_end] against the exact [n * num / den]. *)
Lemma frames_at_end_bounds n : 0 <= n ->
  n * cnum v <= frames_at_end v n * cden v < n * cnum v + cnum v + cden v /\
  ((cden v | n * cnum v) -> frames_at_end v n * cden v = n * cnum v).
Proof.
  intros Hn0. unfold frames_at_end.
  pose proof (Z.div_mod (n * cnum v) (cden v) ltac:(lia)) as H1.
  pose proof (Z.mod_pos_bound (n * cnum v) (cden v) ltac:(lia)).
  pose proof (Z.mod_pos_bound (chalf v) (cnum v) ltac:(lia)) as Hr.
  set (r := chalf v mod cnum v) in *.
  pose proof (Z.div_mod (n * cnum v + r) (cden v) ltac:(lia)) as H2.
  pose proof (Z.mod_pos_bound (n * cnum v + r) (cden v) ltac:(lia)).
  split.
  - destruct (Z.eqb_spec ((n * cnum v) mod cden v) 0); nia.
  - intros Hdv. apply Z.mod_divide in Hdv; [|lia]. rewrite Hdv. cbn. lia.
Qed.
(** While the stream goes on, output lags by at most the delay line. *)
Lemma frames_so_far_bounds n : 0 <= n ->
  frames_so_far v n * cden v < n * cnum v + cden v /\
  (n - chalf v / cnum v - 1) * cnum v < frames_so_far v n * cden v /\ 0 <= frames_so_far v n.
Proof.
  intros Hn0. unfold frames_so_far.
  pose proof (Z.mod_pos_bound (chalf v) (cnum v) ltac:(lia)) as Hr.
  pose proof (Z.div_pos (chalf v) (cnum v) Hh ltac:(lia)).
  set (r := chalf v mod cnum v) in *. set (q := chalf v / cnum v) in *.
  set (m := (n - q - 1) * cnum v + r).
  pose proof (Z.div_mod m (cden v) ltac:(lia)) as H2.
  pose proof (Z.mod_pos_bound m (cden v) ltac:(lia)).
  destruct (Z.ltb_spec m 0).
  - split_and!; unfold m in *; nia.
  - pose proof (Z.div_pos m (cden v) ltac:(lia) ltac:(lia)). split_and!; unfold m in *; nia.
Qed.
End Lengths.

(** ** Taps outside the delay line *)
Section Taps.
Context (v : conversion) (Hn : 1 <= cnum v) (Hf : cflen v = 2 * chalf v + 1) (Hh : 0 <= chalf v).
Lemma taps_bound t : taps_under v t <= line_frames v + 1 /\
  (2 * (chalf v mod cnum v) < cnum v -> taps_under v t <= line_frames v).
Proof.
  unfold taps_under, first_input, line_frames. rewrite Hf.
  pose proof (Z.div_mod (chalf v) (cnum v) ltac:(lia)) as H1.
  pose proof (Z.mod_pos_bound (chalf v) (cnum v) ltac:(lia)) as H2.
  set (q := chalf v / cnum v) in *. set (r := chalf v mod cnum v) in *.
  pose proof (ceil_div_spec (t - chalf v + (2 * chalf v + 1)) (cnum v) ltac:(lia)) as H3.
  pose proof (ceil_div_spec (t - chalf v) (cnum v) ltac:(lia)) as H4.
  set (x := ceil_div (t - chalf v + _) _) in *. set (y := ceil_div (t - chalf v) _) in *.
  split; [|intros Hr]; nia.
Qed.
Lemma converted_all A tap mono scale ch final xs : 2 * (chalf v mod cnum v) < cnum v ->
  converted A tap mono scale v ch final xs = converted_full A tap mono scale v ch final xs.
Proof.
  intros Hr. unfold converted, converted_full. apply list_fmap_ext. intros i s _. cbv zeta.
  unfold sample. cbv zeta.
  destruct (taps_bound (s / ch * cden v)) as [_ Hb]. specialize (Hb Hr).
  rewrite (Z.min_l _ (line_frames v)) by lia. rewrite Z.min_id. done.
Qed.
End Taps.
