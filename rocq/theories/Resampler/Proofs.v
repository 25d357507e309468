(** The resampler object: safety, refinement to the specification, reset. *)
From stdpp Require Import prelude.
From Coq Require Import ZArith QArith Qround Qabs Lia Znumtheory.
From Verif.MathMisc Require Import Model Spec Proofs.
From Verif.Resampler Require Import Model Spec Phases Core Loops.
Local Open Scope Z_scope.
Local Set Default Proof Using "Type*".

Lemma join_app {X} (l k : list (list X)) : mjoin (l ++ k) = mjoin l ++ mjoin k.
Proof. induction l as [|x l IH]; [done|]. cbn. rewrite <- app_assoc. by f_equal. Qed.

Section Object.
Context (A : arith) (c : config) (Hch : 1 <= channels c).
Notation T := (T A).
Notation ch := (channels c).
Notation state := (state A).
Notation good := (good A c).
Notation holds := (holds A c).
Notation empty := (empty A c).

(** ** Safety *)
Definition from_ratio (p : params) : Prop := exists ratio, supported c ratio p /\ (0 < ratio)%Q.
Notation goodp s p := (good s (numerator p) (denominator p) (filter_length_for c p / 2)).
Notation Atp p := (At A c (numerator p) (denominator p) (filter_length_for c p / 2)).
Definition live (s : state) : Prop := current_channel s = 0 /\ from_ratio (parameters s) /\
  exists blen u xs, goodp s (parameters s) blen /\ holds s u xs.
Definition bq_ok (b : bq A) : Prop :=
  (empty (cur b) \/ live (cur b)) /\ (empty (old b) \/ live (old b)) /\
  (initialised b = true -> live (cur b)) /\ 0 <= fade_count b /\ (0 < fade_count b -> live (old b)) /\
  (smooth c = false -> fade_count b = 0).

Definition valid (o : op A) : Prop :=
  match o with
  | Resample ins outspace ratio final =>
      (ch | zlen ins) /\ 0 <= outspace /\ (0 < ratio)%Q /\ exists p, supported c ratio p
  | Reset => True
  end.

Lemma construct_ok : bq_ok construct.
Proof. unfold bq_ok. cbn. split_and!; try done; try lia; by left. Qed.

Lemma live_at s : live s -> exists blen u xs, from_ratio (parameters s) /\
  goodp s (parameters s) blen /\ holds s u xs /\
  1 <= numerator (parameters s) /\ 1 <= denominator (parameters s) /\
  0 <= current_phase s < numerator (parameters s) /\
  Atp (parameters s) blen u (current_phase s) (parameters s) s 0 xs.
Proof.
  intros (Hcc & Hfr & blen & u & xs & G & Hh).
  exists blen, u, xs. pose proof (g_num _ _ _ _ _ _ _ G). pose proof (g_den _ _ _ _ _ _ _ G).
  pose proof (g_phase _ _ _ _ _ _ _ G). split_and!; try lia; try done. unfold At.
  rewrite Z.div_0_l, Z.mod_0_l by lia.
  rewrite phase_0, pos_0, Z.add_0_r by lia. unfold r0. rewrite Z.mod_small by lia. done.
Qed.
Lemma at_live blen u p0 p s q xs : from_ratio p -> Atp p blen u p0 p s q xs ->
  q mod ch = 0 -> live s.
Proof.
  intros Hfr (G & HP & _ & Hcc & Hh) Hq. subst p. split; [congruence|]. split; [done|]. eauto 10.
Qed.
Lemma live_sorted s : empty s \/ live s -> fixed c = false -> sorted_filter s = [].
Proof. intros [(_ & _ & H)|(_ & _ & ? & ? & ? & G & _)]; [done|apply (g_sorted _ _ _ _ _ _ _ G)]. Qed.
Lemma live_channel s : empty s \/ live s -> current_channel s = 0.
Proof. by intros [(_ & H & _)|(H & _)]. Qed.
Lemma live_buffer s : live s -> buffer s <> [].
Proof.
  intros (_ & _ & ? & ? & ? & G & _) Hb. pose proof (g_buf _ _ _ _ _ _ _ G) as Hg.
  rewrite Hb, zlen_nil in Hg. pose proof (g_fill _ _ _ _ _ _ _ G). lia.
Qed.

Lemma state_for_ratio_live target ratio p prev : supported c ratio p -> (0 < ratio)%Q ->
  (empty target \/ live target) -> (empty prev \/ live prev) ->
  exists s, state_for_ratio A c target ratio prev = Some s /\ live s /\ parameters s = p.
Proof.
  intros Hs Hr Ht Hp.
  destruct (state_for_ratio_ok A c Hch target ratio p prev Hs Hr) as (s & blen & H1 & H2 & H3 & H4 & H5 & H6 & _).
  - rewrite (live_channel _ Ht). lia.
  - by apply live_sorted.
  - destruct Hp as [H|(_ & _ & b & ? & ? & G & _)]; [by left|right]. eauto.
  - exists s. split_and!; try done. subst p. split; [|split].
    + by rewrite H4, (live_channel _ Ht).
    + by exists ratio.
    + destruct Hp as [H|Hl].
      * destruct (H5 H) as (_ & _ & Hh). eauto 10.
      * pose proof (live_buffer _ Hl). destruct Hl as (_ & _ & b & u & xs & G & Hh).
        do 3 eexists. split; [exact H2|]. by apply H6.
Qed.

Lemma fade_length_nonneg incount outspace ratio : 0 <= incount -> 0 <= outspace -> (0 < ratio)%Q ->
  0 <= fade_length c incount outspace ratio.
Proof.
  intros Hi Ho Hr. unfold fade_length.
  assert (0 <= Qfloor (inject_Z incount * ratio)).
  { apply Qfloor_spec. apply Qmult_le_0_compat; [rewrite <- (Zle_Qle 0); lia|]. by apply Qlt_le_weak. }
  apply Z.min_glb; [lia|]. apply Z.quot_pos; lia.
Qed.

Lemma prepare_ok b ratio flen p : bq_ok b -> supported c ratio p -> (0 < ratio)%Q -> 0 <= flen ->
  exists b1, prepare A c b ratio flen = Some b1 /\ bq_ok b1 /\ initialised b1 = true.
Proof.
  intros (Hc & Ho & Hi & Hf & Hfo & Hsm) Hs Hr Hl. unfold prepare.
  destruct (initialised b) eqn:Ei; cbn [negb].
  - destruct (Qeq_bool _ _).
    { exists b. split_and!; [done| |done]. unfold bq_ok. rewrite Ei. auto 10. }
    destruct (state_for_ratio_live (old b) ratio p (cur b) Hs Hr Ho Hc) as (s & He & Hlv & Hp).
    rewrite He. cbn [mbind option_bind]. eexists. split; [done|]. split; [|done].
    unfold bq_ok. cbn. split_and!; auto; destruct (smooth c); try lia; done.
  - destruct (state_for_ratio_live (cur b) ratio p (old b) Hs Hr Hc Ho) as (s & He & Hlv & Hp).
    rewrite He. cbn [mbind option_bind]. eexists. split; [done|]. split; [|done].
    unfold bq_ok. cbn. split_and!; auto.
Qed.

Lemma fade_zero s flen ins outs : fade_loop A c s 0 flen ins outs = Some (outs, s, 0).
Proof. by destruct outs. Qed.

Lemma resample_ok b ins outspace ratio final : bq_ok b -> valid (Resample ins outspace ratio final) ->
  exists ys b', resampleInterleaved A c b outspace ins ratio final = Some (ys, b') /\ bq_ok b' /\
    zlen ys <= outspace * ch /\ (ch | zlen ys).
Proof.
  intros Hb (Hd & Ho & Hr & p & Hs). unfold resampleInterleaved.
  destruct (Z.eqb_spec ch 0); [lia|]. cbv zeta.
  assert (Hl : 0 <= fade_length c (zlen ins `quot` ch) outspace ratio).
  { apply fade_length_nonneg; try done. apply Z.quot_pos; [apply zlen_nonneg|lia]. }
  set (flen := fade_length _ _ _ _) in *.
  destruct (prepare_ok b ratio flen p Hb Hs Hr Hl) as (b1 & -> & Hb1 & Hi1). cbn [mbind option_bind].
  destruct Hb1 as (Hc1 & Ho1 & Hin & Hf1 & Hfo1 & Hsm1).
  destruct (live_at (cur b1) (Hin Hi1)) as (blen & u & xs & Hfr & _ & _ & Hn & Hdn & Hp & HA).
  destruct (main_loop_ok A c Hch _ _ _ blen u (current_phase (cur b1)) (parameters (cur b1))
    Hn Hdn Hp final (Z.to_nat (outspace * ch)) (cur b1) ins 0 xs ltac:(lia) HA Hd)
    as (outs & s' & pre & rest & Hm & Hrest & Hdr & Hout & HA' & Hlen & Hcan & Hend).
  { rewrite Z.mod_0_l by lia. done. }
  rewrite Hm. cbn [mbind option_bind].
  assert (Hwhole : zlen outs mod ch = 0).
  { destruct (decide (zlen outs < Z.of_nat (Z.to_nat (outspace * ch)))) as [Hlt|Hge].
    - apply Hend in Hlt as (_ & _ & Hlt). by rewrite Z.add_0_l in Hlt.
    - replace (zlen outs) with (outspace * ch) by nia. apply Z_mod_mult. }
  assert (Hlive : live s').
  { eapply at_live; [done|exact HA'|]. by rewrite Z.add_0_l. }
  destruct (decide (0 < fade_count b1)) as [Hfc|Hfc].
  - destruct (live_at (old b1) (Hfo1 Hfc)) as (blen' & u' & xs' & Hfr' & _ & _ & Hn' & Hdn' & Hp' & HAo).
    destruct (fade_loop_ok A c Hch _ _ _ blen' u' (current_phase (old b1)) (parameters (old b1))
      Hn' Hdn' Hp' flen outs (old b1) (fade_count b1) ins 0 xs' ltac:(lia) HAo Hd Hf1)
      as (m & f & pre' & rest' & Hm' & Hrest' & He & HAf & Hc' & Hall & Hend').
    { rewrite Z.mod_0_l by lia. done. }
    rewrite He. cbn [mbind option_bind]. eexists _, _. split; [done|].
    match goal with |- context [zlen (?l ++ ?k)] => assert (Hz : zlen (l ++ k) = zlen outs) end.
    { unfold zlen in *. rewrite app_length, zip_with_length, drop_length, seqZ_length. lia. }
    assert (Hmw : (0 + m) mod ch = 0).
    { destruct (decide (m < zlen outs)) as [Hlt|Hge]; [by apply Hend'|].
      replace (0 + m) with (zlen outs) by lia. done. }
    split_and!.
    + unfold bq_ok. cbn [cur old fade_count initialised].
      assert (live f) by (eapply at_live; [done|exact HAf|done]). split_and!; auto.
      intros Hs0. apply Hsm1 in Hs0. lia.
    + rewrite Hz. lia.
    + rewrite Hz. apply Z.mod_divide; [lia|done].
  - replace (fade_count b1) with 0 by lia. rewrite fade_zero. cbn [mbind option_bind].
    eexists _, _. split; [done|]. split_and!; [|lia|apply Z.mod_divide; [lia|done]].
    unfold bq_ok. cbn. split_and!; auto; lia.
Qed.

Lemma step_ok b o : bq_ok b -> valid o ->
  exists ys b', step A c b o = Some (ys, b') /\ bq_ok b' /\ (ch | zlen ys) /\
    match o with Resample _ outspace _ _ => zlen ys <= outspace * ch | Reset => True end.
Proof.
  intros Hb Hv. destruct o as [ins outspace ratio final|]; cbn [step].
  - destruct (resample_ok b ins outspace ratio final Hb Hv) as (ys & b' & ? & ? & ? & ?). eauto 10.
  - exists [], (reset b). split_and!; try done; [|apply Z.divide_0_r].
    destruct Hb as (H1 & H2 & H3 & H4 & H5 & H6). unfold bq_ok, reset. cbn. split_and!; try done; lia.
Qed.

Definition within (o : op A) (ys : list T) : Prop :=
  (ch | zlen ys) /\ match o with Resample _ outspace _ _ => zlen ys <= outspace * ch | Reset => ys = [] end.
Lemma run_ok : forall ops b, bq_ok b -> Forall valid ops ->
  exists yss b', run A c b ops = Some (yss, b') /\ bq_ok b' /\ Forall2 within ops yss.
Proof.
  induction ops as [|o ops IH]; intros b Hb Hv; cbn [run]; [eauto|].
  apply Forall_cons_1 in Hv as [Hv1 Hv2].
  destruct (step_ok b o Hb Hv1) as (ys & b1 & Hs & Hb1 & Hd & Hl).
  destruct (IH b1 Hb1 Hv2) as (yss & b2 & Hr & Hb2 & Hf).
  rewrite Hs. cbn [mbind option_bind]. rewrite Hr. cbn [mbind option_bind].
  eexists _, _. split; [done|]. split; [done|]. constructor; [|done].
  split; [done|]. destruct o; [done|]. cbn in Hs. congruence.
Qed.

(** ** The invariant's samples are the specification's *)
Definition cvp (p : params) : conversion :=
  Conversion (numerator p) (denominator p) (filter_length_for c p).
(** Sample [s] counted from time [t], by the conversion for [p] with [w] frames
    of delay line. *)
Definition nth_sample (p : params) (w : Z) (xs : list T) (t s : Z) : T :=
  sample A (filter_tap A c p (filter_length_for c p)) (fixed c && (ch =? 1)) (p_scale p) (cvp p) w ch xs
    (t + s / ch * denominator p) (s mod ch).
Lemma value_sample_at p blen u0 p0 xs q :
  let num := numerator p in let half := filter_length_for c p / 2 in
  1 <= num -> 1 <= denominator p -> filter_length_for c p = 2 * half + 1 ->
  6 * Z.max num (denominator p) <= half -> 0 <= p0 < num ->
  value A c num (denominator p) half blen u0 p0 p xs q =
  nth_sample p (blen - blen / 2 + q0 num half) xs (u0 * num - p0 + r0 num half) q.
Proof.
  intros num half Hn Hd Hf Hh Hp0. unfold value, nth_sample, sample. cbv zeta.
  set (k := q / ch). set (den := denominator p) in *.
  assert (Hpp : pos num den p0 k * num = k * den + phase num den p0 k - p0).
  { pose proof (pos_phase num den p0 Hn Hd ltac:(lia) k) as Hpp. unfold r0 in Hpp.
    rewrite Z.mod_small in Hpp by lia. lia. }
  pose proof (half_eq num half Hn ltac:(lia)) as He.
  set (t := u0 * num - p0 + r0 num half + k * den).
  assert (Hfirst : first_input (cvp p) t = u0 + pos num den p0 k - q0 num half).
  { unfold first_input, chalf, cvp. cbn [cflen cnum]. fold half num. unfold pos, r0. rewrite (Z.mod_small p0) by lia.
    replace (t - half) with (k * den - p0 + (u0 - q0 num half) * num) by (unfold t; lia).
    rewrite ceil_div_add by lia. lia. }
  assert (Htaps : taps_under (cvp p) t = ceil_div (2 * half + 1 - phase num den p0 k) num).
  { unfold taps_under. rewrite Hfirst. unfold chalf, cvp. cbn [cflen cnum]. fold half num. rewrite Hf.
    replace (t - half + (2 * half + 1)) with
      (2 * half + 1 - phase num den p0 k + (u0 + pos num den p0 k - q0 num half) * num).
    - rewrite ceil_div_add by lia. lia.
    - unfold t. rewrite Z.mul_sub_distr_r, Z.mul_add_distr_r, Hpp. lia. }
  rewrite (seqZ_shift _ (first_input (cvp p) t)), (seqZ_shift _ (first_input (cvp p) t)).
  rewrite Htaps, <- Hf. f_equal. f_equal.
  - apply list_fmap_ext. intros i z _. f_equal. unfold tap_index. rewrite Hfirst. unfold chalf, cvp. cbn [cflen cnum].
    fold half num. unfold t. rewrite Z.mul_add_distr_r, Z.mul_sub_distr_r, Z.mul_add_distr_r, Hpp. lia.
  - apply list_fmap_ext. intros i z _. f_equal. rewrite Hfirst. lia.
Qed.

(** ** Constant ratio *)
Section Constant.
Context (ratio : Q) (p : params) (Hsup : supported c ratio p) (Hpos : (0 < ratio)%Q).
Notation num := (numerator p).
Notation den := (denominator p).
Notation flen := (filter_length_for c p).
Notation half := (filter_length_for c p / 2).
Definition cv : conversion := Conversion num den flen.
Notation qq := (q0 num half).
Notation AtC := (At A c num den half (2 * qq + 1) 0 (r0 num half) p).
Notation valueC := (value A c num den half (2 * qq + 1) 0 (r0 num half) p).
Notation canC := (can c num den half (2 * qq + 1) 0 (r0 num half)).

Lemma facts : 1 <= num /\ 1 <= den /\ flen = 2 * half + 1 /\ 6 * Z.max num den <= half /\
  Z.gcd num den = 1 /\ p_ratio p = ratio.
Proof.
  destruct (supported_params c Hch ratio p Hsup Hpos) as (Hg & Hr & Hptz).
  destruct Hsup as (_ & Hn & Hd & _). destruct (flen_half c Hch p Hn Hd Hptz) as [H1 H2]. done.
Qed.
Lemma pos_r0 k : pos num den (r0 num half) k = pos num den half k.
Proof. unfold pos, r0. by rewrite Zmod_mod. Qed.
Lemma phase_r0 k : phase num den (r0 num half) k = phase num den half k.
Proof. unfold phase, r0. by rewrite Zmod_mod. Qed.
Lemma qq_half : (2 * qq + 1) / 2 = qq.
Proof. symmetry. apply (Z.div_unique _ 2 _ 1); lia. Qed.

(** The invariant's samples are the specification's. *)
Lemma value_sample xs q : valueC xs q =
  sample A (filter_tap A c p flen) (fixed c && (ch =? 1)) (p_scale p) cv (line_frames cv) ch xs
    (q / ch * den) (q mod ch).
Proof.
  destruct facts as (Hn & Hd & Hf & Hh & Hg & _).
  rewrite (value_sample_at p _ 0 (r0 num half) xs q Hn Hd Hf Hh) by (apply r0_range; lia).
  rewrite qq_half. unfold nth_sample.
  replace (0 * num - r0 num half + r0 num half + q / ch * den) with (q / ch * den) by lia.
  replace (2 * qq + 1 - qq + qq) with (line_frames cv) by (unfold line_frames, chalf, cv, q0; cbn; lia).
  done.
Qed.

Lemma canC_mono final n n' k : n <= n' -> canC final n k -> canC final n' k.
Proof.
  intros Hn [H|(Hf & [H|[H H']])]; [left; lia|right; split; [done|left; lia]|].
  right. split; [done|]. destruct (decide (n = n')); [right|left]; lia.
Qed.
(** Samples made from a full delay line do not change later. *)
Lemma value_stable xs ys q : canC false (zlen xs) (q / ch) -> valueC xs q = valueC (xs ++ ys) q.
Proof.
  intros [Hc|[? _]]; [|done]. unfold value. cbv zeta. f_equal. f_equal.
  apply list_fmap_ext. intros i t Ht. apply lookup_seqZ in Ht as [-> Ht].
  symmetry. apply stream_at_app_l. pose proof (Z.mod_pos_bound q ch ltac:(lia)). nia.
Qed.

Lemma pos_le k m : pos num den half k <= m <-> k * den - r0 num half <= m * num.
Proof. destruct facts as (Hn & _). unfold pos. apply ceil_div_le. lia. Qed.

(** How many frames can be made. *)
Lemma frames_can final n : 0 <= n -> 0 <= frames cv final n /\
  (forall k, 0 <= k < frames cv final n -> canC final (n * ch) k) /\
  ~ canC final (n * ch) (frames cv final n).
Proof.
  intros Hn0. destruct facts as (Hn & Hd & Hf & Hh & Hg & _).
  pose proof (r0_range num half Hn ltac:(lia)) as Hr.
  unfold can. rewrite qq_half.
  assert (Hfull : forall k, (2 * qq + 1 - qq + 0 + pos num den half k) * ch <= n * ch <->
    k * den <= (n - qq - 1) * num + r0 num half).
  { intros k. rewrite <- Z.mul_le_mono_pos_r by lia.
    transitivity (pos num den half k <= n - qq - 1); [lia|]. rewrite pos_le. lia. }
  assert (Hend : forall k, (0 + pos num den half k) * ch < n * ch \/
      (0 + pos num den half k) * ch = n * ch /\ phase num den half k <> r0 num half <->
      k * den - r0 num half <= n * num /\ k * den <> n * num).
  { intros k. pose proof (pos_phase num den half Hn Hd ltac:(lia) k) as Hpp.
    pose proof (phase_range num den half Hn Hd ltac:(lia) k) as Hpr.
    rewrite <- Z.mul_lt_mono_pos_r by lia. rewrite Z.mul_cancel_r by lia. rewrite Z.add_0_l.
    rewrite <- pos_le. split.
    - intros [Hlt|[He Hne]].
      + split; [lia|]. intros E. assert (pos num den half k * num <= (n - 1) * num) by nia. lia.
      + split; [lia|]. intros E. apply Hne. rewrite He in Hpp. lia.
    - intros [Hle Hne]. destruct (decide (pos num den half k = n)) as [He|He]; [right|left; lia].
      split; [done|]. intros E. rewrite He in Hpp. lia. }
  assert (Hq0 : 0 <= qq) by (apply q0_nonneg; lia).
  destruct final; cbn [frames].
  - unfold frames_at_end, cv, chalf. cbn [cnum cden cflen]. fold (r0 num half).
    pose proof (Z.div_mod (n * num) den ltac:(lia)) as Hdm.
    pose proof (Z.mod_pos_bound (n * num) den ltac:(lia)).
    assert (Hall : forall k, ((2 * qq + 1 - qq + 0 + pos num den (r0 num half) k) * ch <= n * ch \/
        true = true /\ ((0 + pos num den (r0 num half) k) * ch < n * ch \/
          (0 + pos num den (r0 num half) k) * ch = n * ch /\
          phase num den (r0 num half) k <> r0 num half)) <->
        k * den - r0 num half <= n * num /\ k * den <> n * num).
    { intros k. rewrite pos_r0, phase_r0, Hfull, Hend. split; [|by right].
      intros [Hx|[_ Hx]]; [|done]. nia. }
    destruct (Z.eqb_spec ((n * num) mod den) 0) as [E|E].
    + split_and!.
      * apply Z.div_pos; nia.
      * intros k Hk. rewrite Hall. split; nia.
      * rewrite Hall. intros [_ Hx]. nia.
    + pose proof (Z.div_mod (n * num + r0 num half) den ltac:(lia)) as Hdm2.
      pose proof (Z.mod_pos_bound (n * num + r0 num half) den ltac:(lia)).
      split_and!.
      * assert (0 <= (n * num + r0 num half) / den) by (apply Z.div_pos; nia). lia.
      * intros k Hk. rewrite Hall. split; [nia|]. intros Hx. apply E. rewrite <- Hx. apply Z_mod_mult.
      * rewrite Hall. intros [Hx _]. nia.
  - unfold frames_so_far, cv, chalf. cbn [cnum cden cflen]. fold (r0 num half) (q0 num half).
    assert (Hall : forall k, ((2 * qq + 1 - qq + 0 + pos num den (r0 num half) k) * ch <= n * ch \/
        false = true /\ ((0 + pos num den (r0 num half) k) * ch < n * ch \/
          (0 + pos num den (r0 num half) k) * ch = n * ch /\
          phase num den (r0 num half) k <> r0 num half)) <->
        k * den <= (n - qq - 1) * num + r0 num half).
    { intros k. rewrite pos_r0, phase_r0, Hfull. split; [intros [?|[? _]]; done|by left]. }
    set (m := (n - qq - 1) * num + r0 num half) in *.
    destruct (Z.ltb_spec m 0) as [E|E].
    + split_and!; [lia|intros; lia|]. rewrite Hall. lia.
    + pose proof (Z.div_mod m den ltac:(lia)). pose proof (Z.mod_pos_bound m den ltac:(lia)).
      split_and!.
      * assert (0 <= m / den) by (apply Z.div_pos; lia). lia.
      * intros k Hk. rewrite Hall. nia.
      * rewrite Hall. nia.
Qed.

(** The object after [q] samples of output from the stream [xs]. *)
Definition running (b : bq A) (q : Z) (xs : list T) : Prop :=
  fade_count b = 0 /\ empty (old b) /\
  (initialised b = false /\ (empty (cur b) \/ live (cur b)) /\ q = 0 /\ xs = [] \/
   initialised b = true /\ AtC (cur b) q xs).

Lemma running_call b q xs ins outspace final : running b q xs -> 0 <= q -> q mod ch = 0 ->
  (ch | zlen ins) -> 0 <= outspace ->
  exists ys b', resampleInterleaved A c b outspace ins ratio final = Some (ys, b') /\
    zlen ys <= outspace * ch /\
    ys = valueC (xs ++ ins) <$> seqZ q (zlen ys) /\
    (forall q', q <= q' < q + zlen ys -> canC final (zlen (xs ++ ins)) (q' / ch)) /\
    (exists zs, running b' (q + zlen ys) zs) /\ (q + zlen ys) mod ch = 0 /\
    (zlen ys < outspace * ch -> running b' (q + zlen ys) (xs ++ ins) /\
       ~ canC final (zlen (xs ++ ins)) ((q + zlen ys) / ch)).
Proof.
  intros (Hf & Ho & Hor) Hq Hqm Hd Hos. destruct facts as (Hn & Hdn & Hfl & Hh & Hg & Hpr).
  pose proof (r0_range num half Hn ltac:(lia)) as Hr0.
  unfold resampleInterleaved. destruct (Z.eqb_spec ch 0); [lia|]. cbv zeta.
  set (fl := fade_length _ _ _ _).
  assert (Hprep : exists s, prepare A c b ratio fl = Some (BQ s (old b) 0 true) /\ AtC s q xs).
  { unfold prepare. destruct Hor as [(-> & Hc & -> & ->)|(Hi & HA)]; [|rewrite Hi]; cbn [negb].
    - destruct (state_for_ratio_ok A c Hch (cur b) ratio p (old b) Hsup Hpos)
        as (s & blen & H1 & H2 & H3 & H4 & H5 & _).
      + rewrite (live_channel _ Hc). lia.
      + by apply live_sorted.
      + by left.
      + destruct (H5 Ho) as (-> & H6 & H7). rewrite H1. cbn [mbind option_bind]. rewrite Hf.
        exists s. split; [done|]. unfold At. rewrite Z.div_0_l, Z.mod_0_l by lia.
        rewrite phase_r0, pos_r0, phase_0, pos_0, Z.add_0_r by lia. split_and!; try done.
        * rewrite H6. apply (g_init _ _ _ _ _ _ _ H2).
        * by rewrite H4, (live_channel _ Hc).
    - assert (Hpc : parameters (cur b) = p) by apply HA. rewrite Hpc, Hpr.
      assert (Qeq_bool ratio ratio = true) as -> by (apply Qeq_bool_iff; reflexivity).
      exists (cur b). split; [|done]. rewrite <- Hf, <- Hi. by destruct b. }
  destruct Hprep as (s & -> & HA). cbn [mbind option_bind cur old fade_count].
  destruct (main_loop_ok A c Hch num den half (2 * qq + 1) 0 (r0 num half) p Hn Hdn Hr0 final
    (Z.to_nat (outspace * ch)) s ins q xs Hq HA Hd)
    as (outs & s' & pre & rest & Hm & Hrest & Hdr & Hout & HA' & Hlen & Hcan & Hend).
  { done. }
  rewrite Hm. cbn [mbind option_bind]. rewrite fade_zero. cbn [mbind option_bind].
  assert (Hos' : Z.of_nat (Z.to_nat (outspace * ch)) = outspace * ch) by nia. rewrite Hos' in *.
  eexists _, _. split; [done|]. split_and!; try done.
  - exists (xs ++ pre). split_and!; try done. by right.
  - destruct (decide (zlen outs < outspace * ch)) as [Hlt|Hge]; [by apply Hend|].
    replace (zlen outs) with (outspace * ch) by lia. rewrite Z_mod_plus_full. done.
  - intros Hlt. destruct (Hend Hlt) as (-> & Hnr & Hw). rewrite app_nil_r in Hrest. subst pre. split.
    + split_and!; try done. by right.
    + rewrite <- (ready_can A c Hch num den half (2 * qq + 1) 0 (r0 num half) p Hn Hdn Hr0 final s' _ _ HA').
      congruence.
Qed.

(** Block [x] with output space [n]. *)
Definition block := (list T * Z)%type.
Definition blocks_ok (bs : list block) : Prop := Forall (fun b => (ch | zlen (fst b)) /\ 0 <= snd b) bs.
Definition calls (bs : list block) : list (op A) := (fun b => Resample (fst b) (snd b) ratio false) <$> bs.
Definition room (b : block) (ys : list T) : Prop := zlen ys < snd b * ch.

Lemma running_calls : forall bs b q xs, running b q xs -> 0 <= q -> q mod ch = 0 -> blocks_ok bs ->
  exists yss b', run A c b (calls bs) = Some (yss, b') /\
    (Forall2 room bs yss ->
     exists q', q <= q' /\ q' mod ch = 0 /\
       mjoin yss = valueC (xs ++ mjoin (fst <$> bs)) <$> seqZ q (q' - q) /\
       running b' q' (xs ++ mjoin (fst <$> bs)) /\
       (forall i, q <= i < q' -> canC false (zlen (xs ++ mjoin (fst <$> bs))) (i / ch)) /\
       (bs <> [] -> ~ canC false (zlen (xs ++ mjoin (fst <$> bs))) (q' / ch))) /\
    exists q' zs, 0 <= q' /\ q' mod ch = 0 /\ running b' q' zs.
Proof.
  induction bs as [|[x n] bs IH]; intros b q xs Hrun Hq Hqm Hok; cbn [calls fmap list_fmap run].
  - exists [], b. split_and!; [done| |].
    + intros _. exists q. cbn. rewrite app_nil_r. replace (q - q) with 0 by lia.
      split_and!; try done; lia.
    + eauto 10.
  - apply Forall_cons_1 in Hok as [[Hx Hn] Hok]. cbn in Hx, Hn.
    destruct (running_call b q xs x n false Hrun Hq Hqm Hx Hn)
      as (ys & b1 & Hr & Hl & Hys & Hcan & (zs & Hz) & Hqm1 & Hend).
    cbn [step fst snd]. rewrite Hr. cbn [mbind option_bind]. pose proof (zlen_nonneg ys).
    destruct (decide (zlen ys < n * ch)) as [Hlt|Hge].
    + destruct (Hend Hlt) as [Hrun1 Hnc].
      destruct (IH b1 (q + zlen ys) (xs ++ x) Hrun1 ltac:(lia) Hqm1 Hok) as (yss & b2 & Hr2 & Himp & Hex).
      fold (calls bs). rewrite Hr2. cbn [mbind option_bind].
      exists (ys :: yss), b2. split_and!; [done| |done].
      intros HF. apply Forall2_cons in HF as [_ HF]. destruct (Himp HF) as (q' & Hq' & Hm' & Hj & Hru & Hca & Hnc2).
      exists q'. cbn [fst fmap list_fmap mjoin list_join]. rewrite <- app_assoc in *.
      split_and!; try done; try lia.
      * replace (q' - q) with (zlen ys + (q' - (q + zlen ys))) by lia.
        rewrite seqZ_app by lia. rewrite fmap_app. f_equal; [|done].
        rewrite Hys at 1. apply list_fmap_ext. intros i t Ht. apply lookup_seqZ in Ht as [-> Ht].
        rewrite (value_stable (xs ++ x) (mjoin bs.*1)); [by rewrite <- app_assoc|]. apply Hcan. lia.
      * intros i Hi. destruct (decide (i < q + zlen ys)); [|apply Hca; lia].
        eapply canC_mono; [|apply Hcan; lia].
        rewrite !zlen_app. unfold zlen. lia.
      * intros _. destruct bs as [|b0 bs']; [|by apply Hnc2].
        cbn in Hr2. injection Hr2 as <- <-. cbn in Hj.
        assert (q' = q + zlen ys).
        { assert (Hz0 : length (valueC (xs ++ x ++ []) <$> seqZ (q + zlen ys) (q' - (q + zlen ys))) = 0%nat)
            by (by rewrite <- Hj). rewrite fmap_length, seqZ_length in Hz0. lia. }
        subst q'. cbn. by rewrite app_nil_r.
    + destruct (IH b1 (q + zlen ys) zs Hz ltac:(lia) Hqm1 Hok) as (yss & b2 & Hr2 & Himp & Hex).
      fold (calls bs). rewrite Hr2. cbn [mbind option_bind].
      exists (ys :: yss), b2. split_and!; [done| |done].
      intros HF. apply Forall2_cons in HF as [HF _]. unfold room in HF. cbn in HF. lia.
Qed.

Lemma whole_stream bs x n final : blocks_ok (bs ++ [(x, n)]) ->
  exists yss b', run A c construct (calls bs ++ [Resample x n ratio final]) = Some (yss, b') /\
    (Forall2 room (bs ++ [(x, n)]) yss ->
     mjoin yss = converted A (filter_tap A c p flen) (fixed c && (ch =? 1)) (p_scale p) cv ch final
       (mjoin (fst <$> bs) ++ x)).
Proof.
  intros Hok. apply Forall_app in Hok as [Hok Hx]. apply Forall_cons_1 in Hx as [[Hx Hn] _]. cbn in Hx, Hn.
  assert (Hrun0 : running construct 0 []).
  { split_and!; try done. left. split_and!; try done. by left. }
  destruct (running_calls bs construct 0 [] Hrun0 ltac:(lia) ltac:(apply Z.mod_0_l; lia) Hok)
    as (yss & b1 & Hr & Himp & q1 & zs & Hq1 & Hqm1 & Hrun1).
  destruct (running_call b1 q1 zs x n final Hrun1 Hq1 Hqm1 Hx Hn)
    as (ys & b2 & Hr2 & _).
  assert (Happ : forall ops1 ops2 b, run A c b (ops1 ++ ops2) =
    ('(y1, b1) ← run A c b ops1; '(y2, b2) ← run A c b1 ops2; Some (y1 ++ y2, b2))).
  { clear. induction ops1 as [|o ops1 IH]; intros ops2 b; cbn [run app].
    - cbn. by destruct (run A c b ops2) as [[]|].
    - destruct (step A c b o) as [[ys b1]|]; [|done]. cbn [mbind option_bind]. rewrite IH.
      destruct (run A c b1 ops1) as [[y1 b2]|]; [|done]. cbn [mbind option_bind].
      destruct (run A c b2 ops2) as [[]|]; done. }
  exists (yss ++ [ys]), b2. rewrite Happ, Hr. cbn [mbind option_bind run step]. rewrite Hr2.
  cbn [mbind option_bind]. split; [done|].
  intros HF. apply Forall2_app_inv in HF as [HF1 HF2].
  2: { apply Forall2_length in HF. rewrite !app_length in HF. cbn in HF. by apply Nat.add_cancel_r in HF. }
  apply Forall2_cons in HF2 as [HF2 _]. unfold room in HF2. cbn in HF2.
  destruct (Himp HF1) as (q & Hq & Hqm & Hj & Hrun & Hcan & Hnc). cbn [app] in *.
  rewrite Z.sub_0_r in Hj.
  set (xs := mjoin (fst <$> bs)) in *.
  destruct (running_call b1 q xs x n final Hrun Hq Hqm Hx Hn)
    as (ys' & b2' & Hr2' & Hl & Hys & Hcan2 & _ & Hqm2 & Hend).
  rewrite Hr2 in Hr2'. injection Hr2' as <- <-.
  destruct (Hend HF2) as [_ Hnc2].
  assert (Hyl := zlen_nonneg ys).
  rewrite join_app. cbn [mjoin list_join]. rewrite app_nil_r.
  unfold converted.
  assert (Hw : (ch | zlen (xs ++ x))).
  { rewrite zlen_app. apply Z.divide_add_r; [|done]. unfold xs.
    clear -Hok. induction Hok as [|[x n] bs [Hx _] _ IH]; [apply Z.divide_0_r|].
    cbn [fmap list_fmap mjoin list_join fst]. rewrite zlen_app. by apply Z.divide_add_r. }
  destruct Hw as [N HN]. rewrite HN, Z.div_mul by lia.
  assert (HN0 : 0 <= N) by (pose proof (zlen_nonneg (xs ++ x)); nia).
  destruct (frames_can final N HN0) as (HF0 & HFa & HFn). rewrite <- HN in *.
  set (F := frames cv final N) in *.
  assert (Hall : forall i, 0 <= i < q + zlen ys -> canC final (zlen (xs ++ x)) (i / ch)).
  { intros i Hi. destruct (decide (i < q)); [|apply Hcan2; lia].
    apply (canC_mono final (zlen xs)).
    - rewrite zlen_app. pose proof (zlen_nonneg x). lia.
    - destruct (Hcan i ltac:(lia)) as [Hc|[? _]]; [by left|done]. }
  assert (HFq : F = (q + zlen ys) / ch).
  { pose proof (Z.div_mod (q + zlen ys) ch ltac:(lia)) as Hdm. rewrite Hqm2 in Hdm.
    set (K := (q + zlen ys) / ch) in *.
    assert (0 <= K) by (apply Z.div_pos; lia).
    destruct (Z.lt_trichotomy F K) as [Hlt|[He|Hlt]]; [|done|].
    - exfalso. apply HFn. specialize (Hall (F * ch) ltac:(nia)). by rewrite Z.div_mul in Hall by lia.
    - exfalso. apply Hnc2. apply HFa. lia. }
  pose proof (Z.div_mod (q + zlen ys) ch ltac:(lia)) as Hdm. rewrite Hqm2 in Hdm.
  replace (F * ch) with (q + zlen ys) by lia.
  rewrite seqZ_app by lia. rewrite fmap_app, Z.add_0_l. f_equal.
  - rewrite Hj. apply list_fmap_ext. intros i t Ht. apply lookup_seqZ in Ht as [-> Ht].
    rewrite (value_stable xs x) by (apply Hcan; lia). apply value_sample.
  - rewrite Hys at 1. apply list_fmap_ext. intros i t _. apply value_sample.
Qed.
End Constant.
End Object.
