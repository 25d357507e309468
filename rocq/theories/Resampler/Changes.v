(** Changing the ratio, resetting, and which ratios are supported. *)
From stdpp Require Import prelude.
From Coq Require Import ZArith QArith Qround Qabs Lia Znumtheory Lqa.
From Verif.MathMisc Require Import Model Spec Proofs.
From Verif.Resampler Require Import Model Spec Phases Core Loops Proofs.
Local Open Scope Z_scope.
Local Set Default Proof Using "Type*".

Lemma zip_seqZ {X} (F : Z -> X -> X) (g : Z -> X) m n : 0 <= m <= n ->
  zip_with F (seqZ 0 m) (g <$> seqZ 0 n) ++ drop (Z.to_nat m) (g <$> seqZ 0 n) =
  (fun i => if i <? m then F i (g i) else g i) <$> seqZ 0 n.
Proof.
  intros Hm. replace n with (m + (n - m)) by lia. rewrite seqZ_app by lia. rewrite !fmap_app.
  rewrite drop_app_alt by (rewrite fmap_length, seqZ_length; lia). f_equal.
  - apply list_eq. intros i. rewrite lookup_zip_with, list_lookup_fmap.
    destruct (seqZ 0 m !! i) as [z|] eqn:E; [|done]. cbn.
    pose proof E as E'. apply lookup_seqZ in E' as [-> Hi].
    rewrite lookup_app_l by (rewrite fmap_length, seqZ_length; lia).
    rewrite list_lookup_fmap, E. cbn. destruct (Z.ltb_spec (0 + Z.of_nat i) m); [done|lia].
  - apply list_fmap_ext. intros i z Hz. apply lookup_seqZ in Hz as [-> Hi].
    destruct (Z.ltb_spec (0 + m + Z.of_nat i) m); [lia|done].
Qed.

Section Changes.
Context (A : arith) (c : config) (Hch : 1 <= channels c).
Notation T := (T A).
Notation ch := (channels c).
Notation state := (state A).
Notation good := (good A c).
Notation holds := (holds A c).
Notation empty := (empty A c).
Notation live := (live A c).
Notation bq_ok := (bq_ok A c).
Notation valid := (valid A c).
Notation nth_sample := (nth_sample A c).

(** Where a live state stands: next output at time [t] of its grid over the
    stream [xs], with [w] frames of delay line. *)
Definition stands (s : state) (w : Z) (xs : list T) (t : Z) : Prop :=
  let p := parameters s in let half := filter_length_for c p / 2 in
  exists blen u, good s (numerator p) (denominator p) half blen /\ holds s u xs /\
    w = blen - blen / 2 + q0 (numerator p) half /\
    t = u * numerator p - current_phase s + r0 (numerator p) half.

Lemma live_stands s : live s -> exists w xs t, stands s w xs t /\ line_frames (cvp c (parameters s)) <= w.
Proof.
  intros (_ & _ & blen & u & xs & G & Hh). exists (blen - blen / 2 + q0 (numerator (parameters s)) (filter_length_for c (parameters s) / 2)), xs, (u * numerator (parameters s) - current_phase s + r0 (numerator (parameters s)) (filter_length_for c (parameters s) / 2)).
  split; [exists blen, u; done|].
  pose proof (g_blen _ _ _ _ _ _ _ G). unfold line_frames, chalf, cvp, q0 in *. cbn.
  pose proof (Z.div_mod blen 2 ltac:(lia)). pose proof (Z.mod_pos_bound blen 2 ltac:(lia)). lia.
Qed.

(** The output of one call from such states. *)
Lemma call_shape s w xs t o w' xs' t' fc fl ins n final outs s1 rest ys f k :
  live s -> stands s w xs t -> (0 < fc -> live o /\ stands o w' xs' t') -> 0 <= fc ->
  (ch | zlen ins) ->
  main_loop A c n final s ins = Some (outs, s1, rest) ->
  fade_loop A c o fc fl ins outs = Some (ys, f, k) ->
  parameters s1 = parameters s /\
  exists m, 0 <= m <= zlen ys /\ (fc = 0 -> m = 0) /\ (forall i, 0 <= i < m -> 1 <= fc - i / ch <= fc) /\
    ys = (fun i => let y := nth_sample (parameters s) w (xs ++ ins) t i in
            if i <? m then mixed A fl (fc - i / ch) (nth_sample (parameters o) w' (xs' ++ ins) t' i) y else y)
         <$> seqZ 0 (zlen ys).
Proof.
  intros Hl Hst Hold Hfc Hd Hm Hf.
  assert (Hat : forall s w xs t, live s -> stands s w xs t -> exists blen u,
    let p := parameters s in let half := filter_length_for c p / 2 in
    1 <= numerator p /\ 1 <= denominator p /\ 0 <= current_phase s < numerator p /\
    At A c (numerator p) (denominator p) half blen u (current_phase s) p s 0 xs /\
    forall zs q, value A c (numerator p) (denominator p) half blen u (current_phase s) p zs q =
      nth_sample p w zs t q).
  { clear -Hch. intros s w xs t Hl (blen & u & G & Hh & -> & ->).
    pose proof (g_num _ _ _ _ _ _ _ G). pose proof (g_den _ _ _ _ _ _ _ G).
    pose proof (g_phase _ _ _ _ _ _ _ G). exists blen, u. cbv zeta. split_and!; try lia.
    - unfold At. rewrite Z.div_0_l, Z.mod_0_l by lia.
      rewrite phase_0, pos_0, Z.add_0_r by lia. unfold r0. rewrite Z.mod_small by lia.
      split_and!; try done. apply Hl.
    - intros zs q. destruct Hl as (_ & (ratio & Hs & Hr) & _).
      destruct (facts c Hch ratio (parameters s) Hs Hr) as (? & ? & ? & ? & _).
      apply value_sample_at; try done. }
  destruct (Hat s w xs t Hl Hst) as (blen & u & Hn & Hdn & Hp & HA & Hv). clear Hst.
  destruct (main_loop_ok A c Hch _ _ _ blen u (current_phase s) (parameters s)
    Hn Hdn Hp final n s ins 0 xs ltac:(lia) HA Hd)
    as (outs' & s' & pre & rest' & Hm' & Hrest & Hdr & Hout & HA' & Hlen & Hcan & Hend).
  { rewrite Z.mod_0_l by lia. done. }
  rewrite Hm in Hm'. injection Hm' as <- <- <-.
  split; [apply HA'|].
  destruct (decide (0 < fc)) as [Hpos|Hz].
  - destruct (Hold Hpos) as [Hlo Hso].
    destruct (Hat o w' xs' t' Hlo Hso) as (blen' & u' & Hn' & Hdn' & Hp' & HAo & Hv').
    destruct (fade_loop_ok A c Hch _ _ _ blen' u' (current_phase o) (parameters o)
      Hn' Hdn' Hp' fl outs o fc ins 0 xs' ltac:(lia) HAo Hd Hfc)
      as (m & f' & pre' & rest'' & Hm' & Hrest' & He & HAf & Hc' & Hall & Hend').
    { rewrite Z.mod_0_l by lia. done. }
    rewrite Hf in He. injection He as Hys _ _.
    assert (Hzl : zlen ys = zlen outs).
    { rewrite Hys. unfold zlen in *. rewrite app_length, zip_with_length, drop_length, seqZ_length. lia. }
    exists m. rewrite Hzl. split_and!; try lia.
    + intros i Hi. specialize (Hall i ltac:(lia)). rewrite Z.div_0_l in Hall by lia.
      pose proof (Z.div_pos i ch ltac:(lia) ltac:(lia)). lia.
    + rewrite Hys, Hout. rewrite (list_fmap_ext _ (nth_sample (parameters s) w (xs ++ ins) t)) by (intros; apply Hv).
      rewrite zip_seqZ, zlen_fmap, zlen_seqZ by (pose proof (zlen_nonneg outs); lia).
      apply list_fmap_ext. intros i z Hz. cbv zeta. destruct (z <? m); [|done].
      rewrite Z.div_0_l, Z.sub_0_r by lia. by rewrite Hv'.
  - assert (fc = 0) as -> by lia. rewrite (fade_zero A c Hch) in Hf. injection Hf as <- <- <-.
    exists 0. pose proof (zlen_nonneg outs). split_and!; try lia.
    rewrite Hout at 1. apply list_fmap_ext. intros i z Hzi. apply lookup_seqZ in Hzi as [-> Hi]. cbv zeta.
    destruct (Z.ltb_spec (0 + Z.of_nat i) 0); [lia|]. apply Hv.
Qed.

Lemma from_ratio_eq ratio p : supported c ratio p -> (0 < ratio)%Q -> p_ratio p = ratio.
Proof. intros H1 H2. by destruct (facts c Hch ratio p H1 H2) as (_ & _ & _ & _ & _ & ?). Qed.

(** After a call, the ratio of the state is the call's. *)
Lemma call_ratio b ins n ratio final ys b' : bq_ok b -> valid (Resample ins n ratio final) ->
  resampleInterleaved A c b n ins ratio final = Some (ys, b') ->
  initialised b' = true /\ (p_ratio (parameters (cur b')) == ratio)%Q.
Proof.
  intros Hb (Hd & Ho & Hr & p & Hs). unfold resampleInterleaved.
  destruct (Z.eqb_spec ch 0); [lia|]. cbv zeta.
  assert (Hl : 0 <= fade_length c (zlen ins `quot` ch) n ratio).
  { apply (fade_length_nonneg c Hch); try done. apply Z.quot_pos; [apply zlen_nonneg|lia]. }
  set (flen := fade_length _ _ _ _) in *.
  destruct (prepare_ok A c Hch b ratio flen p Hb Hs Hr Hl) as (b1 & Hp & Hb1 & Hi1). rewrite Hp. cbn [mbind option_bind].
  assert (Hpr : (p_ratio (parameters (cur b1)) == ratio)%Q).
  { revert Hp. unfold prepare. destruct Hb as (Hbc & Hbo & _). destruct (initialised b) eqn:Ei; cbn [negb].
    - destruct (Qeq_bool _ _) eqn:E.
      + intros [= <-]. apply Qeq_bool_iff in E. by symmetry.
      + destruct (state_for_ratio_live A c Hch (old b) ratio p (cur b) Hs Hr Hbo Hbc) as (s & -> & _ & Hps).
        intros [= <-]. cbn. rewrite Hps, (from_ratio_eq _ _ Hs Hr). reflexivity.
    - destruct (state_for_ratio_live A c Hch (cur b) ratio p (old b) Hs Hr Hbc Hbo) as (s & -> & _ & Hps).
      intros [= <-]. cbn. rewrite Hps, (from_ratio_eq _ _ Hs Hr). reflexivity. }
  destruct (main_loop _ _ _ _ _ _) as [[[outs s1] rest]|] eqn:Em; [|done]. cbn [mbind option_bind].
  destruct (fade_loop _ _ _ _ _ _ _) as [[[ys' f] k]|] eqn:Ef; [|done]. cbn [mbind option_bind].
  intros [= <- <-]. split; [done|]. cbn.
  destruct Hb1 as (_ & _ & Hl1 & Hf1 & Hfo & _). specialize (Hl1 Hi1).
  destruct (live_stands _ Hl1) as (w & xs & t & Hst & _).
  assert (Hold : exists w' xs' t', 0 < fade_count b1 -> live (old b1) /\ stands (old b1) w' xs' t').
  { destruct (decide (0 < fade_count b1)) as [Hpos|Hz].
    - specialize (Hfo Hpos). destruct (live_stands _ Hfo) as (w' & xs' & t' & H' & _). eauto 10.
    - exists 0, [], 0. lia. }
  destruct Hold as (w' & xs' & t' & Hold).
  destruct (call_shape _ w xs t (old b1) w' xs' t' _ _ _ _ _ _ _ _ _ _ _ Hl1 Hst Hold Hf1 Hd Em Ef) as [-> _].
  done.
Qed.

(** From any state reached, the next call continues the old signal or, with a
    new ratio, starts the new one close to where the old one stood. *)
Definition continues (b : bq A) (p1 : params) (w1 : Z) (xs1 : list T) (t1 : Z) : Prop :=
  exists p0 w0 xs0 t0,
  forall ins n ratio final ys b', (ratio == p_ratio p1)%Q -> valid (Resample ins n ratio final) ->
    resampleInterleaved A c b n ins ratio final = Some (ys, b') ->
    let fl := fade_length c (zlen ins / ch) n ratio in
    exists m, 0 <= m <= zlen ys /\ (fade_count b = 0 -> m = 0) /\
      (forall i, 0 <= i < m -> 1 <= fade_count b - i / ch) /\
      ys = (fun i => let y := nth_sample p1 w1 (xs1 ++ ins) t1 i in
              if i <? m then mixed A fl (fade_count b - i / ch) (nth_sample p0 w0 (xs0 ++ ins) t0 i) y else y)
           <$> seqZ 0 (zlen ys).
Definition changes (b : bq A) (p1 : params) (w1 : Z) (xs1 : list T) (t1 : Z) : Prop :=
  forall ratio p2, supported c ratio p2 -> (0 < ratio)%Q -> ~ (ratio == p_ratio p1)%Q ->
  exists w2 xs2 t2, line_frames (cvp c p2) <= w2 /\
    Z.abs (t2 * numerator p1 - t1 * numerator p2) < (numerator p2 + 1) * numerator p1 /\
    zlen xs2 = zlen xs1 /\
    (forall i, first_input (cvp c p1) t1 * ch <= i ->
       stream_at (zero A) xs2 i = stream_at (zero A) xs1 i) /\
    forall ins n final ys b', valid (Resample ins n ratio final) ->
      resampleInterleaved A c b n ins ratio final = Some (ys, b') ->
      let fl := fade_length c (zlen ins / ch) n ratio in
      exists m, 0 <= m <= zlen ys /\ (smooth c = false -> m = 0) /\
        (forall i, 0 <= i < m -> 1 <= fl - i / ch <= fl) /\
        ys = (fun i => let y := nth_sample p2 w2 (xs2 ++ ins) t2 i in
                if i <? m then mixed A fl (fl - i / ch) (nth_sample p1 w1 (xs1 ++ ins) t1 i) y else y)
             <$> seqZ 0 (zlen ys).

Lemma position b : bq_ok b -> initialised b = true ->
  let p1 := parameters (cur b) in
  exists w1 xs1 t1, line_frames (cvp c p1) <= w1 /\ continues b p1 w1 xs1 t1 /\ changes b p1 w1 xs1 t1.
Proof.
  intros (Hc & Ho & Hi & Hf & Hfo & Hsm) Hini p1. specialize (Hi Hini).
  destruct (live_stands _ Hi) as (w1 & xs1 & t1 & Hst & Hw). exists w1, xs1, t1. split; [done|].
  assert (Hquot : forall ins : list T, zlen ins `quot` ch = zlen ins / ch).
  { intros ins. apply Z.quot_div_nonneg; [apply zlen_nonneg|lia]. }
  split.
  - assert (Hold : exists w0 xs0 t0, 0 < fade_count b -> live (old b) /\ stands (old b) w0 xs0 t0).
    { destruct (decide (0 < fade_count b)) as [Hpos|Hz].
      - specialize (Hfo Hpos). destruct (live_stands _ Hfo) as (w' & xs' & t' & H' & _). eauto 10.
      - exists 0, [], 0. lia. }
    destruct Hold as (w0 & xs0 & t0 & Hold). exists (parameters (old b)), w0, xs0, t0.
    intros ins n ratio final ys b' Hq (Hd & Hn0 & Hr & p & Hs). unfold resampleInterleaved.
    destruct (Z.eqb_spec ch 0); [lia|]. cbv zeta. unfold prepare. rewrite Hini. cbn [negb]. rewrite Hquot.
    fold p1. destruct (Qeq_bool ratio (p_ratio p1)) eqn:E; [|apply Qeq_bool_neq in E; done].
    cbn [mbind option_bind].
    destruct (main_loop _ _ _ _ _ _) as [[[outs s1] rest]|] eqn:Em; [|done]. cbn [mbind option_bind].
    destruct (fade_loop _ _ _ _ _ _ _) as [[[ys' f] k]|] eqn:Ef; [|done]. cbn [mbind option_bind].
    intros [= <- <-].
    destruct (call_shape _ w1 xs1 t1 (old b) w0 xs0 t0 _ _ _ _ _ _ _ _ _ _ _ Hi Hst Hold Hf Hd Em Ef)
      as (_ & m & Hm & Hm0 & Hmi & Hys).
    exists m. split_and!; try done; try lia. intros j Hj. by apply Hmi.
  - intros ratio p2 Hs Hr Hne.
    destruct (state_for_ratio_ok A c Hch (old b) ratio p2 (cur b) Hs Hr) as (s & blen & H1 & H2 & H3 & H4 & _ & H6 & H7).
    + rewrite (live_channel A c Hch _ Ho). lia.
    + by apply (live_sorted A c Hch).
    + right. destruct Hi as (_ & _ & ? & ? & ? & G & _). eauto.
    + destruct (state_for_ratio_live A c Hch (old b) ratio p2 (cur b) Hs Hr Ho Hc) as (s' & H1' & Hls & _).
      rewrite H1 in H1'. injection H1' as <-.
      pose proof Hst as (blen1 & u & G & Hh & Hwq & Ht). fold p1 in G, Hh, Hwq, Ht.
      assert (Hb : buffer (cur b) <> []) by by apply (live_buffer A c Hch).
      specialize (H6 u xs1 Hb Hh). specialize (H7 _ _ _ _ G).
      pose proof (g_num _ _ _ _ _ _ _ G) as Hn1. pose proof (g_num _ _ _ _ _ _ _ H2) as Hn2.
      pose proof (g_phase _ _ _ _ _ _ _ G) as Hp1. pose proof (g_phase _ _ _ _ _ _ _ H2) as Hp2.
      pose proof (g_fill _ _ _ _ _ _ _ G) as Hfi.
      assert (Hst2 : stands s (blen - blen / 2 + q0 (numerator p2) (filter_length_for c p2 / 2))
        (recent A (fill (cur b)) xs1) (u * numerator p2 - current_phase s + r0 (numerator p2) (filter_length_for c p2 / 2))).
      { exists blen, u. rewrite H3. done. }
      eexists _, _, _. split; [|split; [|split; [|split]]].
      5: { intros ins n final ys b' (Hd & Hn0 & _). unfold resampleInterleaved.
        destruct (Z.eqb_spec ch 0); [lia|]. cbv zeta. unfold prepare. rewrite Hini. cbn [negb]. fold p1.
        destruct (Qeq_bool ratio (p_ratio p1)) eqn:E; [apply Qeq_bool_iff in E; done|].
        rewrite H1. cbn [mbind option_bind cur old fade_count]. rewrite Hquot.
        assert (Hfl : 0 <= fade_length c (zlen ins / ch) n ratio).
        { apply (fade_length_nonneg c Hch); try done. apply Z.div_pos; [apply zlen_nonneg|lia]. }
        set (fl := fade_length _ _ _ _) in *.
        set (fc := if smooth c then fl else fade_count b).
        assert (Hfc : 0 <= fc) by (unfold fc; destruct (smooth c); lia).
        destruct (main_loop _ _ _ _ _ _) as [[[outs s1] rest]|] eqn:Em; [|done]. cbn [mbind option_bind].
        destruct (fade_loop _ _ _ _ _ _ _) as [[[ys' f] k]|] eqn:Ef; [|done]. cbn [mbind option_bind].
        intros [= <- <-].
        destruct (call_shape s _ _ _ (cur b) w1 xs1 t1 _ _ _ _ _ _ _ _ _ _ _ Hls Hst2
          (fun _ => conj Hi Hst) Hfc Hd Em Ef)
          as (_ & m & Hm & Hm0 & Hmi & Hys).
        exists m. unfold fc in *. destruct (smooth c) eqn:Esm.
        - split_and!; try done; try lia. rewrite H3 in Hys. done.
        - assert (m = 0) as -> by (apply Hm0; auto). split_and!; try done; try lia.
          rewrite Hys at 1. apply list_fmap_ext. intros i z Hz. apply lookup_seqZ in Hz as [-> Hz]. cbv zeta.
          destruct (Z.ltb_spec (0 + Z.of_nat i) 0); [lia|]. by rewrite H3. }
      * pose proof (g_blen _ _ _ _ _ _ _ H2). unfold line_frames, chalf, cvp, q0 in *. cbn.
        pose proof (Z.div_mod blen 2 ltac:(lia)). pose proof (Z.mod_pos_bound blen 2 ltac:(lia)). lia.
      * rewrite Ht.
        pose proof (r0_range (numerator p1) (filter_length_for c p1 / 2) ltac:(lia) ltac:(pose proof (g_half _ _ _ _ _ _ _ G); lia)) as Hr1.
        pose proof (r0_range (numerator p2) (filter_length_for c p2 / 2) ltac:(lia) ltac:(pose proof (g_half _ _ _ _ _ _ _ H2); lia)) as Hr2.
        set (a := r0 (numerator p1) _) in *. set (d := r0 (numerator p2) _) in *.
        fold p1 in H7. set (N1 := numerator p1) in *. set (N2 := numerator p2) in *.
        set (x := current_phase s) in *. set (y := current_phase (cur b)) in *.
        replace ((u * N2 - x + d) * N1 - (u * N1 - y + a) * N2) with ((y * N2 - x * N1) + (d * N1 - a * N2)) by lia.
        assert (d * N1 <= (N2 - 1) * N1) by nia. assert (a * N2 <= (N1 - 1) * N2) by nia.
        assert (0 <= d * N1) by nia. assert (0 <= a * N2) by nia. lia.
      * apply recent_length; lia.
      * intros i Hi1. rewrite recent_at by lia. case_decide as Hd; [|done]. exfalso.
        revert Hi1. unfold first_input. rewrite Ht. unfold chalf, cvp. cbn [cnum cflen].
        pose proof (half_eq (numerator p1) (filter_length_for c p1 / 2) ltac:(lia) ltac:(pose proof (g_half _ _ _ _ _ _ _ G); lia)) as He.
        set (h := filter_length_for c p1 / 2) in *.
        replace (u * numerator p1 - current_phase (cur b) + r0 (numerator p1) h - h) with
          (- current_phase (cur b) + (u - q0 (numerator p1) h) * numerator p1) by lia.
        rewrite ceil_div_add by lia.
        assert (ceil_div (- current_phase (cur b)) (numerator p1) = 0) as ->.
        { unfold ceil_div. rewrite Z.opp_involutive, Z.div_small by lia. done. }
        destruct Hh as [Hh _]. pose proof (g_centre _ _ _ _ _ _ _ G). pose proof (g_blen _ _ _ _ _ _ _ G).
        pose proof (Z.div_mod blen1 2 ltac:(lia)). pose proof (Z.mod_pos_bound blen1 2 ltac:(lia)).
        assert (q0 (numerator p1) h <= blen1 / 2) by lia. intros Hi1.
        assert (zlen xs1 - fill (cur b) = (u - blen1 / 2) * ch) by lia. nia.
Qed.
End Changes.
