(** Properties C21-C27, C51, C56-C58. *)
From stdpp Require Import prelude.
From Coq Require Import ZArith QArith Qround Qabs Lia Reals.
From Verif.Resampler Require Import Model Spec Phases Core Loops Proofs Changes Limits Fades Channels Examples.
Local Open Scope Z_scope.

(** C21, C22.  At a constant ratio, with output space to spare in every call,
    any division of the input into blocks gives the output of textbook rational
    resampling of the whole stream: frame [k] lies at exactly [k*den/num] input
    frames, for the reduced fraction [num/den] the ratio stands for. *)
Theorem C21_exact_time_base : forall (A : arith) (c : config) (ratio : Q) (p : params),
  1 <= channels c -> supported c ratio p -> (0 < ratio)%Q ->
  Z.gcd (numerator p) (denominator p) = 1 /\
  (exists q, getEffectiveRatio A c construct ratio = Some q /\ q * inject_Z (denominator p) == inject_Z (numerator p))%Q /\
  forall bs x n final, blocks_ok A c (bs ++ [(x, n)]) ->
  exists yss b', run A c construct (calls A ratio bs ++ [Resample x n ratio final]) = Some (yss, b') /\
    (Forall2 (room A c) (bs ++ [(x, n)]) yss ->
     forall k j, 0 <= k -> 0 <= j < channels c -> k * channels c + j < zlen (mjoin yss) ->
     getZ (mjoin yss) (k * channels c + j) =
       Some (sample A (filter_tap A c p (filter_length_for c p)) (fixed c && (channels c =? 1)) (p_scale p)
               (cv c p) (line_frames (cv c p)) (channels c) (mjoin (fst <$> bs) ++ x)
               (k * denominator p) j)).
Proof.
  intros A c ratio p Hch Hs Hr. destruct (facts c Hch ratio p Hs Hr) as (_ & _ & _ & _ & Hg & _).
  split; [done|]. split.
  { exists (effective_of p). split; [unfold getEffectiveRatio; cbn [construct initialised andb]; destruct Hs as [-> _]; done|].
    destruct (facts c Hch ratio p Hs Hr) as (Hn & Hd & _). unfold effective_of, MathMisc.Model.frac, Qeq, Qmult, inject_Z. cbn [Qnum Qden]. rewrite ?Pos.mul_1_r, ?Z.mul_1_r, Z2Pos.id by lia. lia. }
  intros bs x n final Hok. destruct (whole_stream A c Hch ratio p Hs Hr bs x n final Hok) as (yss & b' & H1 & H2).
  exists yss, b'. split; [done|]. intros Hroom k j Hk Hj Hlt. rewrite (H2 Hroom) in *.
  unfold converted in *. rewrite zlen_fmap in Hlt.
  assert (Hz : forall a m, zlen (seqZ a m) = Z.max 0 m) by (intros; unfold zlen; rewrite seqZ_length; lia).
  rewrite Hz in Hlt. rewrite getZ_seqZ by nia.
  rewrite Z.div_add_l, (Z.div_small j), Z.add_0_r by lia.
  rewrite Z.add_comm, Z.mod_add, Z.mod_small by lia. done.
Qed.
Print Assumptions C21_exact_time_base.

Theorem C22_block_size_independence : forall (A : arith) (c : config) (ratio : Q) (p : params) bs x n final,
  1 <= channels c -> supported c ratio p -> (0 < ratio)%Q -> blocks_ok A c (bs ++ [(x, n)]) ->
  exists yss b', run A c construct (calls A ratio bs ++ [Resample x n ratio final]) = Some (yss, b') /\
    (Forall2 (room A c) (bs ++ [(x, n)]) yss ->
     mjoin yss = converted A (filter_tap A c p (filter_length_for c p)) (fixed c && (channels c =? 1))
                   (p_scale p) (cv c p) (channels c) final (mjoin (fst <$> bs) ++ x)).
Proof. exact (fun A c ratio p bs x n final Hch Hs Hr => whole_stream A c Hch ratio p Hs Hr bs x n final). Qed.
Print Assumptions C22_block_size_independence.

(** 41 samples in blocks of 3, 0, 18 and 20, two channels' worth of rates. *)
Example C22_example : exists yss b',
  run D (cfg false 1) construct
    (calls D (3 # 2) [(ramp 1 3, 100); ([], 100); (ramp 4 18, 100)] ++ [Resample (ramp 22 20) 100 (3 # 2) true])
    = Some (yss, b') /\
  Forall2 (room D (cfg false 1)) [(ramp 1 3, 100); ([], 100); (ramp 4 18, 100); (ramp 22 20, 100)] yss /\
  zlen (mjoin yss) = 63 /\ take 7 (mjoin yss) = [Some 1; Some 0; Some 0; Some 3; Some 0; Some 0; Some 5].
Proof.
  edestruct (outputs (run D (cfg false 1) construct
    (calls D (3 # 2) [(ramp 1 3, 100); ([], 100); (ramp 4 18, 100)] ++ [Resample (ramp 22 20) 100 (3 # 2) true])))
    as [b' Hb]; [vm_compute; reflexivity|].
  eexists _, b'. split; [exact Hb|].
  split; [repeat constructor; unfold room; vm_compute; reflexivity|]. split; reflexivity.
Qed.

(** C23.  The length is a function of the input length alone; with a final block
    it is at least [N*num/den] and less than that plus [1 + num/den], exact when
    [N*num/den] is whole; before the end it is behind by no more than the delay
    line; no call writes more than its output space. *)
Theorem C23_output_length_partial : forall (A : arith) (c : config) (ratio : Q) (p : params) bs x n final,
  1 <= channels c -> supported c ratio p -> (0 < ratio)%Q -> blocks_ok A c (bs ++ [(x, n)]) ->
  let num := numerator p in let den := denominator p in
  let N := zlen (mjoin (fst <$> bs) ++ x) / channels c in
  exists yss b', run A c construct (calls A ratio bs ++ [Resample x n ratio final]) = Some (yss, b') /\
    Forall2 (fun b ys => zlen ys <= snd b * channels c) (bs ++ [(x, n)]) yss /\
    (Forall2 (room A c) (bs ++ [(x, n)]) yss ->
     exists F, zlen (mjoin yss) = F * channels c /\ F = frames (cv c p) final N /\
       if final : bool
       then N * num <= F * den < N * num + num + den /\ ((den | N * num) -> F * den = N * num)
       else F * den < N * num + den /\ (N - (filter_length_for c p / 2) / num - 1) * num < F * den).
Proof.
  intros A c ratio p bs x n final Hch Hs Hr Hok num den N.
  destruct (whole_stream A c Hch ratio p Hs Hr bs x n final Hok) as (yss & b' & H1 & H2).
  exists yss, b'. split; [done|].
  assert (Hv : Forall (valid A c) (calls A ratio bs ++ [Resample x n ratio final])).
  { apply Forall_app in Hok as [Hok Hx]. apply Forall_cons_1 in Hx as [[Hx1 Hx2] _]. apply Forall_app. split.
    - unfold calls. apply Forall_fmap. eapply Forall_impl; [exact Hok|]. intros [y k] [Hy1 Hy2]. cbn in *.
      split_and!; try done. by exists p.
    - constructor; [|done]. split_and!; try done. by exists p. }
  destruct (run_ok A c Hch _ construct (construct_ok A c Hch) Hv) as (yss2 & b2 & Hr2 & _ & Hw).
  rewrite H1 in Hr2. injection Hr2 as <- <-. split.
  { unfold calls in Hw.
    apply Forall2_app_inv_l in Hw as (l1 & l2 & Hw1 & Hw2 & ->).
    apply Forall2_app.
    - rewrite Forall2_fmap_l in Hw1. eapply Forall2_impl; [exact Hw1|]. by intros [y k] ys [_ H].
    - apply Forall2_cons_inv_l in Hw2 as (ys & l3 & [_ Hy] & Hnil & ->). apply Forall2_nil_inv_l in Hnil as ->.
      constructor; [done|constructor]. }
  intros Hroom. rewrite (H2 Hroom). exists (frames (cv c p) final N).
  destruct (facts c Hch ratio p Hs Hr) as (Hn & Hd & Hf & Hh & _).
  assert (HN : 0 <= N) by (apply Z.div_pos; [apply zlen_nonneg|lia]).
  assert (Hch0 : 0 <= chalf (cv c p)) by (unfold chalf, cv; cbn; lia).
  destruct (frames_can c Hch ratio p Hs Hr final N HN) as (HF & _).
  split_and!; [|done|].
  - unfold converted. rewrite zlen_fmap, zlen_seqZ; [done|].
    change (0 <= frames (cv c p) final N * channels c). nia.
  - destruct final.
    + exact (frames_at_end_bounds (cv c p) Hn Hd Hch0 N HN).
    + destruct (frames_so_far_bounds (cv c p) Hn Hd Hch0 N HN) as (Ha & Hb & _). split; [exact Ha|exact Hb].
Qed.
Print Assumptions C23_output_length_partial.

(** "Within one frame of N*ratio" is false: one frame in, at 3/2, gives three. *)
Theorem C23_output_length_refuted : exists (c : config) (p : params) ys b',
  supported c (3 # 2) p /\ numerator p = 3 /\ denominator p = 2 /\
  run D c construct [Resample (ramp 1 1) 100 (3 # 2) true] = Some ([ys], b') /\
  ~ (Qabs (inject_Z (zlen ys) - 1 * (3 # 2)) <= 1)%Q.
Proof.
  edestruct (outputs (run D (cfg false 1) construct [Resample (ramp 1 1) 100 (3 # 2) true])) as [b' Hb];
    [vm_compute; reflexivity|].
  exists (cfg false 1), p_3_2. eexists _, b'. split; [apply sup_3_2|]. split; [reflexivity|]. split; [reflexivity|].
  split; [exact Hb|]. intros H. vm_compute in H. apply H. reflexivity.
Qed.
Print Assumptions C23_output_length_refuted.

(** C24.  Every history of calls succeeds: no index out of bounds, no division by
    zero, no endless loop; whole frames, never more than the output space. *)
Theorem C24_memory_safety : forall (A : arith) (c : config) (ops : list (op A)),
  1 <= channels c -> Forall (valid A c) ops ->
  exists yss b', run A c construct ops = Some (yss, b') /\ Forall2 (within A c) ops yss.
Proof.
  intros A c ops Hch Hv. destruct (run_ok A c Hch ops construct (construct_ok A c Hch) Hv) as (yss & b' & H1 & _ & H2).
  eauto.
Qed.
Print Assumptions C24_memory_safety.
(** Ratios from 1/10000 to 64 are valid, at every quality. *)
Theorem C24_supported_ratios : forall (q : quality) (fx : bool) (ratio : Q),
  ((1 # 10000) <= ratio)%Q -> (ratio <= 64)%Q ->
  exists fuel0, forall c, qual c = q -> fixed c = fx -> (fuel0 <= fuel c)%nat -> 1 <= channels c ->
  exists p, supported c ratio p /\ Z.gcd (numerator p) (denominator p) = 1 /\
    (Qabs (ratio - effective_of p) < 1 # 700)%Q.
Proof. exact supported_range. Qed.
Print Assumptions C24_supported_ratios.
Example C24_example : exists yss b',
  run D (cfg true 2) construct
    [Resample (ramp 1 20) 3 (3 # 2) false; Resample (ramp 1 30) 50 (1 # 2) false; Reset;
     Resample [] 0 2 true; Resample (ramp 5 4) 9 1 true] = Some (yss, b') /\
  (zlen <$> yss) = [6; 8; 0; 0; 16].
Proof.
  edestruct (outputs (run D (cfg true 2) construct
    [Resample (ramp 1 20) 3 (3 # 2) false; Resample (ramp 1 30) 50 (1 # 2) false; Reset;
     Resample [] 0 2 true; Resample (ramp 5 4) 9 1 true])) as [b' Hb]; [vm_compute; reflexivity|].
  eexists _, b'. split; [exact Hb|reflexivity].
Qed.

(** C25 is false: with output space for exactly the frames that can be made, the
    input that follows is dropped.  Two streams that differ in sample 41, and
    whose conversions differ, give the same output. *)
Theorem C25_no_input_lost_refuted : exists (c : config) (p : params) (xs xs' zs : list (T D)) yss,
  supported c (1 # 2) p /\ zlen xs = 41 /\ zlen xs' = 41 /\ frames (cv c p) false 41 = 14 /\
  converted D (filter_tap D c p (filter_length_for c p)) true (p_scale p) (cv c p) 1 true (xs ++ zs) <>
  converted D (filter_tap D c p (filter_length_for c p)) true (p_scale p) (cv c p) 1 true (xs' ++ zs) /\
  fst <$> run D c construct [Resample xs 14 (1 # 2) false; Resample zs 100 (1 # 2) true] = Some yss /\
  fst <$> run D c construct [Resample xs' 14 (1 # 2) false; Resample zs 100 (1 # 2) true] = Some yss.
Proof.
  exists (cfg false 1), p_1_2, (ramp 1 41), (ramp 1 40 ++ [Some 99]), (ramp 42 4). eexists.
  split; [apply sup_1_2|]. do 2 (split; [reflexivity|]). split; [vm_compute; reflexivity|].
  split; [vm_compute; discriminate|]. split; vm_compute; reflexivity.
Qed.
Print Assumptions C25_no_input_lost_refuted.
(** Calls that return fewer frames than their space lose nothing. *)
Theorem C25_no_input_lost_partial : forall (A : arith) (c : config) (ratio : Q) (p : params) bs x n final,
  1 <= channels c -> supported c ratio p -> (0 < ratio)%Q -> blocks_ok A c (bs ++ [(x, n)]) ->
  exists yss b', run A c construct (calls A ratio bs ++ [Resample x n ratio final]) = Some (yss, b') /\
    (Forall2 (fun b ys => zlen ys < snd b * channels c) (bs ++ [(x, n)]) yss ->
     mjoin yss = converted A (filter_tap A c p (filter_length_for c p)) (fixed c && (channels c =? 1))
                   (p_scale p) (cv c p) (channels c) final (mjoin (fst <$> bs) ++ x)).
Proof. exact (fun A c ratio p bs x n final Hch Hs Hr => whole_stream A c Hch ratio p Hs Hr bs x n final). Qed.
Print Assumptions C25_no_input_lost_partial.

(** C26 is false: after a ratio change and reset(), silence in gives old audio
    out. *)
Theorem C26_reset_forgets_refuted : exists (c : config) (ops ops' : list (op D)) ys,
  Forall (valid D c) ops /\ Forall (valid D c) ops' /\
  fst <$> run D c construct ops' = Some [replicate 5 (Some 0)] /\
  last ∘ fst <$> run D c construct (ops ++ [Reset] ++ ops') = Some (Some ys) /\ In (Some 14) ys.
Proof.
  exists (cfg false 1), [Resample (ramp 1 20) 100 1 false; Resample (ramp 21 20) 100 2 false],
    [Resample (ramp 0 1 ++ ramp 0 1 ++ ramp 0 1 ++ ramp 0 1 ++ ramp 0 1) 100 1 true].
  eexists. split.
  { repeat constructor; try done; try lia; try (by apply Z.divide_1_l);
      try (eexists; apply sup_1); try (eexists; apply sup_2). }
  split.
  { repeat constructor; try done; try lia; try (by apply Z.divide_1_l); eexists; apply sup_1. }
  split; [vm_compute; reflexivity|]. split; [vm_compute; reflexivity|]. left. reflexivity.
Qed.
Print Assumptions C26_reset_forgets_refuted.
(** After a history at one ratio, reset() gives a new object. *)
Theorem C26_reset_forgets_partial : forall (A : arith) (c : config) (ratio : Q) (ops : list (op A)) yss b,
  1 <= channels c -> Forall (valid A c) ops ->
  Forall (fun o => match o with Resample _ _ r _ => (r == ratio)%Q | Reset => True end) ops ->
  run A c construct ops = Some (yss, b) ->
  forall ops', fst <$> run A c (reset b) ops' = fst <$> run A c construct ops'.
Proof. exact (fun A c ratio ops yss b Hch Hv Hs Hr => reset_fresh A c Hch ratio ops yss b Hv Hs Hr). Qed.
Print Assumptions C26_reset_forgets_partial.
Example C26_example : exists yss,
  option_map (fun r => map zlen (fst r)) (run D (cfg true 1) construct
    [Resample (ramp 1 20) 100 1 false; Resample (ramp 3 30) 100 (2 # 2) false; Reset; Resample (ramp 7 9) 10 2 true])
  = Some (yss ++ [10]) /\ yss = [13; 30; 0].
Proof. exists [13; 30; 0]. split; [vm_compute; reflexivity|]. reflexivity. Qed.

(** C27 is false: an unfinished fade followed by a call with one frame of output
    space divides zero by zero. *)
Theorem C27_fade_finite_refuted : exists (c : config) (ops : list (op D)) yss b,
  Forall (valid D c) ops /\ Forall (fun o : op D => match o with Resample ins _ _ _ => ~ In (None : T D) ins | Reset => True end) ops /\
  run D c construct ops = Some (yss, b) /\ In [None] yss.
Proof.
  exists (cfg true 1), [Resample (ramp 1 20) 100 1 false; Resample (ramp 21 12) 100 (1 # 4) false;
    Resample (ramp 33 12) 1 (1 # 4) false].
  edestruct (outputs (run D (cfg true 1) construct [Resample (ramp 1 20) 100 1 false;
    Resample (ramp 21 12) 100 (1 # 4) false; Resample (ramp 33 12) 1 (1 # 4) false])) as [b Hb];
    [vm_compute; reflexivity|].
  eexists _, b. split.
  { clear Hb. repeat constructor; try done; try lia; try (by apply Z.divide_1_l);
      try (eexists; apply sup_1); try (eexists; apply sup_1_4). }
  split.
  { clear Hb. repeat constructor; unfold ramp; rewrite <- elem_of_list_In; intros H; apply elem_of_list_fmap in H as (? & ? & _); done. }
  split; [exact Hb|]. right. right. left. reflexivity.
Qed.
Print Assumptions C27_fade_finite_refuted.
(** When every call has input and space for two frames, any set of values closed
    under the arithmetic (finite ones, say) that contains the input contains the
    output. *)
Theorem C27_fade_finite_partial : forall (A : arith) (c : config) (P : T A -> Prop) (ops : list (op A)) yss b,
  1 <= channels c -> closed A P ->
  Forall (fun o => match o with Resample ins n ratio _ => Forall P ins /\ 2 <= n /\
                     (2 <= inject_Z (zlen ins / channels c) * ratio)%Q | Reset => True end) ops ->
  run A c construct ops = Some (yss, b) -> Forall (Forall P) yss.
Proof.
  intros A c P ops yss b Hch Hcl Ho Hr.
  eapply (clean_run A c P Hcl Hch); [apply (clean_construct A P Hcl)| |apply (large_room A c P Hcl)|exact Hr];
    (eapply Forall_impl; [exact Ho|]); by intros [] H; [destruct H|].
Qed.
Print Assumptions C27_fade_finite_partial.
(** With sudden changes there is no fade and no condition on sizes. *)
Theorem C27_sudden_finite : forall (A : arith) (c : config) (P : T A -> Prop) (ops : list (op A)) yss b,
  1 <= channels c -> closed A P -> smooth c = false -> Forall (valid A c) ops ->
  Forall (fun o => match o with Resample ins _ _ _ => Forall P ins | Reset => True end) ops ->
  run A c construct ops = Some (yss, b) -> Forall (Forall P) yss.
Proof.
  intros A c P ops yss b Hch Hcl Hsm Hv Ho Hr.
  exact (clean_run A c P Hcl Hch ops construct yss b (clean_construct A P Hcl) Ho
    (sudden_room A c P Hcl Hch Hsm ops construct (construct_ok A c Hch) Hv) Hr).
Qed.
Print Assumptions C27_sudden_finite.
(** Real numbers other than NaN are such a set. *)
Theorem C27_reals_closed : forall win, closed (real_arith win) (fun x => x <> None).
Proof. exact real_closed. Qed.
Print Assumptions C27_reals_closed.
(** In real arithmetic, a mixed sample lies between the old signal and the new. *)
Theorem C27_convex : forall win (fl k : Z) (r y : option R), fl <> 0 ->
  convex (mixed (real_arith win) fl k r y) r y.
Proof. exact mixed_convex. Qed.
Print Assumptions C27_convex.
Example C27_example : option_map (fun r => map (take 5) (fst r))
  (run D (cfg true 1) construct [Resample (ramp 1 20) 100 1 false; Resample (ramp 21 8) 100 2 false;
    Resample (ramp 29 8) 100 2 false]) = Some
    [[Some 1; Some 2; Some 3; Some 4; Some 5]; [Some 112; Some 120; Some 96; Some 133; Some 72]; [Some 22; Some 0; Some 23; Some 0; Some 24]].
Proof. vm_compute. reflexivity. Qed.

(** C51.  Interleaving and de-interleaving. *)
Theorem C51_interleave_round_trip : forall (X : Type) (src : list (list X)) count,
  1 <= zlen src -> 0 <= count -> Forall (fun ch => zlen ch = count) src ->
  exists xs, v_interleave src count = Some xs /\ zlen xs = count * zlen src /\
    v_deinterleave xs (zlen src) count = Some src.
Proof. exact @interleave_round_trip. Qed.
Print Assumptions C51_interleave_round_trip.
Theorem C51_interleave_order : forall (X : Type) (z : X) (src : list (list X)) count,
  1 <= zlen src -> 0 <= count -> Forall (fun ch => count <= zlen ch) src ->
  exists xs, v_interleave src count = Some xs /\ zlen xs = count * zlen src /\
    forall i j ch, getZ src j = Some ch -> 0 <= i < count -> getZ xs (i * zlen src + j) = getZ ch i.
Proof. exact @interleave_ok. Qed.
Print Assumptions C51_interleave_order.
Example C51_example : v_interleave [[1; 2; 3]; [4; 5; 6]; [7; 8; 9]] 3 = Some [1; 4; 7; 2; 5; 8; 3; 6; 9] /\
  v_deinterleave [1; 4; 7; 2; 5; 8; 3; 6; 9] 3 3 = Some [[1; 2; 3]; [4; 5; 6]; [7; 8; 9]].
Proof. split; reflexivity. Qed.

(** C56 is false: at 3/2 the last tap of the filter is lost, because the delay
    line is one frame too short for two phases out of three. *)
Theorem C56_whole_filter_refuted : exists (c : config) (p : params) (xs : list (T ones)) ys b,
  supported c (3 # 2) p /\
  run ones c construct [Resample xs 100 (3 # 2) false] = Some ([ys], b) /\ zlen ys = 32 /\
  ys <> converted_full ones (filter_tap ones c p (filter_length_for c p)) true (p_scale p) (cv c p) 1 false xs.
Proof.
  edestruct (outputs (run ones (cfg false 1) construct [Resample (Some <$> seqZ 1 27 : list (T ones)) 100 (3 # 2) false]))
    as [b Hb]; [vm_compute; reflexivity|].
  exists (cfg false 1), p_3_2, (Some <$> seqZ 1 27). eexists _, b. split; [apply sup_3_2|].
  split; [exact Hb|]. split; [reflexivity|]. vm_compute. discriminate.
Qed.
Print Assumptions C56_whole_filter_refuted.
(** No more than one tap is ever lost, and none when half the filter length,
    divided by the numerator, leaves a remainder below half of it. *)
Theorem C56_whole_filter_partial : forall (A : arith) (c : config) (ratio : Q) (p : params),
  1 <= channels c -> supported c ratio p -> (0 < ratio)%Q ->
  (forall t, taps_under (cv c p) t <= line_frames (cv c p) + 1) /\
  (2 * ((filter_length_for c p / 2) mod numerator p) < numerator p ->
   forall tap mono scale ch final xs,
   converted A tap mono scale (cv c p) ch final xs = converted_full A tap mono scale (cv c p) ch final xs).
Proof.
  intros A c ratio p Hch Hs Hr. destruct (facts c Hch ratio p Hs Hr) as (Hn & Hd & Hf & Hh & _).
  assert (Hh0 : 0 <= chalf (cv c p)) by (unfold chalf, cv; cbn; lia). split.
  - intros t. exact (proj1 (taps_bound (cv c p) Hn Hf Hh0 t)).
  - intros Hx tap mono scale ch final xs. exact (converted_all (cv c p) Hn Hf Hh0 A tap mono scale ch final xs Hx).
Qed.
Print Assumptions C56_whole_filter_partial.
(** 2/3 meets the condition. *)
Example C56_example : supported (cfg false 1) (2 # 3) p_2_3 /\ numerator p_2_3 = 2 /\
  2 * ((filter_length_for (cfg false 1) p_2_3 / 2) mod numerator p_2_3) < numerator p_2_3.
Proof. split; [apply sup_2_3|]. vm_compute. done. Qed.

(** C57 is false: changing from 1 to 3/2 moves the position by two thirds of an
    input frame, where one step of the new grid is one third. *)
Theorem C57_change_keeps_position_refuted : exists (c : config) (p : params) (xs ins : list (T D)) ys zs b,
  supported c 1 p_1 /\ supported c (3 # 2) p /\ numerator p = 3 /\
  run D c construct [Resample xs 100 1 false; Resample ins 100 (3 # 2) false] = Some ([ys; zs], b) /\
  zlen ys = 13 /\ zlen zs = 8 /\
  (forall t, Z.abs (t - 13 * 3) <= 1 -> zs <> nth_sample D c p 13 (xs ++ ins) t <$> seqZ 0 8) /\
  zs = nth_sample D c p 13 (xs ++ ins) (13 * 3 + 2) <$> seqZ 0 8.
Proof.
  edestruct (outputs (run D (cfg false 1) construct [Resample (ramp 1 20) 100 1 false; Resample (ramp 21 6) 100 (3 # 2) false]))
    as [b Hb]; [vm_compute; reflexivity|].
  exists (cfg false 1), p_3_2, (ramp 1 20), (ramp 21 6). eexists _, _, b.
  split; [apply sup_1|]. split; [apply sup_3_2|]. split; [reflexivity|].
  split; [exact Hb|]. split; [reflexivity|]. split; [reflexivity|]. split.
  - intros t Ht. assert (Hc : t = 38 \/ t = 39 \/ t = 40) by lia.
    destruct Hc as [-> | [-> | ->]]; vm_compute; discriminate.
  - vm_compute. reflexivity.
Qed.
Print Assumptions C57_change_keeps_position_refuted.
(** After any history, a call at the same ratio continues the signal from a time
    [t1], and a call at a new ratio starts from a time less than one input frame
    plus one grid step away, with all the input the old filter could still reach;
    if changes are smooth the first samples are mixed with the old signal. *)
Theorem C57_change_keeps_position_partial : forall (A : arith) (c : config) (ops : list (op A)) ins n ratio final yss b,
  1 <= channels c -> Forall (valid A c) (ops ++ [Resample ins n ratio final]) ->
  run A c construct (ops ++ [Resample ins n ratio final]) = Some (yss, b) ->
  exists p1 w1 xs1 t1, (p_ratio p1 == ratio)%Q /\ line_frames (cvp c p1) <= w1 /\
    continues A c b p1 w1 xs1 t1 /\ changes A c b p1 w1 xs1 t1.
Proof.
  intros A c ops ins n ratio final yss b Hch Hv Hr.
  assert (Happ : forall ops1 ops2 b, run A c b (ops1 ++ ops2) =
    ('(y1, b1) ← run A c b ops1; '(y2, b2) ← run A c b1 ops2; Some (y1 ++ y2, b2))).
  { clear. induction ops1 as [|o ops1 IH]; intros ops2 b; cbn [run app].
    - cbn. by destruct (run A c b ops2) as [[]|].
    - destruct (step A c b o) as [[ys b1]|]; [|done]. cbn [mbind option_bind]. rewrite IH.
      destruct (run A c b1 ops1) as [[y1 b2]|]; [|done]. cbn [mbind option_bind].
      destruct (run A c b2 ops2) as [[]|]; done. }
  apply Forall_app in Hv as [Hv1 Hv2]. apply Forall_cons_1 in Hv2 as [Hv2 _].
  destruct (run_ok A c Hch ops construct (construct_ok A c Hch) Hv1) as (y1 & b1 & Hr1 & Hb1 & _).
  rewrite Happ, Hr1 in Hr. cbn [mbind option_bind run step] in Hr.
  destruct (resample_ok A c Hch b1 ins n ratio final Hb1 Hv2) as (ys & b2 & Hr2 & Hb2 & _).
  rewrite Hr2 in Hr. cbn [mbind option_bind] in Hr. injection Hr as <- <-.
  destruct (call_ratio A c Hch b1 ins n ratio final ys b2 Hb1 Hv2 Hr2) as [Hi Hq].
  destruct (position A c Hch b2 Hb2 Hi) as (w1 & xs1 & t1 & H1 & H2 & H3). eauto 10.
Qed.
Print Assumptions C57_change_keeps_position_partial.

(** C58.  Through the planar interface every channel is converted on its own. *)
Theorem C58_channels_independent : forall (A : arith) (c : config) (ratio : Q) (p : params) bs final,
  1 <= channels c -> supported c ratio p -> (0 < ratio)%Q -> bs <> [] -> Forall (planar_ok A c) bs ->
  exists yss b', run_planar A c construct ratio final bs = Some (yss, b') /\
    (Forall2 (planar_room A) bs yss -> forall j, 0 <= j < channels c ->
     on_channel A j yss =
       converted A (filter_tap A c p (filter_length_for c p)) (fixed c && (channels c =? 1)) (p_scale p) (cv c p)
         1 final (on_channel A j (fst <$> (fst <$> bs)))).
Proof. exact (fun A c ratio p bs final Hch Hs Hr => planar_stream A c Hch ratio p bs final Hs Hr). Qed.
Print Assumptions C58_channels_independent.
Example C58_example : fst <$>
  run_planar D (cfg false 3) construct 1 true
    [([ramp 1 2; ramp 11 2; ramp 21 2], 2, 10); ([ramp 3 1; ramp 13 1; ramp 23 1], 1, 10)] =
    Some [[[]; []; []]; [ramp 1 3; ramp 11 3; ramp 21 3]].
Proof. vm_compute. reflexivity. Qed.
