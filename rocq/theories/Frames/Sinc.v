(** Property C82: the interpolating window fits the chunk. *)
From stdpp Require Import prelude.
From Coq Require Import ZArith QArith Lia.
From Verif Require Import Base.Arith Frames.SincModel.
From Verif Require Faster.Sizes.
From stdpp Require Import list.
Local Open Scope Z_scope.

Section Props.
Context {A : Type} (zero one : A) (s : Z -> Z -> A).
(** A sinc window of size [n] and scale [p] at the start of [l]: 1 in the middle, the same to
    both sides. *)
Definition sincWindow (n p : Z) (l : list A) : Prop :=
  forall j, 0 <= j < n -> l !! Z.to_nat j = Some (if j =? n / 2 then one else s (Z.abs (j - n / 2)) p).

Lemma setZ_is (l : list A) i x : 0 <= i < zlen l -> setZ l i x = Some (<[Z.to_nat i := x]> l).
Proof. intros H. unfold setZ. destruct (_ && _) eqn:E; [done|]. apply andb_false_iff in E as [E|E]; [apply Z.leb_gt in E|apply Z.ltb_ge in E]; lia. Qed.
Lemma zlen_insert (l : list A) i x : zlen (<[i := x]> l) = zlen l.
Proof. unfold zlen. by rewrite insert_length. Qed.
Lemma getZ_lookup (l : list A) i : 0 <= i < zlen l -> getZ l i = l !! Z.to_nat i.
Proof. intros H. unfold getZ. by rewrite (proj2 (Z.leb_le 0 i)) by lia. Qed.

Lemma halfLoop_spec half p k : forall (dst : list A) i, 0 <= half -> 0 <= i -> half + i + Z.of_nat k <= zlen dst ->
  exists d, halfLoop s dst half p i k = Some d /\ zlen d = zlen dst /\
    forall j, 0 <= j -> d !! Z.to_nat j = (if (half + i <=? j) && (j <? half + i + Z.of_nat k) then Some (s (j - half) p) else dst !! Z.to_nat j).
Proof.
  induction k as [|k IH]; intros dst i H1 H2 H3; cbn [halfLoop].
  - exists dst. split; [done|]. split; [done|]. intros j Hj. destruct (_ && _) eqn:E; [|done]. apply andb_true_iff in E as [E1%Z.leb_le E2%Z.ltb_lt]. lia.
  - rewrite setZ_is by lia. cbn [mbind option_bind]. destruct (IH (<[Z.to_nat (half + i) := s i p]> dst) (i + 1)) as (d & E & El & Ed); [done|lia|rewrite zlen_insert; lia|].
    exists d. split; [done|]. split; [by rewrite El, zlen_insert|]. intros j Hj. rewrite Ed by done. destruct (decide (j = half + i)) as [->|Hne].
    + rewrite (proj2 (Z.leb_gt (half + (i + 1)) (half + i))) by lia. cbn. rewrite list_lookup_insert by (unfold zlen in *; lia).
      rewrite Z.leb_refl, (proj2 (Z.ltb_lt _ _)) by lia. cbn. do 2 f_equal. lia.
    + rewrite list_lookup_insert_ne by lia. assert (Eb : (half + (i + 1) <=? j) && (j <? half + (i + 1) + Z.of_nat k) = (half + i <=? j) && (j <? half + i + Z.of_nat (S k))); [|by rewrite Eb].
      apply eq_true_iff_eq. rewrite !andb_true_iff, !Z.leb_le, !Z.ltb_lt. lia.
Qed.
Lemma mirror_spec half k : forall (dst : list A) i, half < i -> 2 * half - i - Z.of_nat k + 1 >= 0 -> i + Z.of_nat k <= zlen dst ->
  exists d, mirror dst (2 * half - i) i k = Some d /\ zlen d = zlen dst /\
    forall j, 0 <= j -> d !! Z.to_nat j = (if (2 * half - i - Z.of_nat k <? j) && (j <=? 2 * half - i) then dst !! Z.to_nat (2 * half - j) else dst !! Z.to_nat j).
Proof.
  induction k as [|k IH]; intros dst i H1 H2 H3; cbn [mirror].
  - exists dst. split; [done|]. split; [done|]. intros j Hj. destruct (_ && _) eqn:E; [|done]. apply andb_true_iff in E as [E1%Z.ltb_lt E2%Z.leb_le]. lia.
  - destruct (getZ_is dst i) as [x Hx]; [lia|]. rewrite Hx. cbn [mbind option_bind]. rewrite setZ_is by lia. cbn [mbind option_bind].
    replace (2 * half - i - 1) with (2 * half - (i + 1)) by lia. rewrite getZ_lookup in Hx by lia.
    destruct (IH (<[Z.to_nat (2 * half - i) := x]> dst) (i + 1)) as (d & E & El & Ed); [lia|lia|rewrite zlen_insert; lia|].
    exists d. split; [done|]. split; [by rewrite El, zlen_insert|]. intros j Hj. rewrite Ed by done. destruct (decide (j = 2 * half - i)) as [->|Hne].
    + rewrite (proj2 (Z.leb_gt (2 * half - i) (2 * half - (i + 1)))) by lia. rewrite andb_false_r, list_lookup_insert by (unfold zlen in *; lia).
      rewrite Z.leb_refl, (proj2 (Z.ltb_lt _ _)) by lia. cbn. rewrite <- Hx. f_equal. lia.
    + destruct ((2 * half - i - Z.of_nat (S k) <? j) && (j <=? 2 * half - i)) eqn:Eb.
      * apply andb_true_iff in Eb as [E1%Z.ltb_lt E2%Z.leb_le]. rewrite (proj2 (Z.ltb_lt _ _)), (proj2 (Z.leb_le _ _)) by lia. cbn. rewrite list_lookup_insert_ne by lia. done.
      * destruct ((2 * half - (i + 1) - Z.of_nat k <? j) && (j <=? 2 * half - (i + 1))) eqn:Ec; [|by rewrite list_lookup_insert_ne by lia]. apply andb_true_iff in Ec as [E1%Z.ltb_lt E2%Z.leb_le]. apply andb_false_iff in Eb as [E3%Z.ltb_ge|E3%Z.leb_gt]; lia.
Qed.
Lemma write_spec dst h p : 0 < h -> 2 * h <= zlen dst ->
  exists d, write one s dst (2 * h) p = Some d /\ zlen d = zlen dst /\ sincWindow (2 * h) p d /\ forall j, 2 * h <= j -> d !! Z.to_nat j = dst !! Z.to_nat j.
Proof.
  intros Hh Hl. unfold write, writeHalf. assert (E2 : 2 * h / 2 = h) by (rewrite Z.mul_comm; by apply Z.div_mul). rewrite E2.
  rewrite setZ_is by lia. cbn [mbind option_bind].
  destruct (halfLoop_spec h p (Z.to_nat (h - 1)) (<[Z.to_nat h := one]> dst) 1) as (d1 & -> & L1 & D1); [lia|lia|rewrite zlen_insert; lia|]. cbn [mbind option_bind]. rewrite zlen_insert in L1.
  assert (Et : mirror d1 (h - 1) = mirror d1 (2 * h - (h + 1))) by (f_equal; lia). rewrite Et. clear Et.
  destruct (mirror_spec h (Z.to_nat (2 * h - h - 1)) d1 (h + 1)) as (d2 & -> & L2 & D2); [lia|lia|lia|]. cbn [mbind option_bind]. rewrite setZ_is by lia.
  eexists. split; [done|]. split; [rewrite zlen_insert; lia|]. split.
  - intros j Hj. rewrite E2. destruct (decide (j = 0)) as [->|H0].
    + rewrite list_lookup_insert by (unfold zlen in *; lia). rewrite (proj2 (Z.eqb_neq 0 h)) by lia. do 2 f_equal. lia.
    + rewrite list_lookup_insert_ne by lia. rewrite D2 by lia. destruct (_ && _) eqn:Eb.
      * apply andb_true_iff in Eb as [E1%Z.ltb_lt E3%Z.leb_le]. rewrite D1 by lia. rewrite (proj2 (Z.leb_le _ _)), (proj2 (Z.ltb_lt _ _)) by lia. cbn.
        rewrite (proj2 (Z.eqb_neq j h)) by lia. do 2 f_equal. lia.
      * assert (h <= j) by (apply andb_false_iff in Eb as [E1%Z.ltb_ge|E1%Z.leb_gt]; lia). rewrite D1 by lia. destruct (decide (j = h)) as [->|Hjh].
        -- rewrite (proj2 (Z.leb_gt (h + 1) h)) by lia. cbn. rewrite list_lookup_insert by (unfold zlen in *; lia). by rewrite Z.eqb_refl.
        -- rewrite (proj2 (Z.leb_le _ _)), (proj2 (Z.ltb_lt _ _)) by lia. cbn. rewrite (proj2 (Z.eqb_neq j h)) by lia. do 2 f_equal. lia.
  - intros j Hj. rewrite list_lookup_insert_ne by lia. rewrite D2 by lia. rewrite (proj2 (Z.leb_gt j _)) by lia. rewrite andb_false_r. rewrite D1 by lia.
    rewrite (proj2 (Z.ltb_ge j _)) by lia. rewrite andb_false_r. by rewrite list_lookup_insert_ne by lia.
Qed.

(** C82.  While the window size stays the same, whatever happens else, every chunk is
    weighted with the sinc window of that size and of twice the chunk's shift. *)
Definition Ok (w : Z) (ch : chan) : Prop := w <= zlen (interpolator ch) /\ 0 <= scale ch /\ (scale ch = 0 \/ sincWindow w (scale ch) (interpolator ch)).
Definition steady (w : Z) (o : op) : Prop := match o with Chunk w' sh => w' = w /\ 0 < sh | _ => True end.
Lemma chunk_ok h ch sh : 0 < h -> 0 < sh -> Ok (2 * h) ch -> exists ch' l, chunk one s ch (2 * h) sh = Some (ch', l) /\ Ok (2 * h) ch' /\ zlen l = 2 * h /\ sincWindow (2 * h) (2 * sh) l.
Proof.
  intros Hh Hs (H1 & H2 & H3). unfold chunk.
  assert (K : exists ch', (if scale ch =? sh * 2 then Some ch else d ← write one s (interpolator ch) (2 * h) (sh * 2); Some (Chan d (sh * 2))) = Some ch' /\
    2 * h <= zlen (interpolator ch') /\ scale ch' = sh * 2 /\ sincWindow (2 * h) (sh * 2) (interpolator ch')).
  { destruct (scale ch =? sh * 2) eqn:E.
    - apply Z.eqb_eq in E. exists ch. destruct H3 as [H3|H3]; [lia|]. rewrite E in H3. done.
    - destruct (write_spec (interpolator ch) h (sh * 2) Hh H1) as (d & -> & L & W & _). cbn. eexists. split; [done|]. cbn. split; [lia|done]. }
  destruct K as (ch' & -> & K1 & K2 & K3). cbn [mbind option_bind]. rewrite (proj2 (Z.leb_le _ _) K1). exists ch', (take (Z.to_nat (2 * h)) (interpolator ch')). split; [done|].
  split. { split; [done|]. split; [lia|]. right. by rewrite K2. }
  split; [unfold zlen in *; rewrite take_length; lia|]. intros j Hj. rewrite lookup_take by lia. rewrite (Z.mul_comm 2 sh). by apply K3.
Qed.
Theorem C82_interpolator_partial max h os sh : 0 < h -> 2 * h <= max -> Forall (steady (2 * h)) os -> 0 < sh ->
  exists ch, run zero one s (construct zero max) os = Some ch /\ exists ch' l, chunk one s ch (2 * h) sh = Some (ch', l) /\ zlen l = 2 * h /\ sincWindow (2 * h) (2 * sh) l.
Proof.
  intros Hh Hm Hs Hsh. assert (K : forall ch, Ok (2 * h) ch -> exists ch', run zero one s ch os = Some ch' /\ Ok (2 * h) ch').
  { induction os as [|o os IH]; intros ch Hc; [by exists ch|]. apply Forall_cons in Hs as [Ho Hs]. cbn [run].
    assert (exists ch1, step zero one s ch o = Some ch1 /\ Ok (2 * h) ch1) as (ch1 & -> & H1); [|cbn; by apply IH].
    destruct o as [w sh'|w f|]; cbn [step].
    - destruct Ho as [-> Ho]. destruct (chunk_ok h ch sh' Hh Ho Hc) as (c1 & l & -> & H1 & _). by exists c1.
    - eexists. split; [done|]. unfold setSizes. destruct (_ <=? _) eqn:E; [done|]. apply Z.leb_gt in E. destruct Hc as (C1 & _). unfold Ok, construct. cbn.
      split; [unfold zlen in *; rewrite replicate_length; lia|]. auto with lia.
    - eexists. split; [done|]. destruct Hc as (C1 & _). unfold Ok, reset. cbn. auto with lia. }
  destruct (K (construct zero max)) as (ch & H1 & H2). { unfold Ok, construct. cbn. split; [unfold zlen in *; rewrite replicate_length; lia|]. auto with lia. }
  exists ch. split; [done|]. destruct (chunk_ok h ch sh Hh Hsh H2) as (c1 & l & H3 & _ & H4). by exists c1, l.
Qed.

(** When the window size is changed and the buffers are large enough already, a chunk with the
    shift of the one before gets the window for the old size, off its middle: there its value
    is not 1 but that at the difference of the middles. *)
Theorem C82_stale max h h' f sh : 0 < h' -> h' < h -> 2 * (2 * h' `max` f) <= max -> 2 * h <= max -> 0 < sh ->
  exists ch ch' l, run zero one s (construct zero max) [Chunk (2 * h) sh; Sizes (2 * h') f] = Some ch /\
    chunk one s ch (2 * h') sh = Some (ch', l) /\ l !! Z.to_nat h' = Some (s (h - h') (2 * sh)).
Proof.
  intros H1 H2 H3 H4 H5. cbn [run step]. unfold chunk at 1.
  assert (L0 : zlen (interpolator (construct zero max)) = max) by (cbn; unfold zlen; rewrite replicate_length; lia).
  assert (E0 : (scale (construct zero max) =? sh * 2) = false) by (apply Z.eqb_neq; cbn; lia). rewrite E0.
  destruct (write_spec (interpolator (construct zero max)) h (sh * 2)) as (d & -> & L & W & _); [lia|lia|]. cbn [mbind option_bind interpolator].
  rewrite (proj2 (Z.leb_le _ _)) by lia. cbn [mbind option_bind]. unfold setSizes. cbn [interpolator]. rewrite (proj2 (Z.leb_le _ _)) by lia.
  do 3 eexists. split; [done|]. unfold chunk. cbn [scale]. rewrite Z.eqb_refl. cbn [mbind option_bind interpolator]. rewrite (proj2 (Z.leb_le _ _)) by lia. split; [done|].
  rewrite lookup_take by lia. rewrite W by lia. assert (E2 : 2 * h / 2 = h) by (rewrite Z.mul_comm; by apply Z.div_mul). rewrite E2, (proj2 (Z.eqb_neq h' h)) by lia. do 2 f_equal; lia.
Qed.
End Props.
Print Assumptions C82_interpolator_partial.
Print Assumptions C82_stale.

(** That happens: in real time with smoothing, at 44100 Hz, the ratio going from 1/10 to 1/5 takes
    the window from 8192 to 4096 with chunks of 68 samples each, so the window used has
    the value at 2048 samples from the middle where 1 should be. *)
Definition slow (t : Q) : Sizes.config := Sizes.Config true false false false true 2048 (44100 # 48000) t 1 0 1024.
Theorem C82_interpolator_refuted : exists t t' w w' f', (exists z z', Sizes.calculateSizes (slow t) = Some z /\ Sizes.calculateSizes (slow t') = Some z' /\
    Sizes.window z = w /\ Sizes.window z' = w' /\ Sizes.fftSize z' = f' /\ cround (inject_Z (Sizes.increment z) * t) = 68 /\ cround (inject_Z (Sizes.increment z') * t') = 68) /\
  forall A (zero one : A) s max, s 2048 136 <> one -> 2 * w <= max ->
  exists ch ch' l, run zero one s (construct zero max) [Chunk w 68; Sizes w' f'] = Some ch /\ chunk one s ch w' 68 = Some (ch', l) /\ ~ sincWindow one s w' 136 l.
Proof.
  exists (1 # 10), (1 # 5), (2 * 4096), (2 * 2048), 2048. split.
  { do 2 eexists. split; [vm_compute; reflexivity|]. split; [vm_compute; reflexivity|]. by vm_compute. }
  intros A zero one s max Hs Hm. destruct (C82_stale zero one s max 4096 2048 2048 68) as (ch & ch' & l & E1 & E2 & E3); try lia.
  exists ch, ch', l. split; [done|]. split; [done|]. intros W. specialize (W 2048). change (2 * 2048 / 2) with 2048 in W. rewrite W in E3 by lia. rewrite Z.eqb_refl in E3.
  apply Hs. change (4096 - 2048) with 2048 in E3. change (2 * 68) with 136 in E3. congruence.
Qed.
Print Assumptions C82_interpolator_refuted.

(** A window of 8 for shifts of 2, then of 3, after new sizes and a reset; sin(a)/a shown by its
    argument. *)
Example C82_case : let s := fun i p => Some (i, p) in
  run None (Some (0, 0)) s (construct None 16) [Chunk 8 2; Sizes 8 4; Reset; Chunk 8 3; Sizes 16 8] = Some (construct None 32) /\
  (ch ← run None (Some (0, 0)) s (construct None 16) [Chunk 8 2; Sizes 8 4]; snd <$> chunk (Some (0, 0)) s ch 8 3)
  = Some [Some (4, 6); Some (3, 6); Some (2, 6); Some (1, 6); Some (0, 0); Some (1, 6); Some (2, 6); Some (3, 6)].
Proof. split; by vm_compute. Qed.
