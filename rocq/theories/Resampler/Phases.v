(** Phase arithmetic and the phase tables. *)
From stdpp Require Import prelude.
From Coq Require Import ZArith QArith Qround Qabs Lia Znumtheory.
From Verif.MathMisc Require Import Model Spec Proofs.
From Verif.Resampler Require Import Model Spec.
Local Open Scope Z_scope.
Local Set Default Proof Using "Type*".

Lemma ceil_div_spec a b : 0 < b -> (ceil_div a b - 1) * b < a <= ceil_div a b * b.
Proof.
  intros Hb. unfold ceil_div. pose proof (Z.div_mod (- a) b ltac:(lia)).
  pose proof (Z.mod_pos_bound (- a) b Hb). nia.
Qed.
Lemma ceil_div_unique a b d : 0 < b -> (d - 1) * b < a <= d * b -> ceil_div a b = d.
Proof. intros Hb H. pose proof (ceil_div_spec a b Hb). nia. Qed.
Lemma ceil_div_le a b d : 0 < b -> ceil_div a b <= d <-> a <= d * b.
Proof. intros Hb. pose proof (ceil_div_spec a b Hb). split; intros; nia. Qed.
Lemma ceil_div_mono a a' b : 0 < b -> a <= a' -> ceil_div a b <= ceil_div a' b.
Proof. intros Hb H. apply ceil_div_le; [done|]. pose proof (ceil_div_spec a' b Hb). lia. Qed.
Lemma ceil_div_add a b d : 0 < b -> ceil_div (a + d * b) b = ceil_div a b + d.
Proof. intros Hb. apply ceil_div_unique; [done|]. pose proof (ceil_div_spec a b Hb). nia. Qed.

Lemma getZ_Some {X} (l : list X) i x : getZ l i = Some x -> 0 <= i < zlen l.
Proof.
  unfold getZ, zlen. destruct (Z.ltb_spec i 0); [done|]. intros H1%lookup_lt_Some. lia.
Qed.
Lemma getZ_in {X} (l : list X) i : 0 <= i < zlen l -> exists x, getZ l i = Some x.
Proof.
  unfold getZ, zlen. intros H. destruct (Z.ltb_spec i 0); [lia|].
  apply lookup_lt_is_Some. lia.
Qed.
Lemma getZ_stream {X} (z : X) l i : 0 <= i < zlen l -> getZ l i = Some (stream_at z l i).
Proof.
  intros H. destruct (getZ_in l i H) as [x Hx]. rewrite Hx. unfold stream_at, getZ in *.
  destruct (Z.ltb_spec i 0); [lia|]. by rewrite Hx.
Qed.
Lemma getZ_stream_at {X} (z : X) l i x : getZ l i = Some x -> stream_at z l i = x.
Proof. intros H. pose proof (getZ_Some l i x H). rewrite (getZ_stream z) in H; congruence. Qed.
Lemma zlen_nonneg {X} (l : list X) : 0 <= zlen l.
Proof. unfold zlen; lia. Qed.
Lemma zlen_app {X} (l k : list X) : zlen (l ++ k) = zlen l + zlen k.
Proof. unfold zlen. rewrite app_length. lia. Qed.
Lemma zlen_cons {X} x (l : list X) : zlen (x :: l) = zlen l + 1.
Proof. unfold zlen. cbn [length]. lia. Qed.
Lemma zlen_nil {X} : zlen (@nil X) = 0.
Proof. done. Qed.
Lemma zlen_replicate {X} n (x : X) : 0 <= n -> zlen (replicate (Z.to_nat n) x) = n.
Proof. unfold zlen. rewrite replicate_length. lia. Qed.
Lemma zlen_fmap {X Y} (f : X -> Y) l : zlen (f <$> l) = zlen l.
Proof. unfold zlen. by rewrite fmap_length. Qed.
Lemma zlen_seqZ m n : 0 <= n -> zlen (seqZ m n) = n.
Proof. unfold zlen. rewrite seqZ_length. lia. Qed.

Lemma stream_at_neg {X} (z : X) l t : t < 0 -> stream_at z l t = z.
Proof. unfold stream_at. intros H. destruct (Z.ltb_spec t 0); [done|lia]. Qed.
Lemma stream_at_past {X} (z : X) l t : zlen l <= t -> stream_at z l t = z.
Proof.
  unfold stream_at, zlen. intros H. destruct (Z.ltb_spec t 0); [done|].
  rewrite lookup_ge_None_2; [done|lia].
Qed.
Lemma stream_at_app_l {X} (z : X) l k t : t < zlen l -> stream_at z (l ++ k) t = stream_at z l t.
Proof.
  unfold stream_at, zlen. intros H. destruct (Z.ltb_spec t 0); [done|].
  rewrite lookup_app_l; [done|lia].
Qed.
Lemma stream_at_snoc {X} (z : X) l x : stream_at z (l ++ [x]) (zlen l) = x.
Proof.
  unfold stream_at, zlen. destruct (Z.ltb_spec (Z.of_nat (length l)) 0); [lia|].
  rewrite Nat2Z.id, lookup_app_r, Nat.sub_diag; done.
Qed.
Lemma stream_at_insert {X} (z : X) l i x j : 0 <= i < zlen l ->
  stream_at z (<[Z.to_nat i := x]> l) j = if decide (j = i) then x else stream_at z l j.
Proof.
  unfold stream_at, zlen. intros H. destruct (Z.ltb_spec j 0); [case_decide; [lia|done]|].
  case_decide as Hd.
  - subst. rewrite list_lookup_insert; [done|lia].
  - rewrite list_lookup_insert_ne; [done|lia].
Qed.
Lemma zlen_insert {X} (l : list X) i x : zlen (<[i := x]> l) = zlen l.
Proof. unfold zlen. by rewrite insert_length. Qed.
Lemma stream_at_replicate {X} (z : X) n j : stream_at z (replicate n z) j = z.
Proof.
  unfold stream_at. destruct (Z.ltb_spec j 0); [done|].
  destruct (replicate n z !! Z.to_nat j) eqn:E; [|done].
  apply lookup_replicate in E. by destruct E as [-> _].
Qed.
Lemma stream_at_drop {X} (z : X) l n j : 0 <= n -> 0 <= j ->
  stream_at z (drop (Z.to_nat n) l) j = stream_at z l (n + j).
Proof.
  intros Hn Hj. unfold stream_at. destruct (Z.ltb_spec j 0); [lia|].
  destruct (Z.ltb_spec (n + j) 0); [lia|]. rewrite lookup_drop.
  do 2 f_equal. lia.
Qed.
Lemma stream_at_app_z {X} (z : X) l n j : stream_at z (l ++ replicate n z) j = stream_at z l j.
Proof.
  destruct (decide (j < zlen l)) as [H|H].
  - by apply stream_at_app_l.
  - rewrite (stream_at_past z l) by lia. unfold stream_at, zlen in *.
    destruct (Z.ltb_spec j 0); [done|]. rewrite lookup_app_r by lia.
    destruct (replicate n z !! _) eqn:E; [|done].
    apply lookup_replicate in E. by destruct E as [-> _].
Qed.
Lemma stream_at_take {X} (z : X) l n j : j < Z.of_nat n -> stream_at z (take n l) j = stream_at z l j.
Proof.
  intros H. unfold stream_at. destruct (Z.ltb_spec j 0); [done|].
  rewrite lookup_take; [done|lia].
Qed.

Lemma mapM_ext {X Y} (f : X -> option Y) (g : X -> Y) l :
  (forall x, x ∈ l -> f x = Some (g x)) -> mapM f l = Some (g <$> l).
Proof.
  induction l as [|x l IH]; intros H; [done|]. cbn.
  rewrite (H x) by set_solver. cbn. rewrite IH; [done|]. intros y Hy. apply H. set_solver.
Qed.

(** ** Advancing a phase *)
Section Phase.
Context (num den half : Z) (Hnum : 1 <= num) (Hden : 1 <= den) (Hhalf : 0 <= half).
Definition r0 := half mod num.
Definition q0 := half / num.
(** Input frames passed over and phase at output frame [k]. *)
Definition pos (k : Z) := ceil_div (k * den - r0) num.
Definition phase (k : Z) := (r0 - k * den) mod num.

Lemma r0_range : 0 <= r0 < num.
Proof. apply Z.mod_pos_bound. lia. Qed.
Lemma half_eq : half = q0 * num + r0.
Proof. unfold q0, r0. pose proof (Z.div_mod half num). lia. Qed.
Lemma q0_nonneg : 0 <= q0.
Proof. apply Z.div_pos; lia. Qed.
Lemma phase_range k : 0 <= phase k < num.
Proof. apply Z.mod_pos_bound. lia. Qed.
Lemma pos_phase k : pos k * num = k * den - r0 + phase k.
Proof.
  unfold pos, phase, ceil_div. replace (- (k * den - r0)) with (r0 - k * den) by lia.
  pose proof (Z.div_mod (r0 - k * den) num ltac:(lia)). nia.
Qed.
Lemma pos_0 : pos 0 = 0.
Proof. apply ceil_div_unique; [lia|]. pose proof r0_range. nia. Qed.
Lemma phase_0 : phase 0 = r0.
Proof. unfold phase. rewrite Z.mul_0_l, Z.sub_0_r. apply Z.mod_small. apply r0_range. Qed.
Lemma phase_next k : (phase k - den) mod num = phase (k + 1).
Proof.
  unfold phase. rewrite Zminus_mod_idemp_l. f_equal. lia.
Qed.
Lemma pos_next k : ceil_div (Z.max 0 (den - phase k)) num = pos (k + 1) - pos k.
Proof.
  pose proof (pos_phase k). pose proof (pos_phase (k + 1)).
  pose proof (phase_range k). pose proof (phase_range (k + 1)).
  assert (Hd : (pos (k + 1) - pos k) * num = den - phase k + phase (k + 1)) by nia.
  set (d := pos (k + 1) - pos k) in *.
  assert (0 <= d) by nia.
  apply ceil_div_unique; [lia|]. destruct (Z.max_spec 0 (den - phase k)) as [[? ->]|[? ->]]; [lia|].
  assert (d = 0) by nia. lia.
Qed.
Lemma pos_mono_1 k : pos k <= pos (k + 1).
Proof. unfold pos. apply ceil_div_mono; nia. Qed.
Lemma pos_mono j k : j <= k -> pos j <= pos k.
Proof. intros. unfold pos. apply ceil_div_mono; nia. Qed.
Lemma pos_nonneg k : 0 <= k -> 0 <= pos k.
Proof. intros. rewrite <- pos_0. by apply pos_mono. Qed.

(** Going round the phases: after [num] steps back at the start; all of them
    visited when the fraction is reduced. *)
Lemma phase_period : phase num = r0.
Proof.
  unfold phase. replace (r0 - num * den) with (r0 + (- den) * num) by lia.
  rewrite Z_mod_plus_full. apply Z.mod_small, r0_range.
Qed.
Lemma phase_inj j k : Z.gcd num den = 1 -> 0 <= j < num -> 0 <= k < num ->
  phase j = phase k -> j = k.
Proof.
  intros Hg Hj Hk He. unfold phase in He.
  assert (Hd : (num | (k - j) * den)).
  { apply Z.mod_divide; [lia|].
    replace ((k - j) * den) with ((r0 - j * den) - (r0 - k * den)) by lia.
    rewrite Zminus_mod, He, Z.sub_diag. apply Zmod_0_l. }
  rewrite Z.mul_comm in Hd. apply Gauss in Hd as [x Hx].
  - assert (x = 0) by nia. subst x. lia.
  - apply Zgcd_1_rel_prime. done.
Qed.
End Phase.

(** ** The sorted filter (lines 432-443) *)
Section Sort.
Context (A : arith) (num den half flen : Z) (Hnum : 1 <= num) (Hden : 1 <= den) (Hhalf : 0 <= half).
Context (Hgcd : Z.gcd num den = 1) (Hflen : num <= flen).
Context (h : list (T A)) (Hh : zlen h = flen).
Notation ph := (phase num den half).
Notation len p := (ceil_div (flen - p) num).

Definition row (p : Z) : list (T A) := (fun i => stream_at (zero A) h (i * num + p)) <$> seqZ 0 (len p).
Lemma len_nonneg p : 0 <= p < num -> 0 <= len p.
Proof. intros Hp. pose proof (ceil_div_spec (flen - p) num). nia. Qed.
Lemma row_length p : 0 <= p < num -> zlen (row p) = len p.
Proof. intros Hp. unfold row. rewrite zlen_fmap, zlen_seqZ; [done|]. by apply len_nonneg. Qed.

(** Records of the table after [k] rounds. *)
Definition rec_ok (info : list phase_rec) (sorted : list (T A)) (set : Z -> Prop) : Prop :=
  zlen info = num /\ forall p, 0 <= p < num -> exists pr, getZ info p = Some pr /\
    next_phase pr = (p - den) mod num /\ ph_length pr = len p /\
    ph_drop pr = ceil_div (Z.max 0 (den - p)) num /\
    (set p -> exists tail pre, sorted = pre ++ row p ++ tail /\ start_index pr = zlen pre).

Lemma getZ_seqZ {X} (f : Z -> X) n i : 0 <= i < n -> getZ (f <$> seqZ 0 n) i = Some (f i).
Proof.
  intros Hi. unfold getZ. destruct (Z.ltb_spec i 0); [lia|].
  rewrite list_lookup_fmap, lookup_seqZ_lt by lia. cbn. do 2 f_equal. lia.
Qed.
Lemma table_ok sorted : rec_ok (phase_table flen num den) sorted (fun _ => False).
Proof.
  split; [unfold phase_table; rewrite zlen_fmap, zlen_seqZ; lia|].
  intros p Hp. exists (phase_rec_for flen num den p).
  split_and!; try done. by apply getZ_seqZ.
Qed.

Lemma sort_loop_ok : forall f k tbl sorted, Z.of_nat f = num - k -> 0 <= k < num ->
  rec_ok tbl sorted (fun p => exists j, 0 <= j < k /\ p = ph j) ->
  exists tbl' sorted', sort_loop A f h num (r0 num half) (ph k) tbl sorted = Some (tbl', sorted') /\
    rec_ok tbl' sorted' (fun p => exists j, 0 <= j < num /\ p = ph j).
Proof.
  induction f as [|f IH]; intros k tbl sorted Hf Hk [Hl Hok]; [lia|].
  pose proof (phase_range num den half Hnum Hden Hhalf k) as Hp. cbn [sort_loop].
  destruct (Hok (ph k) Hp) as (pr & Hget & Hn & Hlen & Hdrop & _). rewrite Hget. cbn [mbind option_bind].
  unfold setZ. destruct (_ && _) eqn:E; [clear E|lia]. cbn [mbind option_bind].
  rewrite (mapM_ext _ (fun i => stream_at (zero A) h (i * num + ph k))).
  2: { intros i Hi%elem_of_seqZ. apply getZ_stream. rewrite Hlen in Hi.
       pose proof (ceil_div_spec (flen - ph k) num ltac:(lia)). nia. }
  cbn [mbind option_bind]. rewrite Hlen. fold (row (ph k)).
  set (tbl' := <[_ := _]> tbl).
  assert (Hok' : rec_ok tbl' (sorted ++ row (ph k)) (fun p => exists j, 0 <= j < k + 1 /\ p = ph j)).
  { split; [unfold tbl'; by rewrite zlen_insert|]. intros p Hpp.
    destruct (decide (p = ph k)) as [->|Hne].
    - exists (set_start pr (zlen sorted)). split_and!; try done.
      + unfold tbl', getZ. destruct (Z.ltb_spec (ph k) 0); [lia|].
        rewrite list_lookup_insert; [done|]. unfold zlen in Hl. lia.
      + intros _. exists [], sorted. by rewrite app_nil_r.
    - destruct (Hok p Hpp) as (pr' & Hg' & H1 & H2 & H3 & H4). exists pr'. split_and!; try done.
      + unfold tbl', getZ in *. destruct (Z.ltb_spec p 0); [lia|].
        rewrite list_lookup_insert_ne; [done|lia].
      + intros (j & Hj & Hpj). destruct H4 as (tail & pre & -> & Hs).
        { exists j. split; [|done]. destruct (decide (j = k)) as [Hjk|]; [|lia].
          exfalso. apply Hne. by rewrite Hpj, Hjk. }
        exists (tail ++ row (ph k)), pre. by rewrite <- !app_assoc. }
  rewrite Hn, (phase_next num den half) by done.
  destruct (Z.eqb_spec (ph (k + 1)) (r0 num half)) as [He|He].
  - assert (k + 1 = num).
    { destruct (decide (k + 1 = num)); [done|]. exfalso.
      rewrite <- (phase_0 num den half Hnum Hden Hhalf) in He.
      apply phase_inj in He; lia. }
    eexists _, _. split; [done|]. destruct Hok' as [Hl' Hok']. split; [done|].
    intros p Hpp. destruct (Hok' p Hpp) as (pr' & H1 & H2 & H3 & H4 & H5).
    exists pr'. split_and!; try done. intros (j & Hj & ->). apply H5. exists j. split; [lia|done].
  - assert (k + 1 <> num).
    { intros Hk1. apply He. rewrite Hk1. by apply phase_period. }
    apply IH; [lia|lia|done].
Qed.

Lemma phase_surj p : 0 <= p < num -> exists j, 0 <= j < num /\ p = ph j.
Proof.
  intros Hp.
  assert (Hsub : (ph <$> seqZ 0 num) ⊆ seqZ 0 num).
  { intros x (j & -> & Hj)%elem_of_list_fmap. apply elem_of_seqZ.
    pose proof (phase_range num den half Hnum Hden Hhalf j). lia. }
  assert (Hnd : NoDup (ph <$> seqZ 0 num)).
  { apply NoDup_fmap_2_strong; [|apply NoDup_seqZ]. intros x y Hx%elem_of_seqZ Hy%elem_of_seqZ He.
    apply (phase_inj num den half) in He; lia. }
  assert (Hperm : ph <$> seqZ 0 num ≡ₚ seqZ 0 num).
  { apply submseteq_Permutation_length_eq; [by rewrite fmap_length|]. by apply NoDup_submseteq. }
  assert (Hin : p ∈ seqZ 0 num) by (apply elem_of_seqZ; lia).
  rewrite <- Hperm in Hin. apply elem_of_list_fmap in Hin as (j & -> & Hj%elem_of_seqZ).
  exists j. split; [lia|done].
Qed.

Lemma sort_all : exists tbl' sorted',
  sort_loop A (Z.to_nat num) h num (r0 num half) (r0 num half) (phase_table flen num den) [] =
    Some (tbl', sorted') /\ rec_ok tbl' sorted' (fun _ => True).
Proof.
  destruct (sort_loop_ok (Z.to_nat num) 0 (phase_table flen num den) []) as (t & s & He & Hl & Hok);
    [lia|lia| |].
  { destruct (table_ok []) as [Hl H]. split; [done|]. intros p Hp.
    destruct (H p Hp) as (pr & H1 & H2 & H3 & H4 & _). exists pr. split_and!; try done.
    intros (j & Hj & _). lia. }
  rewrite (phase_0 num den half Hnum Hden Hhalf) in He.
  exists t, s. split; [done|]. split; [done|]. intros p Hp.
  destruct (Hok p Hp) as (pr & H1 & H2 & H3 & H4 & H5). exists pr. split_and!; try done.
  intros _. apply H5. destruct (phase_surj p Hp) as (j & Hj & ->). by exists j.
Qed.
End Sort.

(** ** The greatest common divisor (lines 238-244) *)
Lemma gcd_loop_ok : forall f a b, 0 <= a -> 1 <= b -> 2 * Z.log2 b + 2 < Z.of_nat f ->
  gcd_loop f a b = Some (Z.gcd a b).
Proof.
  (* measure: a round halves the product of the pair *)
  assert (G : forall f a b, 1 <= b -> b <= a -> Z.log2 (a * b) < Z.of_nat f ->
    gcd_loop f a b = Some (Z.gcd a b)).
  { induction f as [|f IH]; intros a b Hb Hab Hf.
    { pose proof (Z.log2_nonneg (a * b)). lia. }
    cbn [gcd_loop]. destruct (Z.eqb_spec b 0); [lia|]. cbv zeta.
    rewrite Z.rem_mod_nonneg by lia.
    pose proof (Z.mod_pos_bound a b ltac:(lia)) as Hm.
    pose proof (Z.div_mod a b ltac:(lia)) as Hdm.
    assert (1 <= a / b) by (apply Z.div_le_lower_bound; lia).
    rewrite (Z.gcd_comm a b), <- (Z.gcd_mod a b), (Z.gcd_comm _ b) by lia.
    destruct (Z.eqb_spec (a mod b) 0) as [Hz|Hz].
    - rewrite Hz, Z.gcd_0_r. f_equal. lia.
    - apply IH; [lia|lia|].
      assert (Hlt : 2 * (b * (a mod b)) <= a * b) by nia.
      assert (Z.log2 (2 * (b * (a mod b))) = Z.succ (Z.log2 (b * (a mod b)))).
      { apply Z.log2_double. nia. }
      pose proof (Z.log2_le_mono _ _ Hlt). lia. }
  intros f a b Ha Hb Hf. destruct f as [|f].
  { pose proof (Z.log2_nonneg b). lia. }
  cbn [gcd_loop]. destruct (Z.eqb_spec b 0); [lia|]. cbv zeta.
  rewrite Z.rem_mod_nonneg by lia.
  pose proof (Z.mod_pos_bound a b ltac:(lia)) as Hm.
  rewrite (Z.gcd_comm a b), <- (Z.gcd_mod a b), (Z.gcd_comm _ b) by lia.
  destruct (Z.eqb_spec (a mod b) 0) as [Hz|Hz].
  - rewrite Hz, Z.gcd_0_r. f_equal. lia.
  - apply G; [lia|lia|].
    pose proof (Z.log2_mul_above b (a mod b) ltac:(lia) ltac:(lia)).
    pose proof (Z.log2_le_mono (a mod b) b ltac:(lia)). lia.
Qed.
Lemma gcd_ok a b : 0 <= a -> 1 <= b -> gcd a b = Some (Z.gcd a b).
Proof.
  intros. apply gcd_loop_ok; [done|done|]. pose proof (Z.log2_nonneg b). lia.
Qed.
