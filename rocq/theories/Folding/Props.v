(** Property C52: frames are folded into the transform buffers, and read back, about their
    middle. *)
From stdpp Require Import prelude.
From Coq Require Import ZArith Lia.
From Verif Require Import Base.Arith Folding.Model Folding.Spec Folding.Proofs.
From stdpp Require Import list.
Local Open Scope Z_scope.

Section Lemmas.
Context {A : Type} (zero : A) (add mul : A -> A -> A).
Implicit Types x t : list A.

Lemma landingFrom_short size k : 0 <= k < size -> forall x p, zlen x <= size ->
  landingFrom size p x k = match getZ x ((k - p) mod size) with Some v => [v] | None => [] end.
Proof.
  intros Hk. induction x as [|a x IH]; intros p Hl.
  { by destruct (getZ [] _) eqn:E; [apply getZ_some in E; rewrite (@zlen_nil A) in E; lia|]. }
  rewrite zlen_cons in Hl. rewrite landingFrom_cons, IH by lia.
  pose proof (Z.mod_pos_bound (k - p) size ltac:(lia)) as Hb. pose proof (Z.mod_pos_bound (k - (p + 1)) size ltac:(lia)) as Hb'.
  assert (E : (k - p) mod size = 0 <-> p mod size = k).
  { split; intros H.
    - assert (E1 : p mod size = (k - (k - p)) mod size) by (f_equal; lia). rewrite E1, Zminus_mod, H, Z.sub_0_r, Zmod_mod. apply Z.mod_small; lia.
    - rewrite Zminus_mod, H, (Z.mod_small k) by lia. by rewrite Z.sub_diag, Z.mod_0_l by lia. }
  assert (E2 : (k - (p + 1)) mod size = (if (k - p) mod size =? 0 then size - 1 else (k - p) mod size - 1)).
  { replace (k - (p + 1)) with ((k - p) - 1) by lia. destruct (Z.eqb_spec ((k - p) mod size) 0) as [H|H].
    - apply Z.mod_divide in H as [q Hq]; [|lia]. rewrite Hq. symmetry. apply (Z.mod_unique _ _ (q - 1)); [left; lia|lia].
    - pose proof (Z.div_mod (k - p) size ltac:(lia)). symmetry. apply (Z.mod_unique _ _ ((k - p) / size)); [left; lia|lia]. }
  rewrite E2. destruct (Z.eqb_spec ((k - p) mod size) 0) as [H|H].
  - rewrite (proj2 (Z.eqb_eq (p mod size) k)) by (by apply E). rewrite H.
    destruct (getZ x (size - 1)) eqn:Ex; [apply getZ_some in Ex; lia|]. rewrite getZ_at by lia. done.
  - rewrite (proj2 (Z.eqb_neq (p mod size) k)) by (intros H2; apply H; by apply E). cbn [app].
    rewrite !getZ_at by lia. replace (Z.to_nat ((k - p) mod size)) with (S (Z.to_nat ((k - p) mod size - 1))) by lia. done.
Qed.
Lemma landing_short size x k : 0 <= k < size -> zlen x <= size ->
  landing size x k = match getZ x ((k + zlen x / 2) mod size) with Some v => [v] | None => [] end.
Proof. intros. rewrite landing_from, landingFrom_short by done. by replace (k - - (zlen x / 2)) with (k + zlen x / 2) by lia. Qed.

Lemma fold_folded target src window : (forall a, add zero a = a) -> 0 < zlen target -> 2 <= zlen window -> zlen src = zlen window ->
  (zlen window = zlen target -> Z.even (zlen target) = true) ->
  exists t, cutShiftAndFold zero add mul target src window = Some (t, zip_with mul src window) /\ zlen t = zlen target /\
    folded zero add (zip_with mul src window) t.
Proof.
  intros H0 Ht Hw Hs He. unfold cutShiftAndFold. set (x := zip_with mul src window).
  assert (Hx : zlen x = zlen window) by (unfold x, zlen in *; rewrite zip_with_length; lia).
  destruct (Z.eqb_spec (zlen window) (zlen target)) as [E|E].
  - pose proof (halves target x ltac:(lia)) as Hh. cbv zeta in Hh.
    destruct (copy target 0 x _ _) as [u|]; [|done]. cbn [mbind option_bind] in Hh |- *. rewrite Hh. cbn [mbind option_bind]. eexists. split; [reflexivity|].
    specialize (He E). assert (Ed : 2 * (zlen target / 2) = zlen target) by (apply Z.even_spec in He as [q ->]; rewrite (Z.mul_comm 2 q), Z.div_mul; lia).
    rewrite (drop_ge target) by (unfold zlen in *; lia). rewrite app_nil_r.
    rewrite (take_ge (drop _ x)) by (rewrite drop_length; unfold zlen in *; lia).
    assert (Hl : zlen (drop (Z.to_nat (zlen target / 2)) x ++ take (Z.to_nat (zlen target / 2)) x) = zlen target) by (rewrite zlen_app; unfold zlen in *; rewrite drop_length, take_length; lia).
    split; [done|]. intros k Hk. rewrite Hl in Hk |- *. rewrite landing_short by lia.
    assert (Ex : zlen target = zlen x) by lia. rewrite Ex, rotated by (try (by rewrite <- Ex); lia).
    destruct (getZ_is x ((k + zlen x / 2) mod zlen x)) as [v Hv]; [apply Z.mod_pos_bound; lia|]. rewrite Hv. cbn [foldl]. by rewrite H0.
  - assert (Hlift : lift (S (length window)) (zlen target - zlen window / 2) (zlen target) = Some ((- (zlen window / 2)) mod zlen target)).
    { rewrite lift_mod.
      - f_equal. rewrite <- (Z_mod_plus_full (- (zlen window / 2)) 1). f_equal. lia.
      - done.
      - unfold zlen in *. pose proof (Z.mul_div_le (Z.of_nat (length window)) 2 ltac:(lia)). lia.
      - assert (1 <= zlen window / 2) by (apply Z.div_le_lower_bound; lia). lia. }
    rewrite Hlift. cbn [mbind option_bind].
    destruct (foldIn_spec add (zlen target) Ht x (- (zlen window / 2)) ((- (zlen window / 2)) mod zlen target) (replicate (length target) zero)) as (t & Ef & Hl & Hv).
    { unfold zlen. by rewrite replicate_length. } { reflexivity. }
    rewrite Ef. cbn [mbind option_bind]. exists t. split; [done|]. split; [done|]. intros k Hk. rewrite Hl in Hk |- *. rewrite Hv by done.
    rewrite landing_from, Hx. rewrite getZ_at by lia. rewrite lookup_replicate_2 by (unfold zlen in *; lia). done.
Qed.

Lemma unfold_unfolded flt t : (forall a, add zero a = a) -> 0 < zlen t -> 2 <= zlen flt -> (zlen flt = zlen t -> Z.even (zlen t) = true) ->
  exists y, unfold zero add flt t = Some y /\ zlen y = zlen flt /\ unfolded t y.
Proof.
  intros H0 Ht Hw He. unfold unfold. destruct (Z.eqb_spec (zlen flt) (zlen t)) as [E|E].
  - pose proof (halves flt t E) as Hh. cbv zeta in Hh. rewrite E in Hh. rewrite Hh. specialize (He E).
    assert (Ed : 2 * (zlen t / 2) = zlen t) by (apply Z.even_spec in He as [q ->]; rewrite (Z.mul_comm 2 q), Z.div_mul; lia).
    rewrite (drop_ge flt) by (unfold zlen in *; lia). rewrite app_nil_r. rewrite (take_ge (drop _ t)) by (rewrite drop_length; unfold zlen in *; lia).
    assert (Hl : zlen (drop (Z.to_nat (zlen t / 2)) t ++ take (Z.to_nat (zlen t / 2)) t) = zlen t) by (rewrite zlen_app; unfold zlen in *; rewrite drop_length, take_length; lia).
    eexists. split; [reflexivity|]. split; [lia|]. intros i Hi. rewrite Hl in Hi |- *. rewrite rotated by done. f_equal. unfold place.
    rewrite <- (Z_mod_plus_full (i - zlen t / 2) 1). f_equal. lia.
  - assert (Hlift : lift (S (length flt)) (zlen t - zlen flt / 2) (zlen t) = Some ((- (zlen flt / 2)) mod zlen t)).
    { rewrite lift_mod.
      - f_equal. rewrite <- (Z_mod_plus_full (- (zlen flt / 2)) 1). f_equal. lia.
      - done.
      - unfold zlen in *. pose proof (Z.mul_div_le (Z.of_nat (length flt)) 2 ltac:(lia)). lia.
      - assert (1 <= zlen flt / 2) by (apply Z.div_le_lower_bound; lia). lia. }
    rewrite Hlift. cbn [mbind option_bind].
    destruct (foldOut_spec zero add t (zlen t) Ht eq_refl H0 (length flt) (- (zlen flt / 2)) ((- (zlen flt / 2)) mod zlen t) eq_refl) as (y & Ey & Hl & Hv).
    exists y. split; [done|]. assert (Hly : zlen y = zlen flt) by (unfold zlen; lia). split; [done|]. intros i Hi. unfold place. rewrite Hly in Hi |- *.
    rewrite getZ_at by lia. rewrite Hv by (unfold zlen in *; lia). rewrite Z2Nat.id by lia. do 2 f_equal. lia.
Qed.

(** The middle of an even buffer goes to index 0. *)
Lemma fftshift_centre x d : Z.even (zlen x) = true -> - (zlen x / 2) <= d < zlen x / 2 ->
  exists t, fftshift x = Some t /\ zlen t = zlen x /\ getZ t (d mod zlen x) = getZ x (zlen x / 2 + d) /\ getZ t (zlen x / 2 + d) = getZ x (d mod zlen x).
Proof.
  intros He Hd. destruct (fftshift_spec x) as (t & E & Hl & Hv). exists t. split; [done|]. split; [done|].
  assert (Ed : 2 * (zlen x / 2) = zlen x) by (apply Z.even_spec in He as [q ->]; rewrite (Z.mul_comm 2 q), Z.div_mul; lia).
  cbv zeta in Hv. set (hs := zlen x / 2) in *. assert (0 <= d mod zlen x < zlen x) by (apply Z.mod_pos_bound; lia).
  assert (Em : d mod zlen x = if d <? 0 then d + zlen x else d).
  { destruct (Z.ltb_spec d 0); [|apply Z.mod_small; lia]. rewrite <- (Z_mod_plus_full d 1), Z.mod_small; lia. }
  rewrite !Hv by lia. rewrite Em. destruct (Z.ltb_spec d 0).
  - rewrite (proj2 (Z.ltb_ge (d + zlen x) hs)), (proj2 (Z.ltb_lt (d + zlen x) (2 * hs))), (proj2 (Z.ltb_lt (hs + d) hs)) by lia. split; f_equal; lia.
  - rewrite (proj2 (Z.ltb_lt d hs)), (proj2 (Z.ltb_ge (hs + d) hs)), (proj2 (Z.ltb_lt (hs + d) (2 * hs))) by lia. split; f_equal; lia.
Qed.
End Lemmas.

(** C52, R2 engine, analysis: whatever the window and transform sizes, each place of the
    transform buffer holds everything that belongs there and nothing else, whatever it held
    before. *)
Theorem C52_fold : forall {A} (zero : A) add mul target src window, (forall a, add zero a = a) ->
  0 < zlen target -> 2 <= zlen window -> zlen src = zlen window -> (zlen window = zlen target -> Z.even (zlen target) = true) ->
  exists t, cutShiftAndFold zero add mul target src window = Some (t, zip_with mul src window) /\ zlen t = zlen target /\
    folded zero add (zip_with mul src window) t.
Proof. intros A zero add mul target src window. exact (fold_folded zero add mul target src window). Qed.
Print Assumptions C52_fold.

(** R2 engine, synthesis: each sample of the frame is read from where it belongs. *)
Theorem C52_unfold : forall {A} (zero : A) add flt t, (forall a, add zero a = a) ->
  0 < zlen t -> 2 <= zlen flt -> (zlen flt = zlen t -> Z.even (zlen t) = true) ->
  exists y, unfold zero add flt t = Some y /\ zlen y = zlen flt /\ unfolded t y.
Proof. intros A zero add flt t. exact (unfold_unfolded zero add flt t). Qed.
Print Assumptions C52_unfold.

(** So a frame no longer than the transform comes back as it was cut; of a longer one
    each sample comes back with those a multiple of the transform size away. *)
Theorem C52_round_trip : forall {A} (zero : A) add mul target src window flt, (forall a, add zero a = a) ->
  0 < zlen target -> 2 <= zlen window -> zlen src = zlen window -> zlen flt = zlen window -> (zlen window = zlen target -> Z.even (zlen target) = true) ->
  exists t y, cutShiftAndFold zero add mul target src window = Some (t, zip_with mul src window) /\ unfold zero add flt t = Some y /\
    (zlen window <= zlen target -> y = zip_with mul src window) /\
    forall i, 0 <= i < zlen window -> getZ y i = Some (foldl add zero
      (omap (fun p : nat * A => if (Z.of_nat (fst p) - i) mod zlen target =? 0 then Some (snd p) else None) (imap pair (zip_with mul src window)))).
Proof.
  intros A zero add mul target src window flt H0 Ht Hw Hs Hf He.
  destruct (fold_folded zero add mul target src window H0 Ht Hw Hs He) as (t & E & Hl & Hfold).
  destruct (unfold_unfolded zero add flt t H0 ltac:(lia) ltac:(lia)) as (y & Ey & Hly & Hun).
  { rewrite Hl, Hf. done. }
  exists t, y. split; [done|]. split; [done|]. set (x := zip_with mul src window) in *.
  assert (Hx : zlen x = zlen window) by (unfold x, zlen in *; rewrite zip_with_length; lia).
  assert (Hp : forall i, 0 <= place (zlen y) (zlen t) i < zlen t) by (intros; unfold place; apply Z.mod_pos_bound; lia). split.
  - intros Hle. apply getZ_ext; [lia|]. intros i Hi. rewrite Hun by done. rewrite Hfold by done. rewrite landing_short by (try lia; apply Hp).
    assert (Ei : (place (zlen y) (zlen t) i + zlen x / 2) mod zlen t = i).
    { unfold place. rewrite Zplus_mod_idemp_l, Hly, Hf, Hx. replace (i - zlen window / 2 + zlen window / 2) with i by lia. apply Z.mod_small. lia. }
    rewrite Ei. destruct (getZ_is x i) as [v Hv]; [lia|]. rewrite Hv. cbn [foldl]. by rewrite H0.
  - intros i Hi. rewrite Hun by lia. rewrite Hfold by done. do 2 f_equal. unfold landing. rewrite Hl, Hx, Hly, Hf.
    generalize (imap pair x). intros l. induction l as [|q l IH]; [done|]. rewrite !omap_cons', IH.
    assert (Eq : place (zlen window) (zlen target) (Z.of_nat q.1) =? place (zlen window) (zlen target) i = ((Z.of_nat q.1 - i) mod zlen target =? 0)).
    { apply Bool.eq_iff_eq_true. rewrite !Z.eqb_eq. unfold place. split; intros H.
      - replace (Z.of_nat q.1 - i) with ((Z.of_nat q.1 - zlen window / 2) - (i - zlen window / 2)) by lia. rewrite Zminus_mod, H, Z.sub_diag. apply Z.mod_0_l. lia.
      - apply Z.mod_divide in H as [c Hc]; [|lia]. replace (Z.of_nat q.1 - zlen window / 2) with (i - zlen window / 2 + c * zlen target) by lia. apply Z_mod_plus_full. }
    by rewrite Eq.
Qed.
Print Assumptions C52_round_trip.

(** R3 engine: every scale sees the same instant.  The sample [d] after the middle of the
    window source is, windowed, at [d] counted round the buffer of every size. *)
Theorem C52_scales_aligned : forall {A} (mul : A -> A -> A) longest source window d u v,
  Z.even longest = true -> Z.even (zlen window) = true -> zlen window <= longest -> longest <= zlen source ->
  - (zlen window / 2) <= d < zlen window / 2 ->
  getZ source (longest / 2 + d) = Some u -> getZ window (zlen window / 2 + d) = Some v ->
  exists t, analyseScale mul longest source window = Some t /\ zlen t = zlen window /\ getZ t (d mod zlen window) = Some (mul u v).
Proof.
  intros A mul longest source window d u v He1 He2 Hle Hso Hd Hu Hv. unfold analyseScale.
  apply Z.even_spec in He1 as [a Ha]. pose proof He2 as Hw2. apply Z.even_spec in He2 as [b Hb].
  assert (E1 : longest / 2 = a) by (rewrite Ha, Z.mul_comm; by apply Z.div_mul). assert (E2 : zlen window / 2 = b) by (rewrite Hb, Z.mul_comm; by apply Z.div_mul).
  assert (E3 : (longest - zlen window) / 2 = a - b) by (rewrite Ha, Hb; replace (2 * a - 2 * b) with ((a - b) * 2) by lia; by apply Z.div_mul).
  pose proof (zlen_nonneg window). rewrite E3. rewrite (proj2 (Z.leb_le 0 (a - b))), (proj2 (Z.leb_le (a - b + zlen window) _)) by lia. cbn [andb].
  set (x := zip_with mul _ window). assert (Hx : zlen x = zlen window) by (unfold x, zlen in *; rewrite zip_with_length, drop_length; lia).
  destruct (fftshift_centre x d) as (t & E & Hl & Hg & _); [by rewrite Hx|by rewrite Hx|]. exists t. split; [done|]. rewrite Hx in Hl, Hg. split; [done|].
  rewrite Hg, E2. rewrite E1 in Hu. rewrite E2 in Hv. rewrite E2 in Hd. rewrite getZ_at in Hu, Hv |- * by lia. unfold x. rewrite lookup_zip_with, lookup_drop.
  replace (Z.to_nat (a - b) + Z.to_nat (b + d))%nat with (Z.to_nat (a + d)) by lia. by rewrite Hu, Hv.
Qed.
Print Assumptions C52_scales_aligned.

(** And back: what the buffer has at [d] counted round goes, windowed, to [d] after the
    middle of the accumulator; the accumulator beyond the synthesis window is left alone. *)
Theorem C52_scales_mixed : forall {A} (add mul : A -> A -> A) acc frame window d,
  Z.even (zlen acc) = true -> Z.even (zlen frame) = true -> Z.even (zlen window) = true -> zlen window <= zlen frame -> zlen frame <= zlen acc ->
  - (zlen acc / 2) <= d < zlen acc / 2 ->
  exists r, synthesiseScale add mul acc frame window = Some r /\ zlen r = zlen acc /\
    (~ (- (zlen window / 2) <= d < zlen window / 2) -> getZ r (zlen acc / 2 + d) = getZ acc (zlen acc / 2 + d)) /\
    (forall p u v, - (zlen window / 2) <= d < zlen window / 2 -> getZ acc (zlen acc / 2 + d) = Some p -> getZ frame (d mod zlen frame) = Some u ->
      getZ window (zlen window / 2 + d) = Some v -> getZ r (zlen acc / 2 + d) = Some (add p (mul u v))).
Proof.
  intros A add mul acc frame window d He1 He2 He3 Hle1 Hle2 Hd. unfold synthesiseScale.
  pose proof He2 as Hfe. apply Z.even_spec in He1 as [a Ha]. apply Z.even_spec in He2 as [f Hf]. apply Z.even_spec in He3 as [b Hb].
  assert (E1 : zlen acc / 2 = a) by (rewrite Ha, Z.mul_comm; by apply Z.div_mul). assert (E2 : zlen frame / 2 = f) by (rewrite Hf, Z.mul_comm; by apply Z.div_mul).
  assert (E3 : zlen window / 2 = b) by (rewrite Hb, Z.mul_comm; by apply Z.div_mul).
  assert (E4 : (zlen frame - zlen window) / 2 = f - b) by (rewrite Hf, Hb; replace (2 * f - 2 * b) with ((f - b) * 2) by lia; by apply Z.div_mul).
  assert (E5 : (zlen acc - zlen window) / 2 = a - b) by (rewrite Ha, Hb; replace (2 * a - 2 * b) with ((a - b) * 2) by lia; by apply Z.div_mul).
  pose proof (zlen_nonneg window). destruct (fftshift_spec frame) as (t & E & Hl & _). rewrite E. cbn [mbind option_bind]. rewrite E4, E5.
  rewrite !(proj2 (Z.leb_le _ _)) by lia. cbn [andb]. eexists. split; [reflexivity|].
  set (m := zip_with add _ _). assert (Hm : zlen m = zlen window) by (unfold m, zlen in *; rewrite !zip_with_length, !drop_length; lia).
  assert (Hta : zlen (take (Z.to_nat (a - b)) acc) = a - b) by (unfold zlen in *; rewrite take_length; lia).
  split. { rewrite !zlen_app, Hm, Hta. unfold zlen in *. rewrite drop_length. lia. }
  rewrite E1, E3 in *. split.
  - intros Hn. rewrite !getZ_at by lia. unfold zlen in *. destruct (decide (d < - b)) as [Hlt|Hge].
    + rewrite lookup_app_l by lia. by rewrite lookup_take by lia.
    + rewrite lookup_app_r by lia. rewrite lookup_app_r by lia. rewrite lookup_drop. f_equal. lia.
  - intros p u v Hd2 Hp Hu Hv. destruct (fftshift_centre frame d Hfe) as (t' & E' & _ & _ & Hg); [lia|]. rewrite E in E'. injection E' as <-. rewrite E2, Hu in Hg.
    rewrite getZ_at in Hp, Hv, Hg |- * by lia. unfold zlen in *. rewrite lookup_app_r by lia. rewrite lookup_app_l by lia. unfold m. rewrite !lookup_zip_with, !lookup_drop.
    replace (Z.to_nat (a - b) + (Z.to_nat (a + d) - length (take (Z.to_nat (a - b)) acc)))%nat with (Z.to_nat (a + d)) by lia. rewrite Hp.
    replace (Z.to_nat (f - b) + (Z.to_nat (a + d) - length (take (Z.to_nat (a - b)) acc)))%nat with (Z.to_nat (f + d)) by lia. rewrite Hg.
    replace (Z.to_nat (a + d) - length (take (Z.to_nat (a - b)) acc))%nat with (Z.to_nat (b + d)) by lia. by rewrite Hv.
Qed.
Print Assumptions C52_scales_mixed.

(** Window twice, equal to, and half the transform; then the two directions of the R3 engine. *)
Example C52_case :
  (forall a, 0 + a = a) /\
  fst <$> cutShiftAndFold 0 Z.add Z.mul [9;9;9;9] [1;2;3;4;5;6;7;8] [1;1;1;1;1;1;1;1] = Some [6;8;10;12] /\
  fst <$> cutShiftAndFold 0 Z.add Z.mul [9;9;9;9] [1;2;3;4] [2;2;2;2] = Some [6;8;2;4] /\
  fst <$> cutShiftAndFold 0 Z.add Z.mul [9;9;9;9;9;9] [1;2;3] [1;2;1] = Some [4;3;0;0;0;1] /\
  unfold 0 Z.add [9;9;9] [4;3;0;0;0;1] = Some [1;4;3] /\
  analyseScale Z.mul 8 [0;1;2;3;4;5;6;7;8;9] [1;2;3;1] = Some [12;5;2;6] /\
  synthesiseScale Z.add Z.mul [1;1;1;1;1;1;1;1] [12;5;2;6] [1;1] = Some [1;1;1;7;13;1;1;1].
Proof. split; [done|]. vm_compute. by repeat split. Qed.

(** What the hypotheses leave out is false of the code: with equal odd sizes the last place is
    never written, and a window of one sample writes beyond the buffer.  (Neither size is
    reached through the interface: transform sizes are powers of two.) *)
Theorem C52_fold_odd_refuted : exists target src window : list Z, zlen target = 3 /\ zlen window = 3 /\ zlen src = 3 /\
  exists t, cutShiftAndFold 0 Z.add Z.mul target src window = Some (t, zip_with Z.mul src window) /\ ~ folded 0 Z.add (zip_with Z.mul src window) t.
Proof.
  exists [9;9;9], [1;2;3], [1;1;1]. do 3 (split; [done|]). eexists. split; [vm_compute; reflexivity|]. intros H. specialize (H 2 ltac:(vm_compute; done)). vm_compute in H. discriminate.
Qed.
Print Assumptions C52_fold_odd_refuted.
Theorem C52_fold_single_refuted : exists target src window : list Z, zlen target = 2 /\ zlen window = 1 /\ zlen src = 1 /\
  cutShiftAndFold 0 Z.add Z.mul target src window = None.
Proof. exists [9;9], [1], [1]. vm_compute. by repeat split. Qed.
Print Assumptions C52_fold_single_refuted.
