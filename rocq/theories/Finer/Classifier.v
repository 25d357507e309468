(** Proofs about the classifier. *)
From stdpp Require Import prelude list numbers.
From Coq Require Import ZArith QArith Lia.
From Verif Require Import RingBuffer.Model Filters.Model Filters.Spec Filters.MMProofs Finer.SegmenterModel Finer.ClassifierModel Finer.ClassifierSpec.
From stdpp Require Import list.
Local Close Scope Q_scope.
Local Open Scope nat_scope.

Lemma above_spec x thr : if above x thr then (thr < x)%Q else ~ (thr < x)%Q.
Proof.
  unfold above. destruct (Qle_bool x thr) eqn:E; cbn [negb].
  - apply Qle_bool_iff in E. by apply Qle_not_lt.
  - apply Qnot_le_lt. intros H. apply Qle_bool_iff in H. congruence.
Qed.
Lemma judge_ok P h v : verdict P h v (judge P h v).
Proof.
  unfold judge, verdict, exceeds. pose proof (above_spec (inject_Z h / inject_Z (v + eps P)) (harmonicThreshold P)) as A.
  pose proof (above_spec (inject_Z v / inject_Z (h + eps P)) (percussiveThreshold P)) as B.
  destruct (above _ (harmonicThreshold P)); [by left|]. destruct (above _ (percussiveThreshold P)); [by right; left|by right; right].
Qed.
Section cls.
  Context (P : parameters).
  Local Notation n := (binCount P).
  Local Notation lag := (horizontalFilterLag P).
  Local Notation hl := (horizontalFilterLength P).
  Local Notation vl := (verticalFilterLength P).
  Context (Hh : 1 <= hl) (Hv : 1 <= vl).

  (** The vertical medians of frame number [k] minus [lag], or zeros. *)
  Definition smooth (fs : list (list Z)) (k : nat) (fr : list Z) : Prop :=
    length fr = n /\ forall i, i < n -> exists x, fr !! i = Some x /\
      (if decide (k < lag) then x = 0%Z else median (centred vl (nth (k - lag) fs []) i) x).
  Record inv (fs : list (list Z)) (s : classifier) : Prop := Inv {
    in_len : Forall (fun f => length f = n) fs;
    in_h : length (hFilters s) = n;
    in_hs : forall i f, hFilters s !! i = Some f -> mm_inv id hl f (lastValues hl i fs) /\ percentile f = None;
    in_v : exists w, mm_inv id vl (vFilter s) w;
    in_vp : percentile (vFilter s) = None;
    in_q : length (vfQueue s) = lag;
    in_nd : NoDup (vf s :: vfQueue s);
    in_own : forall a, is_Some (frameOf (heap s) a) <-> a ∈ vf s :: vfQueue s;
    in_vf : exists fr, frameOf (heap s) (vf s) = Some fr /\ length fr = n;
    in_fr : forall p a, vfQueue s !! p = Some a -> exists fr, frameOf (heap s) a = Some fr /\ smooth fs (length fs + p) fr
  }.

  Lemma alloc_block h m a : frameOf (fst (alloc h m)) a = if decide (a = length h) then Some (replicate m 0%Z) else frameOf h a.
  Proof.
    unfold frameOf, alloc. cbn [fst]. case_decide as Ha.
    - subst. by rewrite list_lookup_middle.
    - destruct (decide (a < length h)); [by rewrite lookup_app_l|]. rewrite !lookup_ge_None_2; [done|lia|rewrite app_length; cbn; lia].
  Qed.
  Lemma block_lt h a : is_Some (frameOf h a) -> a < length h.
  Proof. unfold frameOf. intros [x Hx]. destruct (h !! a) eqn:E; [|done]. by eapply lookup_lt_Some. Qed.
  (** Filling the queue adds fresh zeroed blocks. *)
  Lemma fill_ok k : forall h q, length q + k <= lag -> exists h' q', fillQueue n lag k h q = Some (h', q ++ q') /\ length q' = k /\ NoDup q' /\
    (forall a, a ∈ q' -> length h <= a /\ frameOf h' a = Some (replicate n 0%Z)) /\ (forall a, a < length h -> frameOf h' a = frameOf h a) /\
    (forall a, is_Some (frameOf h' a) -> a ∈ q' \/ is_Some (frameOf h a)) /\ length h <= length h'.
  Proof.
    induction k as [|k IH]; intros h q Hq; cbn [fillQueue].
    - exists h, []. rewrite app_nil_r. split; [done|]. split; [done|]. split; [constructor|]. split; [intros a Ha; by apply not_elem_of_nil in Ha|]. split; [done|]. split; [by right|done].
    - destruct (alloc h n) as [h1 a1] eqn:E. rewrite decide_True by lia. assert (Ea : a1 = length h) by (unfold alloc in E; congruence). assert (Hl1 : length h1 = S (length h)) by (unfold alloc in E; injection E as <- _; rewrite app_length; cbn; lia).
      assert (Eh : forall a, frameOf h1 a = if decide (a = length h) then Some (replicate n 0%Z) else frameOf h a) by (intros a; rewrite <- alloc_block, E; done).
      destruct (IH h1 (q ++ [a1])) as (h' & q' & E' & Hl' & Hnd & H1 & H2 & H3 & H4); [rewrite app_length; cbn; lia|].
      exists h', (a1 :: q'). rewrite E', <- (assoc_L (++)). split; [done|]. split; [cbn; lia|].
      assert (Hb1 : frameOf h' a1 = Some (replicate n 0%Z)) by (rewrite H2 by lia; rewrite Eh; by rewrite decide_True).
      split; [|split; [|split; [|split]]].
      + constructor; [|done]. intros Hin. destruct (H1 a1 Hin) as [? _]. lia.
      + intros a Ha. apply elem_of_cons in Ha as [->|Ha]; [split; [lia|done]|]. destruct (H1 a Ha). split; [lia|done].
      + intros a Ha. rewrite H2 by lia. rewrite Eh. by rewrite decide_False by lia.
      + intros a Ha. destruct (H3 a Ha) as [Hx|Hx]; [left; by right|]. rewrite Eh in Hx. case_decide as Hd; [left; subst; by left|by right].
      + lia.
  Qed.
  Lemma free_ok q : forall h, NoDup q -> (forall a, a ∈ q -> is_Some (frameOf h a)) ->
    exists h', freeQueue h q = Some h' /\ length h' = length h /\ forall a, frameOf h' a = if decide (a ∈ q) then None else frameOf h a.
  Proof.
    induction q as [|a q IH]; intros h Hnd Hin; cbn [freeQueue].
    - exists h. split; [done|]. split; [done|]. intros b. rewrite decide_False; [done|apply not_elem_of_nil].
    - apply NoDup_cons in Hnd as [Ha Hnd]. pose proof (Hin a ltac:(by left)) as Hb. pose proof (block_lt _ _ Hb) as Hlt.
      assert (Ed : dealloc h a = Some (<[a := None]> h)) by (unfold dealloc; unfold frameOf in Hb; destruct (h !! a) as [[?|]|]; [done|by destruct Hb|by destruct Hb]).
      rewrite Ed. change (Some ?x ≫= ?f) with (f x). cbv beta iota.
      assert (Eb : forall b, frameOf (<[a := None]> h) b = if decide (b = a) then None else frameOf h b).
      { intros b. unfold frameOf. case_decide as Hd; [subst; by rewrite list_lookup_insert|]. by rewrite list_lookup_insert_ne. }
      destruct (IH (<[a := None]> h) Hnd) as (h' & E & El & Hb').
      { intros b Hbq. rewrite Eb. rewrite decide_False by congruence. apply Hin. by right. }
      exists h'. split; [done|]. split; [by rewrite El, insert_length|]. intros b. rewrite Hb', Eb. repeat case_decide; try done; exfalso; rewrite elem_of_cons in *; naive_solver.
  Qed.

  Lemma lastValues_nil i : lastValues hl i [] = [].
  Proof. done. Qed.
  Lemma smooth_zero k : k < lag -> smooth [] k (replicate n 0%Z).
  Proof. intros Hk. split; [by rewrite replicate_length|]. intros i Hi. exists 0%Z. rewrite lookup_replicate_2 by done. by rewrite decide_True. Qed.
  Lemma create_ok : exists s, create P = Some s /\ inv [] s.
  Proof using Hh Hv.
    unfold create. destruct (alloc [] n) as [h a] eqn:E. assert (Ea : a = 0) by (unfold alloc in E; cbn in E; congruence). assert (Eh : h = [Some (replicate n 0%Z)]) by (unfold alloc in E; cbn in E; congruence). subst.
    destruct (fill_ok lag [Some (replicate n 0%Z)] []) as (h' & q & Eq & Hl & Hnd & H1 & H2 & H3 & H4); [cbn; lia|]. rewrite Eq. cbn [app] in *. change (Some ?x ≫= ?f) with (f x). cbv beta iota.
    eexists. split; [done|]. assert (H0 : frameOf h' 0 = Some (replicate n 0%Z)) by (rewrite H2 by (cbn; lia); done).
    constructor; cbn [hFilters vFilter heap vfQueue vf].
    - constructor.
    - by rewrite replicate_length.
    - intros i f Hf. apply lookup_replicate in Hf as [-> _]. split; [|done]. rewrite lastValues_nil. exact (mm_new_inv id no_nan 0%Z _ None).
    - exists []. exact (mm_new_inv id no_nan 0%Z _ None).
    - done.
    - done.
    - constructor; [|done]. intros Hin. destruct (H1 0 Hin) as [Hlt _]. cbn in Hlt. lia.
    - intros b. split.
      + intros Hb. destruct (H3 b Hb) as [Hx|Hx]; [by right|]. apply block_lt in Hx. cbn in Hx. assert (b = 0) as -> by lia. by left.
      + intros Hb. apply elem_of_cons in Hb as [->|Hb]; [by rewrite H0|]. destruct (H1 b Hb) as [_ ->]. done.
    - exists (replicate n 0%Z). split; [done|]. by rewrite replicate_length.
    - intros p b Hb. exists (replicate n 0%Z). split; [by apply H1; eapply elem_of_list_lookup_2|]. apply smooth_zero. apply lookup_lt_Some in Hb. cbn. lia.
  Qed.
  Lemma reset_ok fs s : inv fs s -> exists s', reset P s = Some s' /\ inv [] s'.
  Proof.
    intros [I1 I2 I3 (w & I4) I5 I6 I7 I8 (fr & I9 & I10) I11]. unfold reset. apply NoDup_cons in I7 as [Hn Hnd].
    destruct (free_ok (vfQueue s) (heap s) Hnd) as (h1 & E1 & El1 & Hb1); [intros a Ha; apply I8; by right|]. rewrite E1. change (Some ?x ≫= ?f) with (f x). cbv beta iota.
    destruct (fill_ok lag h1 []) as (h' & q & Eq & Hl & Hnd' & H1 & H2 & H3 & H4); [cbn; lia|]. rewrite Eq. cbn [app]. change (Some ?x ≫= ?f) with (f x). cbv beta iota.
    eexists. split; [done|]. assert (Hvf : frameOf h1 (vf s) = Some fr) by (rewrite Hb1; by rewrite decide_False).
    assert (Hlt : vf s < length h1) by (apply block_lt; by rewrite Hvf).
    constructor; cbn [hFilters vFilter heap vfQueue vf].
    - constructor.
    - by rewrite map_length.
    - intros i f Hf. apply (list_lookup_fmap_inv (mm_reset 0%Z)) in Hf as (f0 & -> & Hf0). destruct (I3 i f0 Hf0) as [J1 J2]. rewrite lastValues_nil. split; [exact (mm_reset_inv id no_nan 0%Z _ _ _ J1)|done].
    - eauto.
    - done.
    - done.
    - constructor; [|done]. intros Hin. destruct (H1 _ Hin) as [Hle _]. lia.
    - intros b. split.
      + intros Hb. destruct (H3 b Hb) as [Hx|Hx]; [by right|]. rewrite Hb1 in Hx. case_decide as Hd; [by destruct Hx|]. apply I8 in Hx. apply elem_of_cons in Hx as [->|Hx]; [by left|done].
      + intros Hb. apply elem_of_cons in Hb as [->|Hb]; [by rewrite H2, Hvf|]. destruct (H1 b Hb) as [_ ->]. done.
    - exists fr. split; [by rewrite H2|done].
    - intros p b Hb. exists (replicate n 0%Z). split; [by apply H1; eapply elem_of_list_lookup_2|]. apply smooth_zero. apply lookup_lt_Some in Hb. cbn. lia.
  Qed.

  Lemma lastValues_snoc i fs f : lastValues hl i (fs ++ [f]) = slide hl (lastValues hl i fs) (nth i f 0%Z).
  Proof.
    unfold lastValues, slide. cbv zeta. rewrite map_app, !app_length. cbn [map length]. rewrite drop_length, map_length.
    destruct (decide (length fs <= hl)) as [Hle|Hle].
    - replace (length fs - hl) with 0 by lia. rewrite drop_0. f_equal. lia.
    - replace (length fs - (length fs - hl) + 1 - hl) with 1 by lia. replace (length fs + 1 - hl) with ((length fs - hl) + 1) by lia.
      rewrite <- drop_drop. f_equal. rewrite drop_app_le by (rewrite map_length; lia). done.
  Qed.
  Lemma lastValues_ne i fs f : lastValues hl i (fs ++ [f]) <> [].
  Proof. rewrite lastValues_snoc. unfold slide. intros H. apply (f_equal length) in H. rewrite drop_length, app_length in H. cbn in H. lia. Qed.
  (** The horizontal medians. *)
  Lemma pushAll_ok mag fs : forall hs k, length hs + k <= length mag ->
    (forall i f, hs !! i = Some f -> mm_inv id hl f (lastValues hl (k + i) fs) /\ percentile f = None) ->
    exists hs' ys, pushAll hs (drop k mag) = Some (hs', ys) /\ length hs' = length hs /\ length ys = length hs /\
      (forall i f, hs' !! i = Some f -> mm_inv id hl f (lastValues hl (k + i) (fs ++ [mag])) /\ percentile f = None) /\
      (forall i y, ys !! i = Some y -> median (lastValues hl (k + i) (fs ++ [mag])) y).
  Proof using Hh Hv.
    induction hs as [|f hs IH]; intros k Hk Hi.
    - exists [], []. destruct (drop k mag); done.
    - cbn [length] in Hk. destruct (lookup_lt_is_Some_2 mag k) as [x Hx]; [lia|]. rewrite (drop_S _ _ _ Hx). cbn [pushAll].
      destruct (Hi 0 f eq_refl) as [J1 J2]. rewrite Nat.add_0_r in J1.
      destruct (mm_push_inv id no_nan 0%Z hl f _ x Hh J1) as (f' & -> & J3 & J4). cbn [mbind option_bind].
      assert (Ex : nth k mag 0%Z = x) by (by apply nth_lookup_Some with (d := 0%Z) in Hx).
      assert (J3' : mm_inv id hl f' (lastValues hl k (fs ++ [mag]))) by (rewrite lastValues_snoc, Ex; exact J3).
      destruct (mm_get_spec id no_nan 0%Z hl f' _ J3' (lastValues_ne _ _ _)) as (y & -> & Hy); [by rewrite J4, J2|]. cbn [mbind option_bind].
      destruct (IH (S k)) as (hs' & ys & -> & L1 & L2 & K1 & K2); [lia| |].
      { intros i g Hg. replace (S k + i) with (k + S i) by lia. by apply Hi. }
      cbn [mbind option_bind]. exists (f' :: hs'), (y :: ys). split; [done|]. split; [cbn; lia|]. split; [cbn; lia|]. split.
      + intros [|i] g Hg; cbn in Hg.
        * injection Hg as <-. rewrite Nat.add_0_r. split; [done|congruence].
        * replace (k + S i) with (S k + i) by lia. by apply K1.
      + intros [|i] z Hz; cbn in Hz.
        * injection Hz as <-. rewrite Nat.add_0_r. unfold median. rewrite J4, J2 in Hy. cbn [mm_rank] in Hy. by rewrite map_id in Hy.
        * replace (k + S i) with (S k + i) by lia. by apply K2.
  Qed.
  (** The vertical medians. *)
  Lemma filter_ok f w v : mm_inv id vl f w -> percentile f = None ->
    exists f' v', mm_filter id no_nan 0%Z f v = Some (f', v') /\ length v' = length v /\ (exists w', mm_inv id vl f' w') /\ percentile f' = None /\
      forall i, i < length v -> exists x, v' !! i = Some x /\ median (centred vl v i) x.
  Proof using Hh Hv.
    intros Hi Hp. pose proof (mm_reset_inv id no_nan 0%Z vl f _ Hi) as Hi0. unfold mm_filter. rewrite (mm_inv_size id no_nan 0%Z vl _ _ Hi0).
    destruct (mm_filter_loop_spec id no_nan 0%Z vl v None Hv I (length v + vl / 2) 0 (mm_reset 0%Z f) v) as (f' & v' & A & B & C & D & E); try done.
    { intros i Hi1. lia. }
    exists f', v'. split; [done|]. split; [done|]. split; [done|]. split; [done|]. intros i Hil. destruct (E i Hil) as (x & Hx & Hk). exists x. split; [done|].
    unfold median. assert (Em : map (denan no_nan 0%Z) v = v) by (clear; induction v as [|a v IH]; [done|]; cbn; by rewrite IH). rewrite Em in Hk. cbn [mm_rank] in Hk. by rewrite map_id in Hk.
  Qed.
  Lemma nth_snoc_lt (fs : list (list Z)) f k : k < length fs -> nth k (fs ++ [f]) [] = nth k fs [].
  Proof. intros H. by rewrite app_nth1. Qed.
  Lemma smooth_snoc fs f k fr : k < length fs + lag -> smooth fs k fr -> smooth (fs ++ [f]) k fr.
  Proof.
    intros Hk [H1 H2]. split; [done|]. intros i Hi. destruct (H2 i Hi) as (x & Hx & Hm). exists x. split; [done|].
    case_decide; [done|]. rewrite nth_snoc_lt by lia. done.
  Qed.
  Lemma classify_ok fs s mag : inv fs s -> n <= length mag ->
    exists s' r, classify P s mag = Some (s', r) /\ inv (fs ++ [take n mag]) s' /\ frame_class P (fs ++ [take n mag]) r.
  Proof using Hh Hv.
    intros [I1 I2 I3 (w & I4) I5 I6 I7 I8 (fr & I9 & I10) I11] Hm. unfold classify. cbv zeta. set (m := take n mag).
    assert (Hml : length m = n) by (unfold m; rewrite take_length; lia).
    assert (Hpush : forall hs k, length hs + k <= n -> pushAll hs (drop k mag) = pushAll hs (drop k m)).
    { induction hs as [|f hs IH]; intros k Hk; [by destruct (drop k mag), (drop k m)|]. cbn [length] in Hk.
      destruct (lookup_lt_is_Some_2 mag k) as [x Hx]; [lia|]. assert (Hx' : m !! k = Some x) by (unfold m; by rewrite lookup_take by lia).
      rewrite (drop_S _ _ _ Hx), (drop_S _ _ _ Hx'). cbn [pushAll]. by rewrite IH by lia. }
    specialize (Hpush (hFilters s) 0 ltac:(lia)). rewrite !drop_0 in Hpush. rewrite Hpush.
    destruct (pushAll_ok m fs (hFilters s) 0) as (hs' & ys & E & L1 & L2 & K1 & K2); [lia|done|]. rewrite drop_0 in E. rewrite E. change (Some ?x ≫= ?f) with (f x). cbv beta iota.
    rewrite I9. change (Some ?x ≫= ?f) with (f x). cbv beta iota. rewrite decide_False by lia.
    destruct (filter_ok (vFilter s) w m I4 I5) as (f' & v' & -> & F1 & F2 & F3 & F4). change (Some ?x ≫= ?f) with (f x). cbv beta iota.
    assert (Ed : drop n fr = []) by (apply drop_ge; lia). rewrite Ed, app_nil_r. set (h' := <[vf s := Some v']> (heap s)).
    assert (Hlt : vf s < length (heap s)) by (apply block_lt; by rewrite I9).
    assert (Hb : forall a, frameOf h' a = if decide (a = vf s) then Some v' else frameOf (heap s) a).
    { intros a. unfold frameOf, h'. case_decide as Hd; [subst; by rewrite list_lookup_insert|]. by rewrite list_lookup_insert_ne. }
    assert (Hsm : smooth (fs ++ [m]) (length fs + lag) v').
    { split; [lia|]. intros i Hi. destruct (F4 i ltac:(lia)) as (x & Hx & Hmed). exists x. split; [done|]. rewrite decide_False by lia.
      replace (length fs + lag - lag) with (length fs) by lia. rewrite app_nth2 by lia. replace (length fs - length fs) with 0 by lia. done. }
    assert (Hins : length fs < length (fs ++ [m])) by (rewrite app_length; cbn; lia).
    (* the frame that is compared with *)
    set (nxt := if decide (0 < lag) then _ else _).
    assert (Hnxt : exists q v frame, nxt = Some (q, v) /\ length q = lag /\ NoDup (v :: q) /\ (forall a, a ∈ v :: q <-> a ∈ vf s :: vfQueue s) /\
      frameOf h' v = Some frame /\ smooth (fs ++ [m]) (length fs) frame /\
      (forall p a, q !! p = Some a -> exists fr, frameOf h' a = Some fr /\ smooth (fs ++ [m]) (length (fs ++ [m]) + p) fr)).
    { unfold nxt. case_decide as Hl.
      - destruct (vfQueue s) as [|a q] eqn:Eq; [cbn in I6; lia|]. cbn [length] in I6. rewrite decide_True by lia.
        destruct (I11 0 a eq_refl) as (fra & Ha1 & Ha2). rewrite Nat.add_0_r in Ha2. apply NoDup_cons in I7 as [N1 N2]. apply NoDup_cons in N2 as [N2 N3].
        assert (Hav : a <> vf s) by (intros ->; apply N1; by left).
        exists (q ++ [vf s]), a, fra. split; [done|]. split; [rewrite app_length; cbn; lia|].
        split; [|split; [|split; [|split]]].
        + constructor.
          * rewrite elem_of_app, elem_of_list_singleton. intros [?|?]; [done|congruence].
          * apply NoDup_app. split; [done|]. split; [|apply NoDup_singleton]. intros b Hbq Hbs. apply elem_of_list_singleton in Hbs as ->. apply N1. by right.
        + intros b. rewrite !elem_of_cons, elem_of_app, elem_of_list_singleton. tauto.
        + rewrite Hb. by rewrite decide_False.
        + apply smooth_snoc; [lia|done].
        + intros p b Hpb. destruct (decide (p < length q)) as [Hp|Hp].
          * rewrite lookup_app_l in Hpb by done. destruct (I11 (S p) b Hpb) as (frb & Hb1 & Hb2). exists frb. split.
            -- rewrite Hb. rewrite decide_False; [done|]. intros Hbv. apply N1. rewrite <- Hbv. right. by eapply elem_of_list_lookup_2.
            -- rewrite app_length. cbn [length]. replace (length fs + 1 + p) with (length fs + S p) by lia. apply smooth_snoc; [lia|done].
          * rewrite lookup_app_r in Hpb by lia. apply list_lookup_singleton_Some in Hpb as [Hp0 Hpb]. exists v'. split; [rewrite Hb; by rewrite decide_True by done|].
            rewrite app_length. cbn [length]. replace (length fs + 1 + p) with (length fs + lag) by lia. done.
      - exists (vfQueue s), (vf s), v'. split; [done|]. split; [done|]. split; [done|]. split; [done|]. split; [rewrite Hb; by rewrite decide_True|].
        split; [assert (El0 : lag = 0) by lia; rewrite El0, Nat.add_0_r in Hsm; exact Hsm|]. intros p a Hpa. apply lookup_lt_Some in Hpa. lia. }
    clearbody nxt. destruct Hnxt as (q & v & frame & -> & Q1 & Q2 & Q3 & Q4 & Q5 & Q6). change (Some ?x ≫= ?f) with (f x). cbv beta iota.
    rewrite Q4. change (Some ?x ≫= ?f) with (f x). cbv beta iota. destruct Q5 as [Q5 Q5']. rewrite decide_False by lia. eexists _, _. split; [done|]. split.
    - constructor; cbn [hFilters vFilter heap vfQueue vf].
      + apply Forall_app. split; [done|]. by repeat constructor.
      + lia.
      + intros i f Hf. exact (K1 i f Hf).
      + done.
      + done.
      + done.
      + done.
      + intros a. rewrite Q3, <- I8, Hb. destruct (decide (a = vf s)) as [Hd|Hd]; [|reflexivity]. subst a. rewrite I9. split; intros _; eauto.
      + eauto.
      + done.
    - assert (Etk : take n frame = frame) by (apply take_ge; lia). rewrite Etk. split; [rewrite zip_with_length; lia|]. intros i c Hc. apply lookup_zip_with_Some in Hc as (y & x & -> & Hy & Hx).
      exists y, x. split; [exact (K2 i y Hy)|]. split; [|apply judge_ok]. destruct (Q5' i) as (x' & Hx' & Hmed); [apply lookup_lt_Some in Hy; lia|]. assert (x' = x) as -> by congruence.
      rewrite app_length. cbn [length]. replace (length fs + 1 - 1 - lag) with (length fs - lag) by lia. repeat case_decide; try lia; done.
  Qed.
  Lemma run_ok : forall l fs s, inv fs s -> Forall (enough P) l -> exists s' rs fs', run P s l = Some (s', rs) /\ history_class P fs l rs /\ inv fs' s'.
  Proof using Hh Hv.
    induction l as [|[mag|] l IH]; intros fs s Hs Hl; cbn [run history_class].
    - exists s, [], fs. done.
    - apply Forall_cons in Hl as [H1 H2]. destruct (classify_ok fs s mag Hs H1) as (s1 & r & -> & Hs1 & Hr). cbn [mbind option_bind].
      destruct (IH _ _ Hs1 H2) as (s' & rs & fs' & -> & Hrs & Hs'). cbn [mbind option_bind]. exists s', (r :: rs), fs'. done.
    - apply Forall_cons in Hl as [H1 H2]. destruct (reset_ok fs s Hs) as (s1 & -> & Hs1). cbn [mbind option_bind].
      destruct (IH _ _ Hs1 H2) as (s' & rs & fs' & -> & Hrs & Hs'). exists s', rs, fs'. done.
  Qed.
  Lemma live_own fs s : inv fs s -> live (heap s) ≡ₚ vf s :: vfQueue s.
  Proof.
    intros [_ _ _ _ _ _ Hnd Hown _ _]. apply NoDup_Permutation; [apply NoDup_filter, NoDup_seq|done|]. intros a. unfold live. rewrite elem_of_list_filter, elem_of_seq, Hown.
    split; [tauto|]. intros Ha. split; [done|]. apply Hown, block_lt in Ha. lia.
  Qed.
  Lemma history l : Forall (enough P) l -> exists s0 s rs, create P = Some s0 /\ run P s0 l = Some (s, rs) /\ history_class P [] l rs /\
    length (live (heap s)) = S lag /\ NoDup (vf s :: vfQueue s) /\ live (heap s) ≡ₚ vf s :: vfQueue s.
  Proof using Hh Hv.
    intros Hl. destruct create_ok as (s0 & E0 & H0). destruct (run_ok l [] s0 H0 Hl) as (s & rs & fs & E & Hr & Hs). exists s0, s, rs. split; [done|]. split; [done|]. split; [done|].
    pose proof (live_own _ _ Hs) as Hp. split; [rewrite Hp; cbn; by rewrite (in_q _ _ Hs)|]. split; [by apply (in_nd _ _ Hs)|done].
  Qed.
End cls.
