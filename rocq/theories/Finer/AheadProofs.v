(** Frames are of the place the input has reached, readahead or not. *)
From stdpp Require Import prelude list numbers.
From Coq Require Import ZArith QArith Lia.
From Verif Require Import Base.Arith Finer.SegmenterModel Finer.GuideModel Finer.GuideProofs Finer.EngineModel Finer.EngineShape Finer.AheadModel Finer.AheadSpec.
From stdpp Require Import list.
Local Open Scope Z_scope.

(** What of shape and guide is used. *)
Definition allowed (E : shape) (h : Z) : Prop := exists q, h = inhopFor E q.
Record geometry (E : shape) (g : guide) (sizes : list Z) : Prop := Geometry {
  o_longest : 1 <= longest g; o_c : 0 < cfft g; o_mid : 0 <= middle g (cfft g); o_cw : middle g (cfft g) + cfft g <= windowSource E;
  o_hop : forall h, allowed E h -> 1 <= h <= windowSource E;
  o_ahead : forall h, allowed E h -> useReadahead E h = true -> middle g (cfft g) + h + cfft g <= windowSource E;
  o_bands : Forall (fun b => lfft b <> cfft g -> 0 <= middle g (lfft b) /\ 0 < lfft b /\ middle g (lfft b) + lfft b <= windowSource E) (bandLimit g);
  o_sizes : (lfft <$> filter (fun b => lfft b <> cfft g) (bandLimit g)) ++ [cfft g] = sizes
}.

Section proofs.
  Context {A B : Type} (zero : A) (analyse : Z -> list A -> B) (scale : Z -> B -> B) (E : shape) (g : guide) (sizes : list Z) (G : geometry E g sizes).
  Notation stretchOf := (stretchOf zero).
  Notation Len x := (Z.of_nat (length x)).
  Notation centred := (centred zero analyse scale sizes (longest g) (cfft g) (useReadahead E)).
  Notation ws := (windowSource E).
  Notation c := (cfft g).

  Lemma stretch_lookup X from n i : 0 <= n -> (i < Z.to_nat n)%nat -> stretchOf X from n !! i = Some (soundAt zero X (from + Z.of_nat i)).
  Proof. intros Hn Hi. unfold AheadSpec.stretchOf. rewrite list_lookup_fmap, (proj2 (lookup_seqZ 0 n i (Z.of_nat i))) by lia. reflexivity. Qed.
  Lemma stretch_length X from n : length (stretchOf X from n) = Z.to_nat n.
  Proof. unfold AheadSpec.stretchOf. by rewrite fmap_length, seqZ_length. Qed.
  Lemma stretch_same X X' from from' n : (forall k, 0 <= k < n -> soundAt zero X (from + k) = soundAt zero X' (from' + k)) -> stretchOf X from n = stretchOf X' from' n.
  Proof. intros H. unfold AheadSpec.stretchOf. apply list_fmap_ext. intros i k Hk%lookup_seqZ. apply H. lia. Qed.
  Lemma stretch_more X Y from n : 0 <= from -> from + n <= Len X -> stretchOf (X ++ Y) from n = stretchOf X from n.
  Proof. intros H1 H2. apply stretch_same. intros k Hk. unfold soundAt. destruct (Z.ltb_spec (from + k) 0); [lia|]. rewrite lookup_app_l by lia. reflexivity. Qed.
  Lemma stretch_end X from from' n : Len X <= from -> Len X <= from' -> stretchOf X from n = stretchOf X from' n.
  Proof.
    intros H1 H2. apply stretch_same. intros k Hk. unfold soundAt. destruct (Z.ltb_spec (from + k) 0); [lia|]. destruct (Z.ltb_spec (from' + k) 0); [lia|].
    rewrite !lookup_ge_None_2 by lia. reflexivity.
  Qed.

  Lemma cut_ok X pos (s : chan A B) off n : 0 <= pos <= Len X -> input s = drop (Z.to_nat pos) X -> 0 <= off -> 0 <= n -> off + n <= ws ->
    cutAt (source zero E s) off n = Some (stretchOf X (pos + off) n).
  Proof.
    intros Hp Hi Ho Hn Hw.
    assert (HL : length (source zero E s) = Z.to_nat ws) by (unfold source; rewrite take_length, app_length, replicate_length; lia).
    unfold cutAt. rewrite HL. destruct (Z.leb_spec 0 off); [|lia]. destruct (Z.leb_spec 0 n); [|lia]. destruct (Z.leb_spec (off + n) (Z.of_nat (Z.to_nat ws))); [|lia]. cbn [andb]. f_equal.
    apply list_eq_same_length with (n := Z.to_nat n); [apply stretch_length|rewrite take_length, drop_length, HL; lia|].
    intros i x y Hin Ka Kb. rewrite stretch_lookup in Kb by lia. apply (inj Some) in Kb. subst y. rewrite lookup_take in Ka by lia. rewrite lookup_drop in Ka.
    unfold source in Ka. rewrite lookup_take in Ka by lia. rewrite Hi in Ka. unfold soundAt. destruct (Z.ltb_spec (pos + off + Z.of_nat i) 0); [lia|].
    replace (Z.to_nat (pos + off + Z.of_nat i)) with (Z.to_nat pos + (Z.to_nat off + i))%nat by lia.
    destruct (decide (Z.to_nat off + i < length (drop (Z.to_nat pos) X))%nat) as [Hl|Hl].
    - rewrite lookup_app_l in Ka by exact Hl. rewrite lookup_drop in Ka. rewrite Ka. reflexivity.
    - rewrite lookup_app_r in Ka by lia. apply lookup_replicate in Ka as [Ka _]. subst x. rewrite drop_length in Hl. rewrite lookup_ge_None_2 by lia. reflexivity.
  Qed.

  (** [open]: more may be supplied *)
  Record inv (open : bool) (X : list A) (pos : Z) (s : chan A B) : Prop := Inv {
    v_pos : 0 <= pos <= Len X; v_in : input s = drop (Z.to_nat pos) X; v_hop : allowed E (cinhop s); v_fill : 0 <= fill s <= longest g;
    v_ahead : have s = true -> useReadahead E (cprevInhop s) = true ->
      readahead s = analyse c (stretchOf X (pos + middle g c) c) /\ (open = true -> pos + middle g c + c <= Len X)
  }.
  Lemma others_ok X pos (s : chan A B) l : 0 <= pos <= Len X -> input s = drop (Z.to_nat pos) X ->
    Forall (fun b => lfft b <> c -> 0 <= middle g (lfft b) /\ 0 < lfft b /\ middle g (lfft b) + lfft b <= ws) l ->
    otherSpectra analyse scale g (source zero E s) l = Some ((fun n => (n, scale n (analyse n (stretchOf X (pos + middle g n) n)))) <$> (lfft <$> filter (fun b => lfft b <> c) l)).
  Proof.
    intros Hp Hi. induction l as [|b l IH]; intros Hl; [reflexivity|]. apply Forall_cons_1 in Hl as [Hb Hl]. cbn [otherSpectra]. rewrite (IH Hl).
    rewrite filter_cons. destruct (Z.eqb_spec (lfft b) c) as [Heq|Hne].
    - destruct (decide (lfft b <> c)); [done|]. reflexivity.
    - destruct (decide (lfft b <> c)); [|done]. destruct (Hb Hne) as (B1 & B2 & B3). rewrite (cut_ok X pos s) by (exact Hp || exact Hi || lia). reflexivity.
  Qed.
  Definition totals (r : list (seen B)) : Z := foldr (fun f n => moved f + n) 0 r.
  Lemma totals_app r r' : totals (r ++ r') = totals r + totals r'.
  Proof. induction r; cbn; [reflexivity|]. fold (totals (r ++ r')) (totals r). lia. Qed.
  Lemma centred_app X r r' : forall pos, centred X pos (r ++ r') <-> centred X pos r /\ centred X (pos + totals r) r'.
  Proof.
    induction r as [|f r IH]; intros pos; cbn [app AheadSpec.centred totals foldr].
    - rewrite Z.add_0_r. tauto.
    - fold (totals r). rewrite IH, Z.add_assoc. tauto.
  Qed.

  Definition measure (s : chan A B) : Z := if Len (input s) =? 0 then fill s else Len (input s) + longest g.
  Lemma frames_ok open X outhop : 1 <= outhop -> forall fuel s pos, inv open X pos s -> measure s < Z.of_nat fuel ->
    exists s' r, frames zero analyse scale E g fuel s (negb open) outhop = Some (s', r) /\
      inv open X (pos + totals r) s' /\ cmode s' = cmode s /\ (forall Y, (open = false -> Y = []) -> centred (X ++ Y) pos r).
  Proof.
    intros Ho. induction fuel as [|fuel IH]; intros s pos I Hf.
    { exfalso. destruct I. pose proof (o_longest _ _ _ G). unfold measure in Hf. destruct (Len (input s) =? 0); lia. }
    destruct I as [Ip Ii Ih If_ Ia]. cbn [frames].
    assert (HR : Len (input s) = Len X - pos) by (rewrite Ii, drop_length; lia).
    destruct ((Len (input s) <? ws) && (negb (negb open) || ((Len (input s) =? 0) && (fill s =? 0)))) eqn:Estop.
    { exists s, []. split; [reflexivity|]. split; [|split; [reflexivity|intros; exact I]]. cbn [totals foldr]. rewrite Z.add_0_r. constructor; assumption. }
    pose proof (o_hop _ _ _ G _ Ih) as Hhop. pose proof (o_mid _ _ _ G) as Hmid. pose proof (o_cw _ _ _ G) as Hcw. pose proof (o_c _ _ _ G) as Hc.
    set (h := cinhop s) in *.
    assert (Hopen : open = true -> ws <= Len (input s)) by (intros ->; cbn [negb orb] in Estop; rewrite andb_true_r in Estop; apply Z.ltb_ge in Estop; exact Estop).
    assert (Hgo : Len (input s) = 0 -> 0 < fill s).
    { intros E0. rewrite E0 in Estop. destruct (Z.ltb_spec 0 ws); [|lia]. cbn [andb Z.eqb] in Estop. apply orb_false_iff in Estop as [_ Ef]. apply Z.eqb_neq in Ef. lia. }
    (* analysis *)
    unfold analyseChannel. cbv zeta. fold h. rewrite (others_ok X pos s (bandLimit g) Ip Ii (o_bands _ _ _ G)).
    change (Some ?a ≫= ?f) with (f a). cbv beta iota.
    set (now := scale c (analyse c (stretchOf X (pos + middle g c) c))).
    assert (Hnow : (if useReadahead E h && have s && (h =? cprevInhop s) then Some (scale c (readahead s)) else x ← cutAt (source zero E s) (middle g c) c; Some (scale c (analyse c x))) = Some now).
    { destruct (useReadahead E h) eqn:Eu; cbn [andb].
      - destruct (have s) eqn:Eh; cbn [andb].
        + destruct (Z.eqb_spec h (cprevInhop s)) as [Heq|_].
          * rewrite Heq in Eu. destruct (Ia eq_refl Eu) as [-> _]. reflexivity.
          * rewrite (cut_ok X pos s) by (exact Ip || exact Ii || lia). reflexivity.
        + rewrite (cut_ok X pos s) by (exact Ip || exact Ii || lia). reflexivity.
      - rewrite (cut_ok X pos s) by (exact Ip || exact Ii || lia). reflexivity. }
    rewrite Hnow. change (Some ?a ≫= ?f) with (f a). cbv beta iota.
    set (next := if useReadahead E h then analyse c (stretchOf X (pos + (middle g c + h)) c) else readahead s).
    assert (Hnext : (if useReadahead E h then x ← cutAt (source zero E s) (middle g c + h) c; Some (analyse c x) else Some (readahead s)) = Some next).
    { unfold next. destruct (useReadahead E h) eqn:Eu; [|reflexivity]. pose proof (o_ahead _ _ _ G h Ih Eu). rewrite (cut_ok X pos s) by (exact Ip || exact Ii || lia). reflexivity. }
    rewrite Hnext. change (Some ?a ≫= ?f) with (f a). cbv beta iota. change (Some ?a ≫= ?f) with (f a). cbv beta iota. cbn [input cinhop have readahead cmode fill].
    set (adv := if Len (input s) <? h then Len (input s) else h).
    assert (Hadv : adv = Z.min h (Len (input s))) by (unfold adv; destruct (Z.ltb_spec (Len (input s)) h); lia).
    set (acc := if Len (input s) =? 0 then (if outhop <? fill s then fill s - outhop else 0) else longest g).
    assert (Hacc : 0 <= acc <= longest g).
    { unfold acc. pose proof (o_longest _ _ _ G). destruct (Len (input s) =? 0); [|lia]. destruct (Z.ltb_spec outhop (fill s)); lia. }
    clearbody adv.
    set (s1 := Chan (drop (Z.to_nat adv) (input s)) h h (useReadahead E h || have s) next acc (cmode s)).
    assert (L1 : Len (input s1) = Len (input s) - adv) by (cbn [input s1]; rewrite drop_length; lia).
    assert (I1 : inv open X (pos + adv) s1).
    { constructor; cbn [input cinhop cprevInhop have readahead fill s1].
      - lia.
      - rewrite Ii, drop_drop. f_equal. lia.
      - exact Ih.
      - exact Hacc.
      - intros _ Eu. unfold next. rewrite Eu. pose proof (o_ahead _ _ _ G h Ih Eu) as Hah. destruct (decide (h <= Len (input s))) as [Hle|Hgt].
        + assert (adv = h) as -> by lia. split; [f_equal; f_equal; lia|]. intros Eo. specialize (Hopen Eo). lia.
        + split; [f_equal; apply stretch_end; lia|]. intros Eo. specialize (Hopen Eo). lia. }
    assert (M1 : measure s1 < Z.of_nat fuel).
    { unfold measure in Hf |- *. rewrite L1. cbn [fill s1]. pose proof (o_longest _ _ _ G).
      destruct (Z.eqb_spec (Len (input s)) 0) as [E0|E0].
      - specialize (Hgo E0). destruct (Z.eqb_spec (Len (input s) - adv) 0); [|lia]. unfold acc. destruct (Z.eqb_spec (Len (input s)) 0); [|lia]. destruct (Z.ltb_spec outhop (fill s)); lia.
      - destruct (Z.eqb_spec (Len (input s) - adv) 0); lia. }
    destruct (IH s1 (pos + adv) I1 M1) as (s' & r & Er & I2 & Cm & Hc2). fold s1. rewrite Er. change (Some ?a ≫= ?f) with (f a). cbv beta iota.
    eexists s', _. split; [reflexivity|]. cbn [totals foldr moved]. fold (totals r). rewrite Z.add_assoc. split; [exact I2|]. split; [exact Cm|].
    intros Y HY. cbn [AheadSpec.centred spectra judged ofHop moved]. cbv zeta. specialize (Hc2 Y HY).
    assert (Hst : forall from n, 0 <= from -> from + n <= pos + ws -> stretchOf (X ++ Y) from n = stretchOf X from n).
    { intros from n H1 H2. destruct open; [specialize (Hopen eq_refl); apply stretch_more; lia|]. rewrite (HY eq_refl), app_nil_r. reflexivity. }
    split; [|split; [|split; [|exact Hc2]]].
    - rewrite <- (o_sizes _ _ _ G), fmap_app. f_equal.
      + apply list_fmap_ext. intros i n Hi. f_equal. apply list_lookup_fmap_Some in Hi as (b & Hb & ->). apply elem_of_list_lookup_2, elem_of_list_filter in Hb as [Hb1 Hb2].
        pose proof (o_bands _ _ _ G) as HB. rewrite Forall_forall in HB. destruct (HB b Hb2 Hb1) as (B1 & B2 & B3). unfold middle in *. rewrite Hst by lia. reflexivity.
      + cbn [fmap list_fmap]. unfold now, middle in *. rewrite Hst by lia. reflexivity.
    - unfold next, now. destruct (useReadahead E h) eqn:Eu.
      + pose proof (o_ahead _ _ _ G h Ih Eu). unfold middle in *. rewrite Hst by lia. do 2 f_equal. lia.
      + unfold middle in *. rewrite Hst by lia. reflexivity.
    - rewrite Hadv, HR. destruct open.
      + specialize (Hopen eq_refl). rewrite app_length. lia.
      + rewrite (HY eq_refl), app_nil_r. reflexivity.
  Qed.

  Lemma write_inv open X pos (s : chan A B) x : inv true X pos s -> inv open (X ++ x) pos (write s x).
  Proof.
    intros [Ip Ii Ih If_ Ia]. pose proof (o_mid _ _ _ G). constructor; cbn [write input cinhop cprevInhop have readahead fill].
    - rewrite app_length. lia.
    - rewrite Ii. rewrite drop_app_le by lia. reflexivity.
    - exact Ih.
    - exact If_.
    - intros H1 H2. destruct (Ia H1 H2) as [-> H3]. specialize (H3 eq_refl). rewrite stretch_more by lia. split; [reflexivity|]. intros _. rewrite app_length. lia.
  Qed.
  Lemma consume_ok open X pos (s : chan A B) x outhop : 1 <= outhop -> inv true X pos s ->
    exists s' r, consume zero analyse scale E g (write s x) (negb open) outhop = Some (s', r) /\
      inv open (X ++ x) (pos + totals r) s' /\ cmode s' = cmode s /\ (forall Y, (open = false -> Y = []) -> centred ((X ++ x) ++ Y) pos r).
  Proof.
    intros Ho I. apply (write_inv open _ _ _ x) in I. unfold consume. apply (frames_ok open (X ++ x) outhop Ho _ (write s x) pos I).
    unfold measure. pose proof (o_longest _ _ _ G). pose proof (v_fill _ _ _ _ I). destruct (Len (input (write s x)) =? 0); lia.
  Qed.
  Lemma pieces_ok l : Forall (fun p => 1 <= p.2 <= longest g) l -> forall X pos (s : chan A B), inv true X pos s ->
    exists s' r, pieces zero analyse scale E g s l = Some (s', r) /\
      inv true (X ++ concat (fst <$> l)) (pos + totals r) s' /\ cmode s' = cmode s /\ (forall Y, centred (X ++ concat (fst <$> l) ++ Y) pos r).
  Proof.
    induction l as [|[x o] l IH]; intros Hl X pos s I; cbn [pieces].
    - exists s, []. split; [reflexivity|]. cbn [fmap list_fmap concat totals foldr]. rewrite app_nil_r, Z.add_0_r. split; [exact I|]. split; [reflexivity|intros; exact Logic.I].
    - apply Forall_cons_1 in Hl as [Ho Hl]. cbn [snd] in Ho. destruct (consume_ok true X pos s x o ltac:(lia) I) as (s1 & r1 & E1 & I1 & C1 & H1). cbn [negb] in E1. rewrite E1.
      change (Some ?a ≫= ?f) with (f a). cbv beta iota. destruct (IH Hl _ _ _ I1) as (s2 & r2 & E2 & I2 & C2 & H2). rewrite E2. change (Some ?a ≫= ?f) with (f a). cbv beta iota.
      exists s2, (r1 ++ r2). split; [reflexivity|]. cbn [fmap list_fmap concat fst]. rewrite totals_app, Z.add_assoc. split; [by rewrite app_assoc|]. split; [congruence|].
      intros Y. apply centred_app. split.
      + specialize (H1 (concat (fst <$> l) ++ Y) ltac:(discriminate)). rewrite <- app_assoc in H1. rewrite <- app_assoc. exact H1.
      + specialize (H2 Y). rewrite <- app_assoc in H2. rewrite <- app_assoc. exact H2.
  Qed.

  Definition opened (X : list A) (pos : Z) (s : chan A B) : Prop := inv true X pos s /\ cmode s <> Finished /\ (cmode s = JustCreated -> have s = false).
  Definition closed_ (s : chan A B) : Prop := cmode s = Finished /\ allowed E (cinhop s).
  Lemma step_open X pos (s : chan A B) cl : opened X pos s -> hopsFit (longest g) cl -> withoutReset cl ->
    exists s' r, stepA zero analyse scale E g s cl = Some (s', r) /\
      match cl with
      | Block ps (Some (x, _)) => closed_ s' /\ centred (X ++ concat (fst <$> ps) ++ x) pos r
      | _ => opened (X ++ suppliedBy [cl]) (pos + totals r) s' /\ forall Y, centred (X ++ suppliedBy [cl] ++ Y) pos r
      end.
  Proof.
    intros (I & Hm & Hj) Hh Hw. destruct cl as [q|ps last|]; [| |destruct Hw].
    - cbn [stepA suppliedBy]. eexists _, []. split; [reflexivity|]. cbn [totals foldr]. rewrite app_nil_r, Z.add_0_r. split; [|intros; exact Logic.I].
      destruct I as [Ip Ii Ih If_ Ia]. split; [|split; [exact Hm|exact Hj]].
      constructor; cbn [input cinhop cprevInhop have readahead fill]; [exact Ip|exact Ii|by exists q|exact If_|]. intros H1 H2. destruct (cmode s) eqn:Em; try (apply Ia; assumption).
      rewrite (Hj eq_refl) in H1. discriminate H1.
    - destruct Hh as [Hh1 Hh2]. cbn [stepA]. destruct (pieces_ok ps Hh1 X pos s I) as (s1 & r1 & E1 & I1 & C1 & H1).
      assert (Hgo : forall k : option (chan A B * list (seen B)), match cmode s with Finished => Some (s, []) | _ => k end = k) by (intros k; destruct (cmode s); [reflexivity|reflexivity|reflexivity|destruct (Hm eq_refl)]).
      rewrite Hgo, E1. change (Some ?a ≫= ?f) with (f a). cbv beta iota. destruct last as [[x o]|].
      + cbn [snd] in Hh2. destruct (consume_ok false _ _ s1 x o ltac:(lia) I1) as (s2 & r2 & E2 & I2 & C2 & H2). cbn [negb] in E2. rewrite E2. change (Some ?a ≫= ?f) with (f a). cbv beta iota.
        eexists _, _. split; [reflexivity|]. split; [split; [reflexivity|exact (v_hop _ _ _ _ I2)]|]. apply centred_app. split; [exact (H1 x)|].
        specialize (H2 [] ltac:(reflexivity)). rewrite app_nil_r, <- app_assoc in H2. exact H2.
      + eexists _, _. split; [reflexivity|]. cbn [suppliedBy]. rewrite app_nil_r. split; [|exact H1]. split; [|split; [discriminate|discriminate]].
        destruct I1. constructor; assumption.
  Qed.
  Lemma run_closed l : Forall withoutReset l -> forall s, closed_ s -> exists s', runA zero analyse scale E g s l = Some (s', []) /\ closed_ s'.
  Proof.
    induction l as [|cl l IH]; intros Hw s Hs; cbn [runA]; [eauto|]. apply Forall_cons_1 in Hw as [Hc Hw].
    assert (Hst : exists s1, stepA zero analyse scale E g s cl = Some (s1, []) /\ closed_ s1).
    { destruct Hs as [H1 H2]. destruct cl as [q|ps last|]; [| |destruct Hc]; cbn [stepA]; rewrite H1; eexists; (split; [reflexivity|]).
      - split; [reflexivity|by exists q].
      - by split. }
    destruct Hst as (s1 & -> & C1). change (Some ?a ≫= ?f) with (f a). cbv beta iota. destruct (IH Hw s1 C1) as (s2 & -> & C2). exists s2. split; [reflexivity|exact C2].
  Qed.
  Lemma run_open l : Forall withoutReset l -> Forall (hopsFit (longest g)) l -> forall X pos (s : chan A B), opened X pos s ->
    exists s' r, runA zero analyse scale E g s l = Some (s', r) /\ ((exists Y p, opened Y p s') \/ closed_ s') /\ centred (X ++ suppliedBy l) pos r.
  Proof.
    induction l as [|cl l IH]; intros Hw Hh X pos s O; cbn [runA].
    { exists s, []. split; [reflexivity|]. split; [left; eauto|exact Logic.I]. }
    apply Forall_cons_1 in Hw as [Hw1 Hw]. apply Forall_cons_1 in Hh as [Hh1 Hh]. destruct (step_open X pos s cl O Hh1 Hw1) as (s1 & r1 & E1 & H1).
    rewrite E1. change (Some ?a ≫= ?f) with (f a). cbv beta iota.
    destruct cl as [q|ps [[x o]|]|]; [| | |destruct Hw1].
    - destruct H1 as [O1 H1]. cbn [suppliedBy] in *. destruct (IH Hw Hh _ _ _ O1) as (s2 & r2 & E2 & F2 & H2). rewrite E2. change (Some ?a ≫= ?f) with (f a). cbv beta iota.
      exists s2, (r1 ++ r2). split; [reflexivity|]. split; [exact F2|]. apply centred_app. rewrite app_nil_r in H2. split; [exact (H1 (suppliedBy l))|exact H2].
    - destruct H1 as [C1 H1]. destruct (run_closed l Hw s1 C1) as (s2 & E2 & C2). rewrite E2. change (Some ?a ≫= ?f) with (f a). cbv beta iota.
      exists s2, (r1 ++ []). split; [reflexivity|]. split; [by right|]. rewrite app_nil_r. cbn [suppliedBy]. exact H1.
    - destruct H1 as [O1 H1]. cbn [suppliedBy] in *. rewrite app_nil_r in O1, H1. destruct (IH Hw Hh _ _ _ O1) as (s2 & r2 & E2 & F2 & H2). rewrite E2. change (Some ?a ≫= ?f) with (f a). cbv beta iota.
      exists s2, (r1 ++ r2). split; [reflexivity|]. split; [exact F2|]. apply centred_app. rewrite <- app_assoc in H2. split; [exact (H1 (suppliedBy l))|exact H2].
  Qed.
  Lemma fresh_opened h0 d : allowed E h0 -> opened [] 0 (Chan [] h0 h0 false d 0 JustCreated).
  Proof.
    intros H. pose proof (o_longest _ _ _ G). split; [|split; [discriminate|reflexivity]]. constructor; cbn [input cinhop cprevInhop have readahead fill]; [cbn; lia|reflexivity|exact H|lia|discriminate].
  Qed.
  Definition fine (s : chan A B) : Prop := (exists Y p, opened Y p s) \/ closed_ s.
  Lemma step_fine s cl : fine s -> hopsFit (longest g) cl -> exists s' r, stepA zero analyse scale E g s cl = Some (s', r) /\ fine s'.
  Proof.
    intros Hs Hh. destruct cl as [q|ps last|].
    1,2: destruct Hs as [(Y & p & O)|C].
    - destruct (step_open Y p s (Ratio q) O Hh Logic.I) as (s' & r & E1 & O1 & _). exists s', r. split; [exact E1|]. left; eauto.
    - eexists _, _. split; [reflexivity|]. right. destruct C. split; [assumption|by exists q].
    - destruct (step_open Y p s (Block ps last) O Hh Logic.I) as (s' & r & E1 & H1). exists s', r. split; [exact E1|]. destruct last as [[x o]|]; [right; apply H1|left; destruct H1; eauto].
    - eexists _, _. cbn [stepA]. destruct C as [Cm Ca]. rewrite Cm. split; [reflexivity|]. right. by split.
    - eexists _, _. split; [reflexivity|]. left. exists [], 0. apply fresh_opened. destruct Hs as [(Y & p & I & _)|[_ C]]; [exact (v_hop _ _ _ _ I)|exact C].
  Qed.
  Lemma run_fine l : Forall (hopsFit (longest g)) l -> forall s, fine s -> exists s' r, runA zero analyse scale E g s l = Some (s', r) /\ fine s'.
  Proof.
    induction l as [|cl l IH]; intros Hh s Hs; cbn [runA]; [eauto|]. apply Forall_cons_1 in Hh as [Hc Hh].
    destruct (step_fine s cl Hs Hc) as (s1 & r1 & -> & F1). change (Some ?a ≫= ?f) with (f a). cbv beta iota.
    destruct (IH Hh s1 F1) as (s2 & r2 & -> & F2). change (Some ?a ≫= ?f) with (f a). cbv beta iota. eauto.
  Qed.
  Lemma session q d pre l : Forall (hopsFit (longest g)) pre -> Forall (hopsFit (longest g)) l -> Forall withoutReset l ->
    exists s r s' r', runA zero analyse scale E g (newChan E q d) (pre ++ [Again]) = Some (s, r) /\ runA zero analyse scale E g s l = Some (s', r') /\ centred (suppliedBy l) 0 r'.
  Proof.
    intros Hp Hl Hw. assert (F0 : fine (newChan (A := A) E q d)) by (left; exists [], 0; apply fresh_opened; by exists q).
    destruct (run_fine (pre ++ [Again])) with (s := newChan (A := A) E q d) as (s & r & E1 & F1); [|exact F0|].
    { apply Forall_app_2; [exact Hp|]. apply Forall_cons_2; [exact Logic.I|apply Forall_nil_2]. }
    assert (O : opened [] 0 s).
    { clear - E1 F0 Hp G. revert F0 E1. generalize (newChan (A := A) E q d). revert r. induction pre as [|cl pre IH]; intros r s0 F0 E1.
      - cbn [app runA stepA] in E1. change (Some ?a ≫= ?f) with (f a) in E1. cbv beta iota in E1. change (Some ?a ≫= ?f) with (f a) in E1. cbv beta iota in E1. apply (inj Some) in E1.
        assert (s = Chan [] (cinhop s0) (cinhop s0) false (readahead s0) 0 JustCreated) as -> by congruence. apply fresh_opened. destruct F0 as [(Y & p & I & _)|[_ C]]; [exact (v_hop _ _ _ _ I)|exact C].
      - apply Forall_cons_1 in Hp as [Hc Hp]. destruct (step_fine s0 cl F0 Hc) as (s1 & r1 & Es & F1). cbn [app runA] in E1. rewrite Es in E1. change (Some ?a ≫= ?f) with (f a) in E1. cbv beta iota in E1.
        destruct (runA zero analyse scale E g s1 (pre ++ [Again])) as [[s2 r2]|] eqn:E2; [|discriminate E1]. change (Some ?a ≫= ?f) with (f a) in E1. cbv beta iota in E1.
        assert (s2 = s) as -> by congruence. exact (IH Hp r2 s1 F1 E2). }
    destruct (run_open l Hw Hl [] 0 s O) as (s' & r' & E2 & _ & H). exists s, r, s', r'. split; [exact E1|]. split; [exact E2|exact H].
  Qed.
  Lemma session0 q d l : Forall (hopsFit (longest g)) l -> Forall withoutReset l ->
    exists s' r', runA zero analyse scale E g (newChan E q d) l = Some (s', r') /\ centred (suppliedBy l) 0 r'.
  Proof.
    intros Hl Hw. assert (O : opened [] 0 (newChan (A := A) E q d)) by (apply fresh_opened; by exists q). destruct (run_open l Hw Hl [] 0 _ O) as (s' & r' & E2 & _ & H). eauto.
  Qed.
End proofs.

Lemma geometry_ok rt sh hc hq r cv E : newShape rt sh hc hq r cv = Some E -> exists g, newGuide (validRate r) sh = Some g /\
  geometry E g (if sh then [cfft g] else [longest g; shortest g; cfft g]).
Proof.
  intros H. destruct (shaped _ _ _ _ _ _ _ H) as (m & k & Z0 & _ & Es & _). destruct (valid_rate r) as [V1 V2].
  destruct (guide_sizes (validRate r) sh V1 V2) as (g & n & Eg & Hn & Hn4 & _ & _ & Eg2 & Eg3 & Hsz). exists g. split; [exact Eg|].
  assert (Hl : longestFft E = longest g /\ classifyFft E = cfft g).
  { unfold newShape in H. rewrite Eg in H. repeat (match type of H with (?X ≫= _) = _ => destruct X as [?|]; [|done]; cbn [mbind option_bind] in H end). injection H as <-. by destruct sh. }
  destruct Hl as [L1 L2]. pose proof (inhop_range E m k) as Hi. specialize (fun q => Hi q Z0). destruct Z0 as [Zm Zc1 Zc2 Zc3 Zc Zr]. rewrite Es in Zr.
  assert (Hd2 : n / 2 * 2 = n) by (pose proof (Z_div_mod_eq_full n 4); pose proof (Z_div_mod_eq_full n 2); pose proof (Z.mod_pos_bound n 2); lia).
  assert (Hd4 : n / 2 / 2 * 4 = n) by (pose proof (Z_div_mod_eq_full n 4); pose proof (Z_div_mod_eq_full (n / 2) 2); pose proof (Z.mod_pos_bound (n / 2) 2); lia).
  destruct sh.
  - destruct Hsz as (S1 & S2 & Sb). assert (M0 : middle g (cfft g) = 0) by (unfold middle; rewrite S1, Eg3, Z.sub_diag; reflexivity).
    constructor; rewrite ?M0; try lia.
    + intros h [q ->]. specialize (Hi q). lia.
    + intros h [q ->] Hu. unfold useReadahead in Hu. apply Z.ltb_lt in Hu. lia.
    + rewrite Sb. repeat (apply Forall_cons_2; [cbn [bandLimits lfft]; lia|]). apply Forall_nil_2.
    + rewrite Sb. rewrite filter_cons, decide_False by (cbn [bandLimits lfft]; lia). reflexivity.
  - destruct Hsz as (S1 & S2 & Sb & _).
    assert (M0 : middle g (cfft g) = n / 2) by (unfold middle; rewrite S1, Eg3; f_equal; lia).
    assert (M1 : middle g (n * 2) = 0) by (unfold middle; rewrite S1, Z.sub_diag; reflexivity).
    assert (M2 : middle g (n / 2) = n / 2 + n / 2 / 2) by (unfold middle; rewrite S1; replace (n * 2 - n / 2) with ((n / 2 + n / 2 / 2) * 2) by lia; apply Z.div_mul; lia).
    constructor; rewrite ?M0; try lia.
    + intros h [q ->]. specialize (Hi q). lia.
    + intros h [q ->] Hu. unfold useReadahead in Hu. apply Z.ltb_lt in Hu. lia.
    + rewrite Sb. repeat (apply Forall_cons_2; [cbn [bandLimits lfft]; rewrite ?M1, ?M2; lia|]). apply Forall_nil_2.
    + rewrite Sb. rewrite filter_cons, decide_True by (cbn [bandLimits lfft]; lia). rewrite filter_cons, decide_False by (cbn [bandLimits lfft]; lia). rewrite filter_cons, decide_True by (cbn [bandLimits lfft]; lia).
      cbn [filter list_filter fmap list_fmap app bandLimits lfft]. rewrite S1. do 2 f_equal. lia.
Qed.
