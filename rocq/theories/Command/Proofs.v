(** Proofs about the command-line program. *)
From stdpp Require Import prelude list numbers.
From Coq Require Import ZArith QArith Qround Qabs Lia Lqa.
From Verif.Command Require Import Model Spec.
From stdpp Require Import list numbers list_numbers.
Local Open Scope Z_scope.

Lemma cap_min n l : cap n l = Z.min n l.
Proof. unfold cap. destruct (Z.ltb_spec l n); lia. Qed.
Lemma gtq_true a b : gtq a b = true <-> (b < a)%Q.
Proof.
  unfold gtq. rewrite negb_true_iff. split.
  - intros H. apply Qnot_le_lt. intros G. apply Qle_bool_iff in G. congruence.
  - intros H. apply not_true_iff_false. intros G. apply Qle_bool_iff in G. lra.
Qed.
Lemma gtq_false a b : gtq a b = false <-> (a <= b)%Q.
Proof. unfold gtq. rewrite negb_false_iff. apply Qle_bool_iff. Qed.
Lemma clamp_range v : inScale (clamp v).
Proof.
  unfold clamp, inScale. destruct (gtq v 1) eqn:E.
  - destruct (gtq (- (1)) 1) eqn:E'; [apply gtq_true in E'|]; lra.
  - apply gtq_false in E. destruct (gtq (- (1)) v) eqn:E'; [|apply gtq_false in E']; lra.
Qed.

(** ** One block *)
Definition fits (g : Q) (x : Q) : Prop := (- (1) <= g * x /\ g * x < 1)%Q.
(** What happens to gain, flag and file when the frames [W] are written *)
Definition wrote (ig : bool) (g : Q) (c : bool) (W f : list frame) (g' : Q) (c' : bool) (f' : list frame) : Prop :=
  (ig = true /\ g' = g /\ c' = c /\ f' = f ++ map (map (fun x => clamp (g * x))) W) \/
  (ig = false /\ g' = g /\ c' = c /\ f' = f ++ times g W /\ Forall (Forall (fits g)) W) \/
  (ig = false /\ c' = true /\ (0 < g' /\ g' <= (999 # 1000) * g)%Q /\ length f' = (length f + length W)%nat /\ ~ Forall (Forall (fits g)) W).

Lemma less_gain g x : (0 < g)%Q -> (1 <= g * x \/ g * x < - (1))%Q ->
  (0 < (999 # 1000) / Qabs x /\ (999 # 1000) / Qabs x <= (999 # 1000) * g)%Q.
Proof.
  intros Hg H.
  assert (A : (1 <= g * Qabs x)%Q).
  { destruct H as [H|H].
    - assert (g * x <= g * Qabs x)%Q; [|lra].
      rewrite !(Qmult_comm g). apply Qmult_le_compat_r; [apply Qle_Qabs|lra].
    - assert (g * (- x) <= g * Qabs x)%Q; [|lra].
      rewrite !(Qmult_comm g). apply Qmult_le_compat_r; [|lra]. rewrite <- Qabs_opp. apply Qle_Qabs. }
  assert (B : (0 < Qabs x)%Q).
  { apply Qnot_le_lt. intros C. assert (g * Qabs x <= 0)%Q; [|lra].
    pose proof (Qabs_nonneg x). assert (E : (Qabs x == 0)%Q) by lra. rewrite E. lra. }
  split.
  - apply Qlt_shift_div_l; [exact B|]. lra.
  - apply Qle_shift_div_r; [exact B|]. nra.
Qed.

Lemma sample_ok ig x g c : (0 < g)%Q ->
  (ig = true /\ sample ig x (g, c) = (clamp (g * x), (g, c))) \/
  (ig = false /\ sample ig x (g, c) = ((g * x)%Q, (g, c)) /\ fits g x) \/
  (ig = false /\ exists v g', sample ig x (g, c) = (v, (g', true)) /\ (0 < g' /\ g' <= (999 # 1000) * g)%Q /\ ~ fits g x).
Proof.
  intros Hg. unfold sample. destruct ig; [left; done|right].
  destruct (Qle_bool 1 (g * x)) eqn:E; cbn [orb].
  - right. split; [done|]. eexists _, _. split; [reflexivity|]. apply Qle_bool_iff in E.
    split; [apply less_gain; [done|by left]|]. intros [_ G]. lra.
  - destruct (gtq (- (1)) (g * x)) eqn:E'.
    + right. split; [done|]. eexists _, _. split; [reflexivity|]. apply gtq_true in E'.
      split; [apply less_gain; [done|by right]|]. intros [G _]. lra.
    + left. split; [done|]. split; [reflexivity|]. apply gtq_false in E'. split; [done|].
      apply Qnot_le_lt. intros G. apply Qle_bool_iff in G. congruence.
Qed.

Definition scanned (ig : bool) (g : Q) (c : bool) (xs : list Q) (vs : list Q) (g' : Q) (c' : bool) : Prop :=
  (ig = true /\ vs = map (fun x => clamp (g * x)) xs /\ g' = g /\ c' = c) \/
  (ig = false /\ vs = map (fun x => (g * x)%Q) xs /\ g' = g /\ c' = c /\ Forall (fits g) xs) \/
  (ig = false /\ length vs = length xs /\ c' = true /\ (0 < g' /\ g' <= (999 # 1000) * g)%Q /\ ~ Forall (fits g) xs).

Lemma column_ok ig xs : forall g c, (0 < g)%Q ->
  exists vs g' c', column ig xs (g, c) = (vs, (g', c')) /\ scanned ig g c xs vs g' c'.
Proof.
  induction xs as [|x xs IH]; intros g c Hg; cbn [column].
  - exists [], g, c. split; [done|]. destruct ig; [left; done|right; left; done].
  - destruct (sample_ok ig x g c Hg) as [[-> E]|[(-> & E & F)|(-> & v & g1 & E & P & NF)]]; rewrite E; cbv beta iota.
    + destruct (IH g c Hg) as (vs & g' & c' & E' & [(_ & -> & -> & ->)|[(? & _)|(? & _)]]); [|discriminate..].
      rewrite E'. cbv beta iota. eexists _, _, _. split; [reflexivity|]. left. done.
    + destruct (IH g c Hg) as (vs & g' & c' & E' & [(? & _)|[(_ & -> & -> & -> & F')|(_ & L & -> & P & NF)]]); [discriminate|..];
        rewrite E'; cbv beta iota; eexists _, _, _; (split; [reflexivity|]).
      * right. left. split_and!; try done. by constructor.
      * right. right. cbn. split_and!; try done; try tauto; [lia|]. intros G. inversion G; done.
    + destruct (IH g1 true ltac:(tauto)) as (vs & g' & c' & E' & [(? & _)|[(_ & -> & -> & -> & F')|(_ & L & -> & P' & _)]]); [discriminate|..];
        rewrite E'; cbv beta iota; eexists _, _, _; (split; [reflexivity|]).
      * right. right. cbn. rewrite map_length. split_and!; try done; try tauto. intros G. inversion G; done.
      * right. right. cbn. split_and!; try done; [lia|tauto| |]; [destruct P, P'; lra|]. intros G. inversion G; done.
Qed.

Definition scannedAll (ig : bool) (g : Q) (c : bool) (xs : list (list Q)) (vs : list (list Q)) (g' : Q) (c' : bool) : Prop :=
  (ig = true /\ vs = map (map (fun x => clamp (g * x))) xs /\ g' = g /\ c' = c) \/
  (ig = false /\ vs = map (map (fun x => (g * x)%Q)) xs /\ g' = g /\ c' = c /\ Forall (Forall (fits g)) xs) \/
  (ig = false /\ c' = true /\ (0 < g' /\ g' <= (999 # 1000) * g)%Q /\ ~ Forall (Forall (fits g)) xs).

Lemma columns_ok ig xs : forall g c, (0 < g)%Q ->
  exists vs g' c', columns ig xs (g, c) = (vs, (g', c')) /\ scannedAll ig g c xs vs g' c'.
Proof.
  induction xs as [|x xs IH]; intros g c Hg; cbn [columns].
  - exists [], g, c. split; [done|]. destruct ig; [left; done|right; left; done].
  - destruct (column_ok ig x g c Hg) as (v & g1 & c1 & E & [(-> & -> & -> & ->)|[(-> & -> & -> & -> & F)|(-> & L & -> & P & NF)]]); rewrite E; cbv beta iota.
    + destruct (IH g c Hg) as (vs & g' & c' & E' & [(_ & -> & -> & ->)|[(? & _)|(? & _)]]); [|discriminate..].
      rewrite E'. cbv beta iota. eexists _, _, _. split; [reflexivity|]. left. done.
    + destruct (IH g c Hg) as (vs & g' & c' & E' & [(? & _)|[(_ & -> & -> & -> & F')|(_ & -> & P & NF)]]); [discriminate|..];
        rewrite E'; cbv beta iota; eexists _, _, _; (split; [reflexivity|]).
      * right. left. split_and!; try done. by constructor.
      * right. right. split_and!; try done; try tauto. intros G. inversion G; done.
    + destruct (IH g1 true ltac:(tauto)) as (vs & g' & c' & E' & [(? & _)|[(_ & -> & -> & -> & F')|(_ & -> & P' & _)]]); [discriminate|..];
        rewrite E'; cbv beta iota; eexists _, _, _; (split; [reflexivity|]).
      * right. right. split_and!; try done; try tauto. intros G. inversion G; done.
      * right. right. split_and!; try done; [tauto|destruct P, P'; lra|]. intros G. inversion G; done.
Qed.

Lemma planar_lookup ch b c : (c < ch)%nat -> planar ch b !! c = Some (map (fun f => nth c f 0%Q) b).
Proof. intros H. unfold planar. rewrite list_lookup_fmap, lookup_seq_lt by lia. done. Qed.

Lemma interleaved_planar ch b (h : Q -> Q) : Forall (fun f => length f = ch) b ->
  interleaved (length b) (map (map h) (planar ch b)) = map (map h) b.
Proof.
  intros F. unfold interleaved. apply list_eq. intros i. rewrite !list_lookup_fmap.
  destruct (decide (i < length b)%nat) as [Hi|Hi].
  - rewrite lookup_seq_lt by lia. cbn [fmap option_fmap option_map].
    destruct (lookup_lt_is_Some_2 b i Hi) as [f Ef]. rewrite Ef. cbn [fmap option_fmap option_map]. f_equal.
    pose proof (Forall_lookup_1 _ _ _ _ F Ef) as L. cbv beta in L.
    change (0 + i)%nat with i. apply list_eq. intros c.
    unfold planar. rewrite !list_lookup_fmap.
    destruct (decide (c < ch)%nat) as [Hc|Hc].
    + rewrite lookup_seq_lt by lia. cbn [fmap option_fmap option_map].
      destruct (lookup_lt_is_Some_2 f c) as [x Ex]; [lia|]. rewrite Ex. cbn. f_equal.
      apply nth_lookup_Some. change (@map Q Q h) with (@fmap list _ Q Q h).
      rewrite !list_lookup_fmap, Ef. cbn. f_equal. f_equal. by apply nth_lookup_Some.
    + rewrite lookup_seq_ge by lia. cbn. rewrite (lookup_ge_None_2 f c) by lia. done.
  - rewrite lookup_seq_ge by lia. rewrite (lookup_ge_None_2 b i) by lia. done.
Qed.

Lemma planar_Forall ch b (P : Q -> Prop) : Forall (fun f => length f = ch) b -> Forall (Forall P) (planar ch b) -> Forall (Forall P) b.
Proof.
  intros F H. apply Forall_lookup. intros i f Ef. apply Forall_lookup. intros c x Ex.
  pose proof (Forall_lookup_1 _ _ _ _ F Ef) as L. cbv beta in L.
  assert (Hc : (c < ch)%nat) by (apply lookup_lt_Some in Ex; lia).
  pose proof (Forall_lookup_1 _ _ _ _ H (planar_lookup ch b c Hc)) as G.
  eapply (Forall_lookup_1 _ _ i); [exact G|]. change (@map) with (fun A B (g : A -> B) l => @fmap list _ A B g l). cbv beta.
  rewrite list_lookup_fmap, Ef. cbn. f_equal. by apply nth_lookup_Some.
Qed.

Lemma Forall_planar ch b (P : Q -> Prop) : Forall (fun f => length f = ch) b -> Forall (Forall P) b -> Forall (Forall P) (planar ch b).
Proof.
  intros F H. unfold planar. apply Forall_fmap, Forall_forall. intros c Hc. apply elem_of_seq in Hc.
  cbn. apply Forall_fmap. apply Forall_lookup. intros i f Ef. cbn.
  pose proof (Forall_lookup_1 _ _ _ _ F Ef) as L. pose proof (Forall_lookup_1 _ _ _ _ H Ef) as G. cbv beta in L.
  destruct (lookup_lt_is_Some_2 f c) as [x Ex]; [lia|]. rewrite (nth_lookup_Some _ _ _ _ Ex). by eapply Forall_lookup_1.
Qed.

Lemma block_ok ig ch W g c f : (0 < g)%Q -> Forall (fun x => length x = ch) W ->
  exists cs g' c', columns ig (planar ch W) (g, c) = (cs, (g', c')) /\
    wrote ig g c W f g' c' (f ++ interleaved (length W) cs).
Proof.
  intros Hg F. destruct (columns_ok ig (planar ch W) g c Hg) as (cs & g' & c' & E & S).
  exists cs, g', c'. split; [exact E|]. unfold wrote.
  destruct S as [(-> & -> & -> & ->)|[(-> & -> & -> & -> & G)|(-> & -> & P & NF)]].
  - left. rewrite interleaved_planar by done. done.
  - right. left. rewrite interleaved_planar by done. split_and!; try done. by eapply planar_Forall.
  - right. right. split_and!; try tauto. { rewrite app_length. unfold interleaved. rewrite fmap_length, seq_length. done. }
    intros G. apply NF. by apply Forall_planar.
Qed.

Lemma wrote_app ig g c W1 W2 f g1 c1 f1 g2 c2 f2 : (0 < g)%Q ->
  wrote ig g c W1 f g1 c1 f1 -> wrote ig g1 c1 W2 f1 g2 c2 f2 -> wrote ig g c (W1 ++ W2) f g2 c2 f2.
Proof.
  intros Hg. unfold wrote, times. rewrite !map_app, !app_assoc, !app_length.
  intros [(-> & -> & -> & ->)|[(-> & -> & -> & -> & F)|(-> & -> & P & L & NF)]];
    intros [(E & -> & -> & ->)|[(E & -> & -> & -> & F')|(E & -> & P' & L' & NF')]]; try discriminate.
  - left. done.
  - right. left. split_and!; try done. by apply Forall_app_2.
  - right. right. split_and!; try tauto; [rewrite ?app_length, ?map_length in *; lia|]. rewrite Forall_app. tauto.
  - right. right. split_and!; try tauto; [rewrite ?app_length, ?map_length in *; lia|]. rewrite Forall_app. tauto.
  - right. right. split_and!; try tauto; [destruct P, P'; lra|rewrite ?app_length, ?map_length in *; lia|]. rewrite Forall_app. tauto.
Qed.
Lemma wrote_nil ig g c f : wrote ig g c [] f g c f.
Proof. unfold wrote, times. cbn. rewrite app_nil_r. destruct ig; [left|right; left]; done. Qed.
Lemma wrote_pos ig g c W f g' c' f' : (0 < g)%Q -> wrote ig g c W f g' c' f' -> (0 < g')%Q.
Proof. intros Hg [(_ & -> & _)|[(_ & -> & _)|(_ & _ & P & _)]]; [done..|tauto]. Qed.

(** ** The drain loop in closed form *)
Definition cutoff (j : job) (final : bool) (ci : Z) : option Z :=
  if realtime j && final then Some (Qfloor (inject_Z ci * ratio j)) else None.
Definition written (ct : option Z) (co : Z) (H : list frame) : list frame :=
  match ct with None => H | Some ideal => take (Z.to_nat (ideal - co)) H end.
Definition counted (ct : option Z) (co : Z) (H : list frame) : Z :=
  match ct with
  | None => co + Z.of_nat (length H)
  | Some ideal => match H with [] => co | _ => Z.min ideal (co + Z.of_nat (length H)) end
  end.
Definition dropsLeft (d : Z) (q : list frame) : Z := if 0 <? d then Z.max 0 (d - Z.of_nat (length q)) else d.

Lemma bs_pos : 0 < bs. Proof. reflexivity. Qed.
Local Opaque bs.

Definition step (j : job) (ignore final : bool) (s : st) : st :=
      let block := Z.min (Z.of_nat (length (queue s))) bs in
      if 0 <? toDrop s then
        let here := Z.min (toDrop s) block in
          (St (log s) (drop (Z.to_nat here) (queue s)) (toDrop s - here) (countIn s) (countOut s) (gain s) (clipping s) (file s))
      else
        let got := take (Z.to_nat block) (queue s) in
        let ideal := Qfloor (inject_Z (countIn s) * ratio j) in
        let block' := if realtime j && final && (ideal <? countOut s + block) then ideal - countOut s else block in
        let got := take (Z.to_nat block') got in
        let r := columns ignore (planar (channels j) got) (gain s, clipping s) in
          (St (log s) (drop (Z.to_nat block) (queue s)) (toDrop s) (countIn s) (countOut s + block') (fst (snd r)) (snd (snd r))
              (file s ++ interleaved (length got) (fst r))).
Lemma drain_unfold fuel j ig final s : queue s <> [] -> drain (S fuel) j ig final s = drain fuel j ig final (step j ig final s).
Proof.
  intros H. cbn [drain]. destruct (queue s) as [|f q] eqn:E; [done|]. rewrite <- E. rewrite !cap_min. unfold step.
  destruct (0 <? toDrop s); [done|]. cbv zeta.
  match goal with |- context [columns ig ?x ?y] => destruct (columns ig x y) as [cs [g c]] end. done.
Qed.
Lemma drain_nil fuel j ig final s : queue s = [] -> drain fuel j ig final s = Some s.
Proof. intros H. destruct fuel; cbn [drain]; rewrite H; done. Qed.

Lemma drain_ok j ig final : forall fuel s, (length (queue s) <= fuel)%nat -> (0 < gain s)%Q ->
  Forall (fun x => length x = channels j) (queue s) ->
  exists s', drain fuel j ig final s = Some s' /\ log s' = log s /\ queue s' = [] /\ countIn s' = countIn s /\
    toDrop s' = dropsLeft (toDrop s) (queue s) /\
    let H := drop (Z.to_nat (toDrop s)) (queue s) in
    countOut s' = counted (cutoff j final (countIn s)) (countOut s) H /\
    wrote ig (gain s) (clipping s) (written (cutoff j final (countIn s)) (countOut s) H) (file s) (gain s') (clipping s') (file s').
Proof.
  pose proof bs_pos as Hbs.
  induction fuel as [|fuel IH]; intros s Hl Hg F; (destruct (decide (queue s = [])) as [E|E]; [|
    assert (Hp : (0 < length (queue s))%nat) by (destruct (queue s); [done|cbn; lia])]).
  1,3: rewrite drain_nil by done; exists s; (split; [done|]); cbv zeta; rewrite E, drop_nil; split_and!; try done;
    [ unfold dropsLeft; cbn [length]; destruct (Z.ltb_spec 0 (toDrop s)); lia
    | unfold counted; destruct (cutoff j final (countIn s)); cbn [length]; lia
    | unfold written; destruct (cutoff j final (countIn s)); rewrite ?take_nil; apply wrote_nil ].
  { lia. }
  rewrite drain_unfold by done. unfold step.
  set (block := Z.min (Z.of_nat (length (queue s))) bs). assert (Hb : 0 < block <= Z.of_nat (length (queue s))) by lia.
  destruct (Z.ltb_spec 0 (toDrop s)) as [Hd|Hd].
  - cbv zeta. set (here := Z.min (toDrop s) block). assert (Hh : 0 < here <= block) by lia.
    set (s1 := St _ _ _ _ _ _ _ _).
    destruct (IH s1) as (s' & E' & A1 & A2 & A3 & A4 & A5 & A6).
    { subst s1. cbn [queue]. rewrite drop_length. lia. } { exact Hg. }
    { by apply Forall_drop. }
    exists s'. split; [exact E'|]. cbv zeta in *. cbn [log countIn toDrop countOut gain clipping file queue s1] in *.
    rewrite drop_drop in A5, A6.
    replace (Z.to_nat here + Z.to_nat (toDrop s - here))%nat with (Z.to_nat (toDrop s)) in * by lia.
    split_and!; try done. rewrite A4. unfold dropsLeft. rewrite drop_length.
    destruct (Z.ltb_spec 0 (toDrop s - here)), (Z.ltb_spec 0 (toDrop s)); lia.
  - cbv zeta. set (got := take (Z.to_nat block) (queue s)).
    set (ideal := Qfloor (inject_Z (countIn s) * ratio j)).
    set (block' := if (realtime j && final && (ideal <? countOut s + block)) then ideal - countOut s else block).
    set (W := take (Z.to_nat block') got).
    assert (FW : Forall (fun x => length x = channels j) W) by (apply Forall_take, Forall_take; exact F).
    destruct (block_ok ig (channels j) W (gain s) (clipping s) (file s) Hg FW) as (cs & g' & c' & Ec & HW).
    rewrite Ec. cbn [fst snd].
    set (s1 := St _ _ _ _ _ _ _ _).
    destruct (IH s1) as (s' & E' & A1 & A2 & A3 & A4 & A5 & A6).
    { subst s1. cbn [queue]. rewrite drop_length. lia. } { subst s1; cbn [gain]. by eapply wrote_pos. }
    { by apply Forall_drop. }
    exists s'. split; [exact E'|]. cbv zeta in *. cbn [log countIn toDrop countOut gain clipping file queue s1] in *.
    replace (Z.to_nat (toDrop s)) with O in * by lia. rewrite !drop_0 in *.
    assert (Lgot : length got = Z.to_nat block) by (unfold got; rewrite take_length; lia).
    split_and!; try done.
    + rewrite A4. unfold dropsLeft. destruct (Z.ltb_spec 0 (toDrop s)); [lia|done].
    + rewrite A5. unfold cutoff. destruct (realtime j && final) eqn:Ert; cbn [andb] in *; unfold counted.
      * fold ideal. unfold block'. cbn [andb].
        destruct (queue s) as [|f0 q0] eqn:Eq; [done|]. rewrite <- Eq in *.
        destruct (drop (Z.to_nat block) (queue s)) as [|f1 q1] eqn:Ed.
        -- apply (f_equal length) in Ed. rewrite drop_length in Ed. cbn in Ed.
           destruct (Z.ltb_spec ideal (countOut s + block)); lia.
        -- apply (f_equal length) in Ed. rewrite drop_length in Ed.
           rewrite <- Ed. destruct (Z.ltb_spec ideal (countOut s + block)); lia.
      * rewrite drop_length. unfold block'. cbn [andb]. lia.
    + replace (written (cutoff j final (countIn s)) (countOut s) (queue s)) with
        (W ++ written (cutoff j final (countIn s)) (countOut s + block') (drop (Z.to_nat block) (queue s))).
      { eapply wrote_app; [exact Hg|exact HW|exact A6]. }
      unfold written, cutoff. destruct (realtime j && final) eqn:Ert; cbn [andb] in *.
      * fold ideal. subst W got. unfold block'. cbn [andb].
        destruct (Z.ltb_spec ideal (countOut s + block)) as [L|L].
        -- replace (Z.to_nat (ideal - (countOut s + (ideal - countOut s)))) with O by lia. rewrite take_0, app_nil_r.
           rewrite take_take. f_equal. lia.
        -- rewrite take_take, Nat.min_id.
           replace (Z.to_nat (ideal - countOut s)) with (Z.to_nat block + Z.to_nat (ideal - (countOut s + block)))%nat by lia.
           rewrite <- (take_drop (Z.to_nat block) (queue s)) at 3.
           rewrite take_app_ge by (rewrite take_length; lia). f_equal. f_equal. rewrite take_length. lia.
      * subst W got. unfold block'. cbn [andb]. rewrite take_take, Nat.min_id. apply take_drop.
Qed.

(** ** The processing loop: the calls it makes and what is written if nothing clips *)
Fixpoint plan (fuel : nat) (j : job) (m : list (Z * Q)) (data : list frame) (ci : Z) : list call :=
  match fuel with
  | O => []
  | S fuel =>
    let '(m, block, lg) := pitches (frequencyshift j) m ci bs [] in
    let b := take (Z.to_nat block) data in
    let final := (count j <=? ci + block) || (Z.of_nat (length b) =? 0) in
    lg ++ Process b final ::
      (if final then [] else plan fuel j m (drop (Z.to_nat block) data) (ci + Z.of_nat (length b)))
  end.
Fixpoint outcome (fuel : nat) (D : device) (j : job) (m : list (Z * Q)) (data : list frame) (ci : Z)
    (lg : list call) (q : list frame) (d co : Z) : list frame :=
  match fuel with
  | O => []
  | S fuel =>
    let '(m, block, lg) := pitches (frequencyshift j) m ci bs lg in
    let b := take (Z.to_nat block) data in
    let final := (count j <=? ci + block) || (Z.of_nat (length b) =? 0) in
    let lg := lg ++ [Process b final] in
    let q := q ++ output D lg in
    let H := drop (Z.to_nat d) q in
    let ci := ci + Z.of_nat (length b) in
    if final then written (cutoff j true ci) co H
    else H ++ outcome fuel D j m (drop (Z.to_nat block) data) ci lg [] (dropsLeft d q) (co + Z.of_nat (length H))
  end.

Lemma pitches_log shift m : forall ci block lg,
  exists m' block' l, pitches shift m ci block lg = (m', block', lg ++ l) /\ pitches shift m ci block [] = (m', block', l) /\
    Forall (fun c => exists s, c = Pitch s) l /\ (0 < block -> 0 < block' <= block).
Proof.
  induction m as [|[f x] m IH]; intros ci block lg; cbn [pitches].
  - eexists _, _, []. rewrite app_nil_r. split_and!; try done.
  - destruct (Z.leb_spec f ci) as [H|H].
    + destruct (IH ci block (lg ++ [Pitch (shift * x)])) as (m1 & b1 & l1 & E1 & E1' & F & B).
      destruct (IH ci block ([] ++ [Pitch (shift * x)])) as (m2 & b2 & l2 & E2 & E2' & _).
      rewrite E1' in E2'. injection E2' as <- <- <-.
      eexists _, _, (Pitch (shift * x) :: l1). rewrite E1, E2. rewrite <- app_assoc. split_and!; try done.
      constructor; [eauto|done].
    + eexists _, _, []. rewrite app_nil_r. split_and!; try done. destruct (Z.ltb_spec f (ci + block)); lia.
Qed.

Definition less (ig : bool) (g g' : Q) : Prop := ig = false /\ (0 < g' /\ g' <= (999 # 1000) * g)%Q.

Lemma feed_ok D j ig : shaped (channels j) D -> forall fuel m data s,
  (length data < fuel)%nat -> (0 < gain s)%Q -> clipping s = false ->
  Forall (fun x => length x = channels j) (queue s) ->
  let W := outcome fuel D j m data (countIn s) (log s) (queue s) (toDrop s) (countOut s) in
  exists s', feed fuel D j ig m data (countIn s) s = Some s' /\
    ((clipping s' = false /\ log s' = log s ++ plan fuel j m data (countIn s) /\ queue s' = [] /\
      wrote ig (gain s) false W (file s) (gain s') false (file s')) \/
     (clipping s' = true /\ less ig (gain s) (gain s') /\ (length (file s') <= length (file s) + length W)%nat /\ ~ Forall (Forall (fits (gain s))) W)).
Proof.
  intros Hsh. pose proof bs_pos as Hbs. induction fuel as [|fuel IH]; intros m data s Hl Hg Hc F; [lia|].
  cbn [feed plan outcome]. destruct (pitches_log (frequencyshift j) m (countIn s) bs (log s)) as (m' & block & l & E & E' & FL & B).
  rewrite E, E'. specialize (B Hbs). unfold read. cbv beta iota zeta.
  set (b := take (Z.to_nat block) data).
  set (final := (count j <=? countIn s + block) || (Z.of_nat (length b) =? 0)).
  set (lg := (log s ++ l) ++ [Process b final]).
  set (q := queue s ++ output D lg).
  assert (Fq : Forall (fun x => length x = channels j) q) by (apply Forall_app_2; [done|apply Hsh]).
  set (s1 := St lg q (toDrop s) (countIn s + Z.of_nat (length b)) (countOut s) (gain s) (clipping s) (file s)).
  destruct (drain_ok j ig final (length q) s1 ltac:(done) Hg Fq) as (s2 & Ed & A1 & A2 & A3 & A4 & A5 & A6).
  cbn [log countIn toDrop countOut gain clipping file queue s1] in A1, A2, A3, A4, A5, A6. rewrite Hc in A6.
  rewrite Ed. cbn [mbind option_bind].
  set (H := drop (Z.to_nat (toDrop s)) q) in *.
  set (ci := countIn s + Z.of_nat (length b)) in *.
  assert (Hlog : lg = log s ++ l ++ [Process b final]) by (unfold lg; by rewrite <- app_assoc).
  destruct (clipping s2) eqn:Ec.
  - (* clipped here *)
    exists s2. split; [reflexivity|]. right. split; [exact Ec|].
    destruct A6 as [(_ & _ & ? & _)|[(_ & _ & ? & _)|(-> & _ & P & L & NF)]]; [discriminate..|].
    split; [split; [done|exact P]|]. rewrite L. clear L.
    destruct final; [split; [lia|exact NF]|]. rewrite app_length, Forall_app. unfold written, cutoff in *. rewrite andb_false_r in *.
    split; [lia|tauto].
  - destruct final eqn:Ef.
    + exists s2. split; [reflexivity|]. left. split_and!; [exact Ec| |exact A2|exact A6]. rewrite A1, Hlog. done.
    + assert (Hn : length b <> 0%nat).
      { intros Hz. unfold final in Ef. rewrite Hz in Ef. cbn in Ef. rewrite orb_true_r in Ef. discriminate. }
      assert (Hlb : (length b <= length data)%nat) by (unfold b; rewrite take_length; lia).
      unfold written, counted, cutoff in A5, A6. rewrite andb_false_r in A5, A6.
      destruct (IH m' (drop (Z.to_nat block) data) s2) as (s3 & E3 & R).
      { rewrite drop_length. unfold b in Hn. rewrite take_length in Hn. lia. }
      { by eapply wrote_pos. } { exact Ec. } { rewrite A2. constructor. }
      rewrite A3 in E3. fold ci in E3. exists s3. split; [exact E3|].
      rewrite A1, A2, A3, A4, A5 in R.
      destruct R as [(C1 & C2 & C3 & C4)|(C1 & C2 & C3 & C4)].
      * left. split_and!; try done.
        -- rewrite C2, Hlog, <- !app_assoc. done.
        -- eapply wrote_app; [exact Hg|exact A6|exact C4].
      * right. split; [exact C1|]. destruct C2 as [-> [P1 P2]].
        destruct A6 as [(? & _)|[(_ & Hge & _ & Hfe & _)|(_ & ? & _)]]; [discriminate| |discriminate].
        split; [split; [done|]; rewrite <- Hge; done|].
        rewrite app_length. rewrite Hfe, app_length in C3. unfold times in C3. rewrite map_length in C3. split; [lia|].
        rewrite Forall_app. rewrite Hge in C4. tauto.
Qed.
