(** Property C93, laminar phases: which bins go by themselves and which follow the bin above. *)
From stdpp Require Import prelude.
From Coq Require Import ZArith QArith Qround Qabs Qminmax Lia Lqa.
From Verif Require Import Base.Arith Phases.Model Phases.Spec.
From stdpp Require Import list.
Local Open Scope Z_scope.

(** ** Spec *)
(** How far the phase of bin [i] is off what its own frequency gives, how much that has changed, and whether it has
    grown; and how far the output phase goes on if it goes by itself. *)
Definition deviation (c : config) (i : Z) (x : bin) (p : Q) : Q := princ (p - (prevPhase x + inject_Z (inc c) * inject_Z i / inject_Z (fft c)))%Q.
Definition unrest (c : config) (i : Z) (x : bin) (p : Q) : Q := Qabs (deviation c i x p - prevError x).
Definition grows (c : config) (i : Z) (x : bin) (p : Q) : Prop := (prevError x < deviation c i x p)%Q.
Definition onward (c : config) (out i : Z) (x : bin) (p : Q) : Q :=
  (inject_Z out / inject_Z (inc c) * (inject_Z (inc c) * inject_Z i / inject_Z (fft c) + deviation c i x p))%Q.
(** The three frequencies, raised together when the sound is stretched; how many bins below a bin that goes by itself
    may follow it. *)
Definition raised (c : config) (r : Q) : Q :=
  if Qlt_le_dec 1 r then (Qmax (freq0 c) (600 + 1200 * ((r - 1) * (r - 1) * (r - 1))) / freq0 c)%Q else 1%Q.
Definition reach (c : config) (r : Q) (i : Z) : nat :=
  if decide (i <= bin_of c (freq0 c * raised c r)) then 0 else
  if decide (i <= bin_of c (freq1 c * raised c r)) then 1 else
  if decide (i <= bin_of c (freq2 c * raised c r)) then 3 else 8.
(** The part of a bin: [None], it goes by itself; [Some d], it follows the bin above, and [d] bins between it and the
    one that goes by itself follow too. *)
Notation part := (option nat).
Definition depth (r : part) : nat := match r with None => 0 | Some d => S d end.
(** Bin [i] may follow the one above it, ([x'], [p']), whose part is [r']. *)
Definition mayFollow (k : chunk) (i : Z) (x : bin) (p : Q) (x' : bin) (p' : Q) (r' : part) : Prop :=
  (depth r' < reach (cfg k) (ratio k) i)%nat /\
  ~ (mixed (cfg k) = true /\ (i = bin_of (cfg k) 150 \/ i = bin_of (cfg k) 1000)) /\
  (unrest (cfg k) (i + 1) x' p' < unrest (cfg k) i x p)%Q /\ (grows (cfg k) i x p <-> grows (cfg k) (i + 1) x' p').
(** The frame from bin [i] up: what was there, the phases that come in, what is there after, the parts. *)
Fixpoint laid (k : chunk) (i : Z) (xs : list bin) (ps : list Q) (ys : list bin) (rs : list part) : Prop :=
  match xs, ps, ys, rs with
  | [], [], [], [] => True
  | x :: xs, p :: ps, y :: ys, r :: rs =>
    prevPhase y = p /\ prevError y = deviation (cfg k) i x p /\
    match r, xs, ps, ys, rs with
    | None, [], _, _, _ => (unwrapped y == unwrapped x + onward (cfg k) (outInc k) i x p)%Q
    | None, x' :: _, p' :: _, _, r' :: _ =>
      (unwrapped y == unwrapped x + onward (cfg k) (outInc k) i x p)%Q /\ ~ mayFollow k i x p x' p' r'
    | Some d, x' :: _, p' :: _, y' :: _, r' :: _ =>
      d = depth r' /\ mayFollow k i x p x' p' r' /\
      (8 * (unwrapped y - p) == inject_Z (Z.of_nat d) * onward (cfg k) (outInc k) i x p + inject_Z (8 - Z.of_nat d) * (unwrapped y' - p'))%Q
    | _, _, _, _, _ => False
    end /\ laid k (i + 1) xs ps ys rs
  | _, _, _, _ => False
  end.

(** ** Proofs *)
Lemma bin_comp c a b : (a == b)%Q -> bin_of c a = bin_of c b.
Proof. intros H. unfold bin_of. apply rint_comp. by rewrite H. Qed.
Lemma limits_reach c r u i : sensible c -> unity r = false -> laminar c = true ->
  let b := bandsOf c r false u in
  (if i <=? lim0 b then 0 else if i <=? lim1 b then 1 else if i <=? lim2 b then 3 else 8)%Q = inject_Z (Z.of_nat (reach c r i)) /\
  doReset b = false /\ limited b = mixed c /\ low b = bin_of c 150 /\ high b = bin_of c 1000.
Proof.
  intros (_ & _ & _ & F0) U La. unfold bandsOf. rewrite U, La, andb_false_l, andb_true_l.
  assert (exists f0 f1 f2, (if ltQ 1 r then
      let rf0 := (600 + 600 * ((r - 1) * (r - 1) * (r - 1) * 2))%Q in
      let f0 := if ltQ (freq0 c) rf0 then rf0 else freq0 c in
      (f0, f0 * (freq1 c / freq0 c), f0 * (freq2 c / freq0 c))%Q
    else (freq0 c, freq1 c, freq2 c)) = (f0, f1, f2) /\ (f0 == freq0 c * raised c r /\ f1 == freq1 c * raised c r /\ f2 == freq2 c * raised c r)%Q) as (f0 & f1 & f2 & E & E0 & E1 & E2).
  { unfold raised. destruct (ltQ 1 r) eqn:L.
    - apply ltQ_true in L. destruct (Qlt_le_dec 1 r) as [_|L']; [|by apply Qlt_not_le in L]. cbv zeta.
      assert ((if ltQ (freq0 c) (600 + 600 * ((r - 1) * (r - 1) * (r - 1) * 2)) then (600 + 600 * ((r - 1) * (r - 1) * (r - 1) * 2))%Q else freq0 c) ==
              Qmax (freq0 c) (600 + 1200 * ((r - 1) * (r - 1) * (r - 1))))%Q as X.
      { assert (600 + 1200 * ((r - 1) * (r - 1) * (r - 1)) == 600 + 600 * ((r - 1) * (r - 1) * (r - 1) * 2))%Q as -> by ring.
        destruct (ltQ (freq0 c) _) eqn:Y.
        - apply ltQ_true in Y. by rewrite Q.max_r by (by apply Qlt_le_weak).
        - rewrite Q.max_l; [done|]. apply Qnot_lt_le. intros Z. apply ltQ_true in Z. congruence. }
      do 3 eexists. split; [reflexivity|]. split_and!; rewrite X; field; lra.
    - destruct (Qlt_le_dec 1 r) as [L'|_]; [apply ltQ_true in L'; congruence|].
      do 3 eexists. split; [reflexivity|]. split_and!; ring. }
  cbv zeta in E |- *. rewrite E. cbn [lim0 lim1 lim2 doReset limited low high]. split; [|done]. unfold reach.
  rewrite (bin_comp c _ _ E0), (bin_comp c _ _ E1), (bin_comp c _ _ E2).
  generalize (bin_of c (freq0 c * raised c r)), (bin_of c (freq1 c * raised c r)), (bin_of c (freq2 c * raised c r)). intros b0 b1 b2.
  destruct (Z.leb_spec i b0), (Z.leb_spec i (b0 `max` b1)), (Z.leb_spec i ((b0 `max` b1) `max` b2)), (decide (i <= b0)), (decide (i <= b1)), (decide (i <= b2)); try done; lia.
Qed.

(** What a bin leaves to the next lower one *)
Definition leaves (c : config) (i : Z) (x : bin) (p : Q) (y : bin) (r : part) (a : carry) : Prop :=
  (distance a == inject_Z (Z.of_nat (depth r)) /\ prevInst a = unrest c i x p /\ (prevDir a = true <-> grows c i x p) /\ above a == unwrapped y - p)%Q.
Section Frame.
  Context (k : chunk) (u : Q).
  Let c := cfg k.
  Let b := bandsOf c (ratio k) false u.
  Hypothesis (Hc : sensible c) (Hu : unity (ratio k) = false) (Hl : laminar c = true).
  Lemma one i a x p : i < fft c / 2 -> forall x' p' y' r', leaves c (i + 1) x' p' y' r' a ->
    exists a2 y r, oneBin c b (outInc k) i a x p = (a2, y) /\ leaves c i x p y r a2 /\ prevPhase y = p /\ prevError y = deviation c i x p /\
      match r with
      | None => (unwrapped y == unwrapped x + onward c (outInc k) i x p)%Q /\ ~ mayFollow k i x p x' p' r'
      | Some d => d = depth r' /\ mayFollow k i x p x' p' r' /\
        (8 * (unwrapped y - p) == inject_Z (Z.of_nat d) * onward c (outInc k) i x p + inject_Z (8 - Z.of_nat d) * (unwrapped y' - p'))%Q
      end.
  Proof.
    intros Hi x' p' y' r' (Hd & HI & HD & HA). pose proof (limits_reach c (ratio k) u i Hc Hu Hl) as (M & B1 & B2 & B3 & B4). fold b in M, B1, B2, B3, B4.
    unfold oneBin. rewrite B1, andb_false_r, B2, B3, B4. cbn [andb negb]. rewrite M, Hl. cbn [andb].
    assert (i =? fft c / 2 = false) as -> by lia. rewrite orb_false_r.
    destruct Hc as (Hinc & Hfft & _ & _).
    assert (0 < inject_Z (inc c))%Q as Hinc' by (change 0%Q with (inject_Z 0); by rewrite <- Zlt_Qlt).
    assert (0 < inject_Z (fft c))%Q as Hfft' by (change 0%Q with (inject_Z 0); by rewrite <- Zlt_Qlt).
    fold (deviation c i x p). fold (unrest c i x p).
    match goal with |- context [if ?e then _ else _] => destruct e eqn:E end.
    - apply andb_true_iff in E as [E E3]. apply andb_true_iff in E as [E1 E2]. apply andb_true_iff in E3 as [E3 E4].
      do 2 eexists. exists (Some (depth r')). split; [reflexivity|]. unfold leaves. cbn [distance prevInst prevDir above prevPhase prevError unwrapped].
      assert (mayFollow k i x p x' p' r') as F.
      { split_and!.
        - apply negb_true_iff in E1. fold c. destruct (decide (depth r' < reach c (ratio k) i)%nat) as [|N]; [done|exfalso].
          enough (Qle_bool (inject_Z (Z.of_nat (reach c (ratio k) i))) (distance a) = true) by congruence.
          apply Qle_bool_iff. rewrite Hd. rewrite <- Zle_Qle. lia.
        - apply negb_true_iff in E2. fold c. intros [Y [Z|Z]]; rewrite Y in E2; cbn [andb] in E2; apply orb_false_iff in E2; lia.
        - fold c. rewrite <- HI. by apply ltQ_true.
        - fold c. apply eqb_prop in E4. rewrite <- HD, <- E4. unfold grows. symmetry. apply ltQ_true. }
      split_and!; try done.
      + rewrite Hd. cbn [depth]. rewrite Nat2Z.inj_succ, <- Z.add_1_r, inject_Z_plus. done.
    + unfold grows. apply ltQ_true.
      + ring.
      + rewrite Hd, HA. unfold onward. unfold Z.sub at 1. rewrite inject_Z_plus, inject_Z_opp. change (inject_Z 8) with 8%Q. field. split; lra.
    - do 2 eexists. exists None. split; [reflexivity|]. unfold leaves. cbn [distance prevInst prevDir above prevPhase prevError unwrapped].
      split_and!; try done.
    + unfold grows. apply ltQ_true.
      + unfold onward. field. split; lra.
      + intros (F1 & F2 & F3 & F4). fold c in F1, F2, F3, F4.
        enough (true = false) by done. rewrite <- E. symmetry. repeat (apply andb_true_iff; split).
        * apply negb_true_iff. apply not_true_iff_false. intros Y. apply Qle_bool_iff in Y. rewrite Hd, <- Zle_Qle in Y. lia.
        * apply negb_true_iff. apply not_true_iff_false. intros Y. apply andb_true_iff in Y as [Y Z]. apply orb_true_iff in Z as [Z|Z]; apply F2; split; try done; lia.
        * apply ltQ_true. by rewrite HI.
        * apply eqb_true_iff, eq_iff_eq_true. rewrite HD, <- F4. apply ltQ_true.
  Qed.
  Lemma last_one i a x p : i = fft c / 2 ->
    exists a2 y, oneBin c b (outInc k) i a x p = (a2, y) /\ leaves c i x p y None a2 /\ prevPhase y = p /\ prevError y = deviation c i x p /\
      (unwrapped y == unwrapped x + onward c (outInc k) i x p)%Q.
  Proof.
    intros Hi. pose proof (limits_reach c (ratio k) u i Hc Hu Hl) as (M & B1 & B2 & B3 & B4). fold b in M, B1, B2, B3, B4.
    unfold oneBin. rewrite B1, andb_false_r. cbn [andb negb].
    assert (i =? fft c / 2 = true) as -> by lia. rewrite orb_true_r. cbn [negb]. rewrite andb_false_r. cbn [andb].
    destruct Hc as (Hinc & Hfft & _ & _).
    assert (0 < inject_Z (inc c))%Q as Hinc' by (change 0%Q with (inject_Z 0); by rewrite <- Zlt_Qlt).
    assert (0 < inject_Z (fft c))%Q as Hfft' by (change 0%Q with (inject_Z 0); by rewrite <- Zlt_Qlt).
    do 2 eexists. split; [reflexivity|]. unfold leaves. cbn [distance prevInst prevDir above prevPhase prevError unwrapped].
    split_and!; try done.
    + unfold grows. apply ltQ_true.
    + unfold onward, deviation. field. split; lra.
  Qed.
  Lemma frame xs : forall ps i, length xs = length ps -> i + Z.of_nat (length xs) = fft c / 2 + 1 ->
    exists a ys rs, loop c b (outInc k) false i xs ps = (a, ys) /\ laid k i xs ps ys rs /\
      match xs, ps, ys, rs with x :: _, p :: _, y :: _, r :: _ => leaves c i x p y r a | [], [], [], [] => True | _, _, _, _ => False end.
  Proof.
    induction xs as [|x xs IH]; intros [|p ps] i L Hi; try done.
    - by exists (Carry 0 0 false false 0), [], [].
    - cbn [length] in L, Hi. destruct (IH ps (i + 1)) as (a & ys & rs & E & H & Hh); [lia|lia|].
      cbn [loop]. rewrite E. destruct xs as [|x' xs], ps as [|p' ps], ys as [|y' ys], rs as [|r' rs]; try done.
      + destruct (last_one i a x p) as (a2 & y & -> & Hl2 & H1 & H2 & H3); [cbn [length] in Hi; lia|].
        exists a2, [y], [None]. split_and!; done.
      + destruct (one i a x p) with (x' := x') (p' := p') (y' := y') (r' := r') as (a2 & y & r & -> & Hl2 & H1 & H2 & H3); [cbn [length] in Hi; lia|done|].
        exists a2, (y :: y' :: ys), (r :: r' :: rs). split_and!; done.
  Qed.
End Frame.
Lemma not_full c b out i xs : forall ps, full (fst (loop c b out false i xs ps)) = false.
Proof.
  revert i. induction xs as [|x xs IH]; intros i [|p ps]; try done. cbn [loop]. specialize (IH (i + 1) ps).
  destruct (loop c b out false (i + 1) xs ps) as [a ys]. cbn [fst] in IH. unfold oneBin. rewrite IH. cbn [andb].
  repeat case_match; simplify_eq; done.
Qed.
Lemma locked k xs : forall i ps ys rs, laid k i xs ps ys rs ->
  forall n p p' y y', rs !! n = Some (Some 0%nat) -> ps !! n = Some p -> ps !! S n = Some p' -> ys !! n = Some y -> ys !! S n = Some y' ->
  (unwrapped y - unwrapped y' == p - p')%Q.
Proof.
  induction xs as [|x xs IH]; intros i [|p0 ps] [|y0 ys] [|r0 rs] H; try done. intros [|n] p p' y y' Hr Hp Hp' Hy Hy'.
  - cbn in Hr, Hp, Hp', Hy, Hy'. simplify_eq. destruct H as (_ & _ & H & _).
    destruct xs as [|x1 xs], ps as [|p1 ps], ys as [|y1 ys], rs as [|r1 rs]; try done. cbn in Hp', Hy'. simplify_eq.
    destruct H as (_ & _ & H). change (inject_Z (Z.of_nat 0)) with 0%Q in H. change (inject_Z (8 - Z.of_nat 0)) with 8%Q in H. lra.
  - destruct H as (_ & _ & _ & H). by apply (IH _ _ _ _ H n).
Qed.

(** C93: with laminar phases, a ratio other than 1 and no transient, every bin either goes on by its own frequency or
    follows the one above it, as [laid] says: the nearer it is to the bin it follows, the more it keeps the difference
    of phase to it that the input has; a bin right below one that goes by itself keeps it exactly. *)
Theorem C93_laminar : forall ch k, sensible (cfg k) -> laminar (cfg k) = true -> unity (ratio k) = false -> phaseReset k = false ->
  outInc k <> inc (cfg k) -> length (bins ch) = length (phases k) -> Z.of_nat (length (bins ch)) = fft (cfg k) / 2 + 1 ->
  exists rs, laid k 0 (bins ch) (phases k) (bins (fst (play ch k))) rs /\
    snd (play ch k) = unwrapped <$> bins (fst (play ch k)) /\
    forall n p p' o o', rs !! n = Some (Some 0%nat) -> phases k !! n = Some p -> phases k !! S n = Some p' ->
      snd (play ch k) !! n = Some o -> snd (play ch k) !! S n = Some o' -> (o - o' == p - p')%Q.
Proof.
  intros ch k Hc Hl Hu Hp Ho L N. destruct (frame k (unityLow ch) Hc Hu Hl (bins ch) (phases k) 0) as (a & ys & rs & E & H & _); [done|lia|].
  pose proof (not_full (cfg k) (bandsOf (cfg k) (ratio k) false (unityLow ch)) (outInc k) 0 (bins ch) (phases k)) as F. rewrite E in F. cbn [fst] in F.
  assert (play ch k = (Chan ys false (unityLow (modifyChunk (cfg k) (ratio k) (outInc k) (phaseReset k) ch (phases k))), unwrapped <$> ys)) as ->.
  { unfold play, synthesise, modifyChunk. rewrite Hp, E, F. assert (outInc k =? inc (cfg k) = false) as -> by lia. rewrite andb_false_r. done. }
  cbn [fst snd bins]. exists rs. split_and!; try done. intros n p p' o o' Hr P P' O O'.
  rewrite list_lookup_fmap in O, O'. destruct (ys !! n) as [y|] eqn:Y; [|done]. destruct (ys !! S n) as [y'|] eqn:Y'; [|done]. cbn in O, O'. simplify_eq.
  by apply (locked k _ _ _ _ _ H n).
Qed.
Print Assumptions C93_laminar.

(** Nine bins, the errors growing downwards, ratio 2: above 1800 Hz up to three bins follow.  The
    phases 1.77 and 2.01 of the last two bins are played as 3.78 and 4.02. *)
Definition nine : chunk := Chunk (Config 4 16 44100 true false 600 1200 12000) 2 8 false false
  ((fun i => inject_Z i / 4 + inject_Z (9 - i) / 100)%Q <$> [0; 1; 2; 3; 4; 5; 6; 7; 8]).
Example C93_laminar_example : sensible (cfg nine) /\ unity (ratio nine) = false /\ length (bins (construct 9)) = length (phases nine) /\
  exists rs, laid nine 0 (bins (construct 9)) (phases nine) (bins (fst (play (construct 9) nine))) rs /\
    (Qred <$> snd (play (construct 9) nine)) = [9 # 50; 33 # 50; 261 # 160; 93 # 50; 21 # 10; 11331 # 3200; 2937 # 800; 189 # 50; 201 # 50]%Q.
Proof.
  split; [by vm_compute|]. split; [done|]. split; [done|].
  destruct (C93_laminar (construct 9) nine) as (rs & H & _ & _); [by vm_compute|done..|]. exists rs. split; [done|].
  vm_compute. reflexivity.
Qed.
