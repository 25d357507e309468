(** What a cross-fade can put into the output; the real-number instance. *)
From stdpp Require Import prelude.
From Coq Require Import ZArith QArith Qround Qreals Reals Lia Lra.
From Verif.Resampler Require Import Model Spec Phases Core Loops Proofs Changes.
Local Open Scope Z_scope.
Local Set Default Proof Using "Type*".

Lemma Forall_mapM {X Y} (P : Y -> Prop) (f : X -> option Y) : forall l k,
  mapM f l = Some k -> (forall x y, f x = Some y -> P y) -> Forall P k.
Proof.
  intros l k H HP. apply mapM_Some_1 in H. induction H; constructor; eauto.
Qed.
Lemma Forall_getZ {X} (P : X -> Prop) l i x : Forall P l -> getZ l i = Some x -> P x.
Proof.
  unfold getZ. destruct (_ <? _); [done|]. intros H E. by eapply Forall_lookup_1.
Qed.
Lemma Forall_setZ {X} (P : X -> Prop) l i x l' : Forall P l -> P x -> setZ l i x = Some l' -> Forall P l'.
Proof.
  unfold setZ. destruct (_ && _); [|done]. intros H Hx [= <-]. by apply Forall_insert.
Qed.

(** ** Sets of samples closed under the arithmetic *)
Record closed (A : arith) (P : T A -> Prop) : Prop := Closed {
  c_zero : P (zero A);
  c_dot m xs ys : Forall P xs -> Forall P ys -> P (fdot A m xs ys);
  c_scale q x : P x -> P (fscale A q x);
  c_lerp q x y : P x -> P y -> P (flerp A q x y);
  c_mix k n x y : n <> 0 -> P x -> P y -> P (fmix A k n x y);
  c_window n q i : P (window A n q i) }.

Section Closed.
Context (A : arith) (c : config) (P : T A -> Prop) (HP : closed A P).
Notation state := (state A).
Definition clean (s : state) : Prop := Forall P (buffer s) /\ Forall P (sorted_filter s).

Lemma clean_transfer : forall xs i pc nc n buf fl, Forall P xs -> Forall P buf ->
  Forall P (fst (transfer A xs i pc nc n buf fl)).
Proof.
  induction xs as [|x xs IH]; intros i pc nc n buf fl Hx Hb; cbn [transfer]; [done|].
  apply Forall_cons_1 in Hx as [Hx Hxs]. destruct (_ && _); apply IH; try done. by apply Forall_insert.
Qed.
Lemma clean_filter n q : Forall P (make_filter A n q).
Proof. unfold make_filter. apply Forall_fmap, list.Forall_forall. intros. apply (c_window _ _ HP). Qed.
Lemma clean_sort flt num ini : Forall P flt -> forall f p tbl srt r, Forall P srt ->
  sort_loop A f flt num ini p tbl srt = Some r -> Forall P (snd r).
Proof.
  intros Hf. induction f as [|f IH]; intros p tbl srt r Hs; cbn [sort_loop]; [done|].
  destruct (getZ tbl p) as [ph|]; [|done]. cbn [mbind option_bind].
  destruct (setZ _ _ _) as [tbl'|]; [|done]. cbn [mbind option_bind].
  destruct (mapM _ _) as [vals|] eqn:E; [|done]. cbn [mbind option_bind].
  assert (Hv : Forall P vals).
  { eapply Forall_mapM; [exact E|]. intros x y Hy. cbn in Hy. exact (Forall_getZ P flt _ _ Hf Hy). }
  destruct (_ =? _); [intros [= <-]; cbn; by apply Forall_app|]. apply IH. by apply Forall_app.
Qed.
Lemma clean_state_for_ratio target ratio prev s : clean target -> clean prev ->
  state_for_ratio A c target ratio prev = Some s -> clean s.
Proof.
  intros [_ Ht] [Hp _]. unfold state_for_ratio. destruct (pick_params c ratio) as [p|]; [|done].
  cbn [mbind option_bind]. cbv zeta. destruct (_ || _); [done|]. destruct (_ =? _); [done|].
  destruct (phase_data_for _ _ _ _ _ _ _ _) as [[info srt]|] eqn:E; [|done]. cbn [mbind option_bind].
  assert (Hs : Forall P srt).
  { revert E. unfold phase_data_for. destruct (fixed c).
    - intros E. by apply (clean_sort _ _ _ (clean_filter _ _)) in E.
    - by intros [= _ <-]. }
  assert (Hz : forall n, Forall P (replicate n (zero A))) by (intros; apply Forall_replicate, (c_zero _ _ HP)).
  destruct (zlen (buffer prev) =? 0); [intros [= <-]; split; cbn; [apply Hz|done]|].
  match goal with |- context [if zlen (buffer prev) =? ?n then _ else transfer _ ?a ?b ?d ?e ?f ?g ?h] =>
    assert (Ht' := clean_transfer a b d e f g h); destruct (zlen (buffer prev) =? n) end.
  - destruct (_ =? _); [done|]. intros [= <-]. by split.
  - destruct (transfer _ _ _ _ _ _ _ _) as [buf fl]. destruct (_ =? _); [done|]. intros [= <-].
    split; [|done]. cbn in *. apply Ht'; [by apply Forall_take|apply Hz].
Qed.
Lemma clean_proto flen j x : proto_value A c flen j = Some x -> P x.
Proof.
  unfold proto_value. destruct (_ =? _); [done|]. cbv zeta.
  assert (Hp : Forall P (prototype A c)).
  { apply Forall_app. split; [apply clean_filter|]. constructor; [apply (c_zero _ _ HP)|done]. }
  destruct (getZ _ (Qfloor _)) as [a|] eqn:Ea; [|done]. cbn [mbind option_bind].
  destruct (getZ _ (_ + 1)) as [b|] eqn:Eb; [|done]. cbn [mbind option_bind].
  intros [= <-]. apply (c_lerp _ _ HP); by eapply (Forall_getZ P).
Qed.
Lemma clean_one s y s' : clean s -> reconstruct_one A c s = Some (y, s') -> P y /\ clean s'.
Proof.
  intros [Hb Hs]. unfold reconstruct_one. destruct (getZ _ _) as [pr|]; [|done]. cbn [mbind option_bind]. cbv zeta.
  destruct (mapM (fun i => if fixed c then _ else _) _) as [taps|] eqn:Et; [|done]. cbn [mbind option_bind].
  destruct (mapM (fun i => getZ (buffer s) _) _) as [xs|] eqn:Ex; [|done]. cbn [mbind option_bind].
  assert (Ht : Forall P taps).
  { eapply Forall_mapM; [exact Et|]. intros i x. cbn. destruct (fixed c).
    - intros E. by eapply (Forall_getZ P).
    - apply clean_proto. }
  assert (Hx : Forall P xs).
  { eapply Forall_mapM; [exact Ex|]. intros i x E. cbn in E. exact (Forall_getZ P _ _ _ Hb E). }
  assert (Hy : P (fscale A (p_scale (parameters s)) (fdot A (fixed c && (channels c =? 1)) taps xs))).
  { by apply (c_scale _ _ HP), (c_dot _ _ HP). }
  destruct (_ =? 0).
  - destruct ((0 <=? _) && _); [|done]. intros [= <- <-]. split; [done|]. split; [|done]. cbn.
    apply Forall_app. split; [by apply Forall_drop|]. apply Forall_replicate, (c_zero _ _ HP).
  - intros [= <- <-]. split; [done|]. by split.
Qed.
Lemma clean_take : forall ins s s' rest, clean s -> Forall P ins -> take_input A s ins = Some (s', rest) ->
  clean s' /\ Forall P rest.
Proof.
  induction ins as [|x ins IH]; intros s s' rest Hs Hi; cbn [take_input]; [by intros [= <- <-]|].
  destruct (_ <? _); [|by intros [= <- <-]].
  destruct (setZ _ _ _) as [b|] eqn:E; [|done]. cbn [mbind option_bind].
  apply Forall_cons_1 in Hi as [Hx Hi]. apply IH; [|done]. destruct Hs as [Hb Hs]. split; [|done]. cbn.
  exact (Forall_setZ P _ _ _ _ Hb Hx E).
Qed.
Lemma clean_main final : forall n s ins outs s' rest, clean s -> Forall P ins ->
  main_loop A c n final s ins = Some (outs, s', rest) -> Forall P outs /\ clean s'.
Proof.
  induction n as [|n IH]; intros s ins outs s' rest Hs Hi; cbn [main_loop]; [by intros [= <- <- <-]|].
  destruct (take_input A s ins) as [[s1 r1]|] eqn:E; [|done]. cbn [mbind option_bind].
  destruct (clean_take _ _ _ _ Hs Hi E) as [Hs1 Hr1].
  destruct (ready A final s1); [|by intros [= <- <- <-]].
  destruct (reconstruct_one A c s1) as [[y s2]|] eqn:E2; [|done]. cbn [mbind option_bind].
  destruct (clean_one _ _ _ Hs1 E2) as [Hy Hs2].
  destruct (main_loop A c n final s2 r1) as [[[ys s3] r3]|] eqn:E3; [|done]. cbn [mbind option_bind].
  intros [= <- <- <-]. destruct (IH _ _ _ _ _ Hs2 Hr1 E3). split; [by constructor|done].
Qed.
Lemma clean_fade fl : forall outs s k ins outs' s' k', clean s -> Forall P ins -> Forall P outs ->
  (fl = 0 -> k <= 0) -> fade_loop A c s k fl ins outs = Some (outs', s', k') -> Forall P outs' /\ clean s'.
Proof.
  induction outs as [|y outs IH]; intros s k ins outs' s' k' Hs Hi Ho Hk; cbn [fade_loop];
    [by intros [= <- <- <-]|].
  destruct (Z.ltb_spec 0 k) as [Hlt|]; [|by intros [= <- <- <-]].
  destruct (take_input A s ins) as [[s1 r1]|] eqn:E; [|done]. cbn [mbind option_bind].
  destruct (clean_take _ _ _ _ Hs Hi E) as [Hs1 Hr1].
  destruct (_ =? zlen _); [|by intros [= <- <- <-]].
  destruct (reconstruct_one A c s1) as [[r s2]|] eqn:E2; [|done]. cbn [mbind option_bind].
  destruct (clean_one _ _ _ Hs1 E2) as [Hy Hs2].
  destruct (fade_loop _ _ s2 _ _ _ _) as [[[ys s3] k3]|] eqn:E3; [|done]. cbn [mbind option_bind].
  intros [= <- <- <-]. apply Forall_cons_1 in Ho as [Hy0 Ho].
  destruct (IH _ _ _ _ _ _ Hs2 Hr1 Ho ltac:(lia) E3) as [H1 H2]. split; [|done]. constructor; [|done].
  destruct (Z.eqb_spec fl 0); [lia|]. by apply (c_mix _ _ HP).
Qed.

(** No fade is in progress when a call is too short for one. *)
Definition fade_room (b : bq A) (o : op A) : Prop :=
  match o with
  | Resample ins n ratio _ => fade_length c (zlen ins / channels c) n ratio = 0 -> fade_count b <= 0
  | Reset => True
  end.
Definition inputs_in (o : op A) : Prop :=
  match o with Resample ins _ _ _ => Forall P ins | Reset => True end.
Definition clean_bq (b : bq A) : Prop := clean (cur b) /\ clean (old b).
Lemma clean_step b o ys b' : 1 <= channels c -> clean_bq b -> inputs_in o -> fade_room b o ->
  step A c b o = Some (ys, b') -> Forall P ys /\ clean_bq b'.
Proof.
  intros Hch [Hc Ho] Hin Hroom. destruct o as [ins n ratio final|]; cbn [step].
  2: { intros [= <- <-]. by split. }
  cbn in Hin, Hroom. unfold resampleInterleaved. destruct (_ =? 0); [done|]. cbv zeta.
  rewrite Z.quot_div_nonneg by (try lia; apply zlen_nonneg).
  set (fl := fade_length _ _ _ _) in *.
  destruct (prepare A c b ratio fl) as [b1|] eqn:E; [|done]. cbn [mbind option_bind].
  assert (Hb1 : clean_bq b1 /\ (fl = 0 -> fade_count b1 <= 0)).
  { revert E. unfold prepare. destruct (negb _).
    - destruct (state_for_ratio _ _ _ _ _) as [s|] eqn:E; [|done]. intros [= <-].
      split; [split; [by eapply clean_state_for_ratio in E|done]|done].
    - destruct (Qeq_bool _ _); [by intros [= <-]|].
      destruct (state_for_ratio _ _ _ _ _) as [s|] eqn:E; [|done]. intros [= <-].
      split; [split; [by eapply clean_state_for_ratio in E|done]|]. cbn.
      destruct (smooth c); [lia|done]. }
  destruct Hb1 as [[Hc1 Ho1] Hf1].
  destruct (main_loop _ _ _ _ _ _) as [[[outs s1] r1]|] eqn:Em; [|done]. cbn [mbind option_bind].
  destruct (clean_main _ _ _ _ _ _ _ Hc1 Hin Em) as [Hout Hs1].
  destruct (fade_loop _ _ _ _ _ _ _) as [[[ys' f] k]|] eqn:Ef; [|done]. cbn [mbind option_bind].
  destruct (clean_fade _ _ _ _ _ _ _ _ Ho1 Hin Hout Hf1 Ef) as [Hy Hf]. intros [= <- <-]. by split.
Qed.
(** Along a run. *)
Fixpoint all_room (b : bq A) (ops : list (op A)) : Prop :=
  match ops with
  | [] => True
  | o :: ops => fade_room b o /\ forall ys b', step A c b o = Some (ys, b') -> all_room b' ops
  end.
Lemma clean_run : 1 <= channels c -> forall ops b yss b', clean_bq b -> Forall inputs_in ops -> all_room b ops ->
  run A c b ops = Some (yss, b') -> Forall (Forall P) yss.
Proof.
  intros Hch. induction ops as [|o ops IH]; intros b yss b' Hb Hi Hroom; cbn [run]; [by intros [= <- <-]; constructor|].
  destruct Hroom as [Hr Hrs].
  apply Forall_cons_1 in Hi as [Hi His].
  destruct (step A c b o) as [[ys b1]|] eqn:E; [|done]. cbn [mbind option_bind].
  destruct (clean_step b o ys b1 Hch Hb Hi Hr E) as [Hy Hb1].
  destruct (run A c b1 ops) as [[zss b2]|] eqn:E2; [|done]. cbn [mbind option_bind].
  intros [= <- <-]. constructor; [done|]. by eapply IH; eauto.
Qed.
Lemma clean_construct : clean_bq construct.
Proof. split; split; cbn; constructor. Qed.
(** With large enough calls there is always room. *)
Definition large_call (o : op A) : Prop :=
  match o with
  | Resample ins n ratio _ => 2 <= n /\ (2 <= inject_Z (zlen ins / channels c) * ratio)%Q
  | Reset => True
  end.
Lemma large_room : forall ops b, Forall large_call ops -> all_room b ops.
Proof.
  induction ops as [|o ops IH]; intros b H; [done|]. apply Forall_cons_1 in H as [H Hs]. split; [|auto].
  destruct o as [ins n ratio final|]; [|done]. destruct H as [H1 H2]. cbn. unfold fade_length.
  assert (2 <= Qfloor (inject_Z (zlen ins / channels c) * ratio)) by (by apply Qfloor_spec).
  assert (1 <= Z.min n (Qfloor (inject_Z (zlen ins / channels c) * ratio)) `quot` 2).
  { apply Z.quot_le_lower_bound; lia. }
  lia.
Qed.
(** Nor is there ever a fade when ratio changes are sudden. *)
Lemma sudden_room : 1 <= channels c -> smooth c = false -> forall ops b,
  bq_ok A c b -> Forall (valid A c) ops -> all_room b ops.
Proof.
  intros Hch Hsm. induction ops as [|o ops IH]; intros b Hb Hv; [done|].
  apply Forall_cons_1 in Hv as [Hv Hvs]. split.
  - destruct o; [|done]. cbn. intros _. destruct Hb as (_ & _ & _ & _ & _ & H). rewrite H by done. lia.
  - intros ys b' E. destruct (step_ok A c Hch b o Hb Hv) as (ys2 & b2 & E2 & Hb2 & _).
    rewrite E in E2. injection E2 as <- <-. by apply IH.
Qed.
End Closed.

(** ** The real numbers, with [None] for NaN *)
Local Open Scope R_scope.
Definition lift2 (f : R -> R -> R) (a b : option R) : option R := x ← a; y ← b; Some (f x y).
(** BQResampler.cpp:213-215 *)
Definition mixture (k n : Z) : R := / 2 * (1 - cos (PI * (IZR (k - 1) / IZR n))).
Definition real_arith (win : Z -> Q -> Z -> R) : arith :=
  Arith (option R) (Some 0) None
    (fun _ xs ys => foldr (lift2 Rplus) (Some 0) (zip_with (lift2 Rmult) xs ys))
    (fun q x => (fun x => Q2R q * x) <$> x)
    (fun q => lift2 (fun a b => (1 - Q2R q) * a + Q2R q * b))
    (fun k n => lift2 (fun r y => r * mixture k n + y * (1 - mixture k n)))
    (fun n q i => Some (win n q i)).

Lemma mixture_range k n : 0 <= mixture k n <= 1.
Proof. unfold mixture. pose proof (COS_bound (PI * (IZR (k - 1) / IZR n))). lra. Qed.
Lemma real_closed win : closed (real_arith win) (fun x => x <> None).
Proof.
  constructor; cbn; try done.
  - intros _ xs ys Hx. revert ys. induction Hx as [|x xs Hx Hxs IH]; intros [|y ys] Hy; cbn; try done.
    apply Forall_cons_1 in Hy as [Hy Hys]. specialize (IH ys Hys).
    destruct x, y; try done. destruct (foldr _ _ _); done.
  - intros q [x|]; done.
  - intros q [x|] [y|]; done.
  - intros k n [x|] [y|]; done.
Qed.
(** Between old and new. *)
Definition convex (z r y : option R) : Prop :=
  r = None \/ y = None \/ exists a b m, r = Some a /\ y = Some b /\ 0 <= m <= 1 /\ z = Some (m * a + (1 - m) * b).
Lemma mixed_convex win n k r y : n <> 0%Z -> convex (mixed (real_arith win) n k r y) r y.
Proof.
  intros Hn. unfold mixed. destruct (Z.eqb_spec n 0); [lia|]. destruct r as [a|]; [|by left].
  destruct y as [b|]; [|by right; left]. right. right. exists a, b, (mixture k n).
  split_and!; try done; try apply mixture_range. cbn. f_equal. lra.
Qed.
