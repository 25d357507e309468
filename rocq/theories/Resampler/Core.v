(** One state of the resampler: well-formedness and single steps. *)
From stdpp Require Import prelude.
From Coq Require Import ZArith QArith Qround Qabs Lia Znumtheory.
From Verif.MathMisc Require Import Model Spec Proofs.
From Verif.Resampler Require Import Model Spec Phases.
Local Open Scope Z_scope.
Local Set Default Proof Using "Type*".

Lemma Qfloor_spec q n : (inject_Z n <= q)%Q <-> n <= Qfloor q.
Proof.
  split; intros H.
  - rewrite <- (Qfloor_Z n). by apply Qfloor_resp_le.
  - eapply Qle_trans; [|apply Qfloor_le]. by rewrite <- Zle_Qle.
Qed.

Lemma farey_mono : forall f g ratio eps m st r, (f <= g)%nat -> farey_loop f ratio eps m st = Some r ->
  farey_loop g ratio eps m st = Some r.
Proof.
  induction f as [|f IH]; intros g ratio eps m st r Hfg; [done|].
  destruct g as [|g]; [lia|]. cbn [farey_loop]. destruct st as [a b cc d pa pb pc pd].
  destruct (_ && _); [|done]. cbv zeta.
  destruct (Qlt_le_dec _ eps); [done|].
  destruct (Qlt_le_dec _ ratio); apply IH; lia.
Qed.

Section Core.
Context (A : arith) (c : config) (Hch : 1 <= channels c).
Notation T := (T A).
Notation ch := (channels c).
Notation state := (state A).
Notation len flen num p := (ceil_div (flen - p) num).

Record good (s : state) (num den half blen : Z) : Prop := Good {
  g_num : 1 <= num;
  g_den : 1 <= den;
  g_gcd : Z.gcd num den = 1;
  g_half : 6 * Z.max num den <= half;
  g_pn : numerator (parameters s) = num;
  g_pd : denominator (parameters s) = den;
  g_flen : filter_length s = 2 * half + 1;
  g_init : initial_phase s = r0 num half;
  g_info : rec_ok A num den (2 * half + 1)
             (make_filter A (2 * half + 1) (peak_to_zero (parameters s)))
             (phase_info s) (sorted_filter s) (fun _ => fixed c = true);
  g_phase : 0 <= current_phase s < num;
  g_chan : 0 <= current_channel s < ch;
  g_buf : zlen (buffer s) = blen * ch;
  g_blen : 2 * q0 num half + 1 <= blen;
  g_centre : centre s = blen / 2 * ch;
  g_left : left s = (blen / 2 - q0 num half) * ch;
  g_fill : 0 < fill s <= blen * ch;
  g_whole : (ch | fill s);
  g_sorted : fixed c = false -> sorted_filter s = [] }.

Definition tap (s : state) (j : Z) : T := filter_tap A c (parameters s) (filter_length s) j.

(** What the next sample is and what the next state is. *)
Definition out_taps (s : state) (num half blen : Z) : Z :=
  Z.min (len (2 * half + 1) num (current_phase s)) (blen - blen / 2 + q0 num half).
Definition out_value (s : state) (num half blen : Z) : T :=
  let ts := seqZ 0 (out_taps s num half blen) in
  fscale A (p_scale (parameters s))
    (fdot A (fixed c && (ch =? 1))
       ((fun i => tap s (i * num + current_phase s)) <$> ts)
       ((fun i => stream_at (zero A) (buffer s) (left s + i * ch + current_channel s)) <$> ts)).
Definition advance (s : state) (num den : Z) : state :=
  if current_channel s + 1 =? ch then
    let d := ceil_div (Z.max 0 (den - current_phase s)) num * ch in
    State (parameters s) (initial_phase s) ((current_phase s - den) mod num) 0 (filter_length s)
      (phase_info s) (sorted_filter s)
      (drop (Z.to_nat d) (buffer s) ++ replicate (Z.to_nat d) (zero A))
      (left s) (centre s) (fill s - d)
  else
    State (parameters s) (initial_phase s) (current_phase s) (current_channel s + 1)
      (filter_length s) (phase_info s) (sorted_filter s) (buffer s) (left s) (centre s) (fill s).

Lemma q0_drop num den half p : 1 <= num -> 1 <= den -> 6 * Z.max num den <= half -> 0 <= p ->
  0 <= ceil_div (Z.max 0 (den - p)) num < q0 num half.
Proof.
  intros Hn Hd Hh Hp. pose proof (half_eq num half Hn ltac:(lia)) as He.
  pose proof (r0_range num half Hn ltac:(lia)).
  pose proof (ceil_div_spec (Z.max 0 (den - p)) num ltac:(lia)) as Hc.
  set (x := ceil_div _ _) in *. split; [nia|].
  assert (den + num <= q0 num half * num) by nia. nia.
Qed.

Lemma make_filter_len n q : 0 <= n -> zlen (make_filter A n q) = n.
Proof. intros. unfold make_filter. by rewrite zlen_fmap, zlen_seqZ. Qed.

(** The interpolated prototype. *)
Lemma proto_get i : 0 <= i <= proto_length c ->
  getZ (prototype A c) i =
    Some (if i <? proto_length c then window A (proto_length c) (inject_Z (proto_p (qp c))) i else zero A).
Proof.
  intros Hi. unfold prototype. assert (Hl : 0 <= proto_length c).
  { unfold proto_length, qp. destruct (qual c); cbn; lia. }
  unfold getZ. destruct (Z.ltb_spec i 0); [lia|].
  destruct (Z.ltb_spec i (proto_length c)).
  - rewrite lookup_app_l.
    + pose proof (getZ_seqZ (window A (proto_length c) (inject_Z (proto_p (qp c)))) (proto_length c) i) as Hg.
      unfold getZ in Hg. destruct (Z.ltb_spec i 0); [lia|]. apply Hg. lia.
    + pose proof (make_filter_len (proto_length c) (inject_Z (proto_p (qp c))) Hl). unfold zlen in *. lia.
  - replace i with (proto_length c) by lia.
    pose proof (make_filter_len (proto_length c) (inject_Z (proto_p (qp c))) Hl) as Hm. unfold zlen in *.
    rewrite lookup_app_r by lia. rewrite list_lookup_singleton_Some || idtac.
    replace (_ - _)%nat with 0%nat by lia. done.
Qed.
Lemma proto_value_ok flen j p : 1 < flen -> 0 <= j < flen -> fixed c = false ->
  proto_value A c flen j = Some (filter_tap A c p flen j).
Proof.
  intros Hf Hj Hfx. unfold proto_value, filter_tap. rewrite Hfx.
  destruct (Z.eqb_spec (flen - 1) 0); [lia|]. cbv zeta.
  change (proto_p (quality_params (qual c)) * p_multiple (quality_params (qual c)) + 1)
    with (proto_length c).
  change (quality_params (qual c)) with (qp c).
  set (x := (_ * _)%Q).
  assert (Hl : 2 <= proto_length c).
  { unfold proto_length, qp. destruct (qual c); cbn; lia. }
  assert (Hx : (0 <= x)%Q /\ (x <= inject_Z (proto_length c - 1))%Q).
  { assert (Hfq : (0 < inject_Z (flen - 1))%Q) by (rewrite <- (Zlt_Qlt 0); lia).
    assert (Hm : (inject_Z (proto_length c - 1) / inject_Z (flen - 1) * inject_Z j ==
                  inject_Z ((proto_length c - 1) * j) / inject_Z (flen - 1))%Q).
    { rewrite inject_Z_mult. field. intros E. rewrite E in Hfq. by apply Qlt_irrefl in Hfq. }
    unfold x. rewrite Hm. split.
    - apply Qle_shift_div_l; [done|]. rewrite Qmult_0_l. rewrite <- (Zle_Qle 0). nia.
    - apply Qle_shift_div_r; [done|]. rewrite <- inject_Z_mult, <- Zle_Qle. nia. }
  assert (Hb : 0 <= Qfloor x <= proto_length c - 1).
  { split.
    - apply Qfloor_spec. apply Hx.
    - rewrite <- (Qfloor_Z (proto_length c - 1)). apply Qfloor_resp_le, Hx. }
  rewrite !proto_get by lia. done.
Qed.

Lemma reconstruct_ok s num den half blen : good s num den half blen -> centre s <= fill s ->
  reconstruct_one A c s = Some (out_value s num half blen, advance s num den) /\
  good (advance s num den) num den half blen.
Proof.
  intros G Hfill.
  destruct G as [Hnum Hden Hgcd Hhalf Hpn Hpd Hflen Hinit Hinfo Hphase Hchan Hbuf Hblen Hcen Hleft
    Hfl Hwh Hso].
  pose proof (q0_drop num den half (current_phase s) Hnum Hden Hhalf ltac:(lia)) as Hdrop.
  pose proof (half_eq num half Hnum ltac:(lia)) as He.
  pose proof (r0_range num half Hnum ltac:(lia)) as Hr.
  pose proof (Z.div_mod blen 2 ltac:(lia)) as Hb2. pose proof (Z.mod_pos_bound blen 2 ltac:(lia)).
  destruct Hinfo as [Hinl Hinfo].
  destruct (Hinfo _ Hphase) as (pr & Hpr & Hnext & Hlen & Hdr & Hstart).
  pose proof (ceil_div_spec (2 * half + 1 - current_phase s) num ltac:(lia)) as Hcl.
  assert (Hquot : (zlen (buffer s) - left s) `quot` ch = blen - blen / 2 + q0 num half).
  { rewrite Hbuf, Hleft. rewrite Z.quot_div_nonneg by nia.
    replace (blen * ch - (blen / 2 - q0 num half) * ch)
      with ((blen - blen / 2 + q0 num half) * ch) by lia.
    apply Z.div_mul. lia. }
  assert (Hd : 0 <= ph_drop pr * ch < fill s).
  { rewrite Hdr. nia. }
  split.
  - unfold reconstruct_one. rewrite Hpr. cbn [mbind option_bind]. cbv zeta.
    rewrite Hquot, Hlen. fold (out_taps s num half blen).
    assert (Hin : forall i, i ∈ seqZ 0 (out_taps s num half blen) ->
      0 <= i < len (2 * half + 1) num (current_phase s) /\ 0 <= i < blen - blen / 2 + q0 num half).
    { intros i Hi%elem_of_seqZ. unfold out_taps in Hi. lia. }
    rewrite (mapM_ext _ (fun i => stream_at (zero A) (buffer s) (left s + i * ch + current_channel s))).
    2: { intros i Hi. apply Hin in Hi as [Hi1 Hi2]. apply getZ_stream. rewrite Hbuf, Hleft. nia. }
    rewrite (mapM_ext _ (fun i => tap s (i * num + current_phase s))).
    2: { intros i Hi. apply Hin in Hi as [Hi1 Hi2]. unfold tap. destruct (fixed c) eqn:Hfx.
         - destruct (Hstart eq_refl) as (tail & pre & Hs1 & Hs2). cbn beta iota.
           rewrite Hs1, Hs2.
           rewrite (getZ_stream (zero A)).
           + f_equal. unfold stream_at, zlen. destruct (Z.ltb_spec (Z.of_nat (length pre) + i) 0); [lia|].
             rewrite lookup_app_r by lia.
             pose proof (row_length A num den (2 * half + 1) ltac:(lia) ltac:(lia) Hgcd ltac:(lia)
               (make_filter A (2 * half + 1) (peak_to_zero (parameters s)))
               (make_filter_len (2 * half + 1) _ ltac:(lia)) _ Hphase) as Hrow.
             rewrite lookup_app_l by (unfold zlen in Hrow; lia).
             replace (Z.to_nat (Z.of_nat (length pre) + i) - length pre)%nat with (Z.to_nat i) by lia.
             unfold row. rewrite list_lookup_fmap, lookup_seqZ_lt by lia. cbn.
             replace (0 + Z.of_nat (Z.to_nat i)) with i by lia.
             rewrite Hflen. unfold filter_tap. rewrite Hfx.
             apply getZ_stream_at. unfold make_filter. apply getZ_seqZ. nia.
           + rewrite !zlen_app.
             rewrite (row_length A num den (2 * half + 1)); try done; try lia.
             * pose proof (zlen_nonneg pre). pose proof (zlen_nonneg tail). lia.
             * apply make_filter_len; lia.
         - rewrite Hpn. apply proto_value_ok; [lia| |done]. rewrite Hflen. nia. }
    cbn [mbind option_bind].
    cbn [mbind option_bind].
    unfold out_value, advance. rewrite Z.rem_mod_nonneg by lia.
    destruct (Z.eqb_spec (current_channel s + 1) ch) as [E|E].
    + rewrite E, Z_mod_same_full. cbn [Z.eqb].
      destruct (_ && _) eqn:B; [|lia]. rewrite Hdr, Hnext. done.
    + rewrite Z.mod_small by lia. destruct (Z.eqb_spec (current_channel s + 1) 0); [lia|]. done.
  - unfold advance. destruct (Z.eqb_spec (current_channel s + 1) ch) as [E|E].
    + rewrite <- Hdr in *. constructor; cbn; try done.
      * by apply Z.mod_pos_bound; lia.
      * lia.
      * rewrite zlen_app, zlen_replicate by lia. unfold zlen in *. rewrite drop_length. lia.
      * lia.
      * apply Z.divide_sub_r; [done|]. apply Z.divide_factor_r.
    + constructor; cbn; try done; lia.
Qed.

(** ** Building a state (lines 477-580) *)
Definition supported (ratio : Q) (p : params) : Prop :=
  pick_params c ratio = Some p /\ 1 <= numerator p /\ 1 <= denominator p /\
  filter_length_for c p <= int_max.

Lemma fill_params_ok ratio n d p : 0 <= n -> 1 <= d -> fill_params c ratio n d = Some p ->
  0 <= numerator p /\ 1 <= denominator p /\ Z.gcd (numerator p) (denominator p) = 1 /\
  numerator p * d = n * denominator p /\ p_ratio p = ratio /\
  peak_to_zero p = (inject_Z (Z.max (denominator p) (numerator p)) / cut (qp c))%Q.
Proof.
  intros Hn Hd. unfold fill_params. rewrite gcd_ok by lia. cbn [mbind option_bind].
  assert (Hg : 0 < Z.gcd n d).
  { pose proof (Z.gcd_nonneg n d). assert (Z.gcd n d <> 0); [|lia].
    intros E. apply Z.gcd_eq_0_r in E. lia. }
  destruct (Z.eqb_spec (Z.gcd n d) 0); [lia|]. intros [= <-]. cbn.
  destruct (Z.gcd_divide_l n d) as [x Hx]. destruct (Z.gcd_divide_r n d) as [y Hy].
  assert (Hqx : n `quot` Z.gcd n d = x).
  { rewrite Hx at 1. apply Z.quot_mul. lia. }
  assert (Hqy : d `quot` Z.gcd n d = y).
  { rewrite Hy at 1. apply Z.quot_mul. lia. }
  rewrite Hqx, Hqy. split_and!; try done; try nia.
  assert (Hz : n / Z.gcd n d = x) by (rewrite Hx at 1; apply Z.div_mul; lia).
  assert (Hw : d / Z.gcd n d = y) by (rewrite Hy at 1; apply Z.div_mul; lia).
  rewrite <- Hz, <- Hw. apply Z.gcd_div_gcd; lia.
Qed.

Lemma fill_params_some ratio n d : 0 <= n -> 1 <= d -> exists p, fill_params c ratio n d = Some p.
Proof.
  intros Hn Hd. unfold fill_params. rewrite gcd_ok by lia. cbn [mbind option_bind].
  destruct (Z.eqb_spec (Z.gcd n d) 0) as [E|E]; [apply Z.gcd_eq_0_r in E; lia|]. by eexists.
Qed.

Lemma flen_half p : 1 <= numerator p -> 1 <= denominator p ->
  peak_to_zero p = (inject_Z (Z.max (denominator p) (numerator p)) / cut (qp c))%Q ->
  filter_length_for c p = 2 * (filter_length_for c p / 2) + 1 /\
  6 * Z.max (numerator p) (denominator p) <= filter_length_for c p / 2.
Proof.
  intros Hn Hd Hp. unfold filter_length_for. rewrite Hp.
  set (m := Z.max (denominator p) (numerator p)).
  set (l := Qfloor _).
  assert (Hl : 12 * m + 1 <= l).
  { apply Qfloor_spec. rewrite inject_Z_plus, inject_Z_mult. apply Qplus_le_compat; [|apply Qle_refl].
    assert (Hc : (inject_Z m <= inject_Z m / cut (qp c))%Q).
    { apply Qle_shift_div_l; [unfold qp; by destruct (qual c)|].
      rewrite <- (Qmult_1_r (inject_Z m)) at 2. apply Qmult_le_l.
      - rewrite <- (Zlt_Qlt 0). lia.
      - unfold qp; by destruct (qual c). }
    assert (Hpm : (inject_Z 12 <= inject_Z (p_multiple (qp c)))%Q) by (unfold qp; by destruct (qual c)).
    rewrite Qmult_comm. eapply Qle_trans.
    - apply Qmult_le_compat_r; [exact Hc|]. done.
    - rewrite !(Qmult_comm (inject_Z m / cut (qp c))). apply Qmult_le_compat_r; [done|].
      eapply Qle_trans; [|exact Hc]. rewrite <- (Zle_Qle 0). lia. }
  pose proof (Zeven_odd_bool) as _.
  destruct (Z.even l) eqn:E.
  - apply Zeven_bool_iff, Zeven_ex in E as [k Hk].
    assert ((l + 1) / 2 = k) by (rewrite Hk; symmetry; apply (Z.div_unique _ 2 _ 1); lia). lia.
  - assert (Z.odd l = true) as [k Hk]%Zodd_bool_iff%Zodd_ex by (by rewrite <- Z.negb_even, E).
    assert (l / 2 = k) by (rewrite Hk; symmetry; apply (Z.div_unique _ 2 _ 1); lia). lia.
Qed.

Lemma roundQ_nonneg q : (0 <= q)%Q -> 0 <= roundQ q.
Proof.
  intros H. unfold roundQ. destruct (Qlt_le_dec q 0) as [Hl|Hl].
  - exfalso. apply (Qlt_irrefl 0). by eapply Qle_lt_trans.
  - apply Qfloor_spec. rewrite <- (Qplus_0_l (inject_Z 0)). apply Qplus_le_compat; [done|]. done.
Qed.

Lemma roundQ_near n a b : 0 <= n -> 0 <= a -> 1 <= b ->
  2 * Z.abs (roundQ (inject_Z n * (inject_Z a / inject_Z b)) * b - a * n) <= b.
Proof.
  intros Hn Ha Hb. set (q := (_ * _)%Q).
  assert (Hbq : (0 < inject_Z b)%Q) by (rewrite <- (Zlt_Qlt 0); lia).
  assert (Hq : (q * inject_Z b == inject_Z (n * a))%Q).
  { unfold q. rewrite inject_Z_mult. field. intros E. rewrite E in Hbq. by apply Qlt_irrefl in Hbq. }
  assert (Hq0 : (0 <= q)%Q).
  { unfold q. apply Qmult_le_0_compat; [rewrite <- (Zle_Qle 0); lia|].
    apply Qle_shift_div_l; [done|]. rewrite Qmult_0_l, <- (Zle_Qle 0). lia. }
  unfold roundQ. destruct (Qlt_le_dec q 0) as [Hl|_].
  { exfalso. apply (Qlt_irrefl 0). by eapply Qle_lt_trans. }
  pose proof (Qfloor_le (q + (1 # 2))) as H1. pose proof (Qlt_floor (q + (1 # 2))) as H2.
  set (z := Qfloor _) in *.
  assert (E1 : (inject_Z (2 * z * b) <= inject_Z (2 * (n * a) + b))%Q).
  { rewrite !inject_Z_mult, inject_Z_plus, inject_Z_mult, <- Hq.
    setoid_replace (inject_Z 2 * inject_Z z * inject_Z b)%Q with (inject_Z z * (2 * inject_Z b))%Q
      by (unfold inject_Z at 1; ring).
    setoid_replace (inject_Z 2 * (q * inject_Z b) + inject_Z b)%Q with ((q + (1 # 2)) * (2 * inject_Z b))%Q
      by (unfold inject_Z at 1; ring).
    apply Qmult_le_compat_r; [done|]. apply Qlt_le_weak.
    apply (Qmult_lt_0_compat 2); [done|done]. }
  assert (E2 : (inject_Z (2 * (n * a) + b) < inject_Z (2 * (z + 1) * b))%Q).
  { rewrite inject_Z_plus, !inject_Z_mult, <- inject_Z_mult, <- Hq.
    setoid_replace (inject_Z 2 * inject_Z (z + 1) * inject_Z b)%Q with (inject_Z (z + 1) * (2 * inject_Z b))%Q
      by (unfold inject_Z at 1; ring).
    setoid_replace (inject_Z 2 * (q * inject_Z b) + inject_Z b)%Q with ((q + (1 # 2)) * (2 * inject_Z b))%Q
      by (unfold inject_Z at 1; ring).
    apply Qmult_lt_compat_r; [|done]. apply (Qmult_lt_0_compat 2); [done|done]. }
  rewrite <- Zle_Qle in E1. rewrite <- Zlt_Qlt in E2. lia.
Qed.

Lemma transfer_ok : forall xs i pc nc n buf fl, zlen buf = n ->
  0 <= i - pc + nc -> i + zlen xs - pc + nc <= n ->
  let r := transfer A xs i pc nc n buf fl in zlen (fst r) = n /\
  snd r = (if zlen xs =? 0 then fl else i + zlen xs - pc + nc) /\
  forall j, stream_at (zero A) (fst r) j =
    if decide (i - pc + nc <= j < i + zlen xs - pc + nc)
    then stream_at (zero A) xs (j - (i - pc + nc)) else stream_at (zero A) buf j.
Proof.
  induction xs as [|x xs IH]; intros i pc nc n buf fl Hb H1 H2; cbn [transfer].
  - cbn. split_and!; try done. intros j. rewrite zlen_nil. case_decide; [lia|done].
  - rewrite zlen_cons in *. pose proof (zlen_nonneg xs). destruct (_ && _) eqn:E; [clear E|lia].
    destruct (IH (i + 1) pc nc n (<[Z.to_nat (i - pc + nc) := x]> buf) (i - pc + nc + 1))
      as (H3 & H4 & H5); [by rewrite zlen_insert|lia|lia|]. split_and!; [done| |].
    + rewrite H4. destruct (Z.eqb_spec (zlen xs) 0), (Z.eqb_spec (zlen xs + 1) 0); lia.
    + intros j. rewrite H5, stream_at_insert by lia.
      destruct (decide (j = i - pc + nc)) as [->|Hj].
      * repeat case_decide; try lia. by rewrite Z.sub_diag.
      * repeat case_decide; try lia; try done. unfold stream_at.
        destruct (Z.ltb_spec (j - (i + 1 - pc + nc)) 0), (Z.ltb_spec (j - (i - pc + nc)) 0); try lia.
        replace (Z.to_nat (j - (i - pc + nc))) with (S (Z.to_nat (j - (i + 1 - pc + nc)))) by lia.
        done.
Qed.

Definition empty (s : state) : Prop := buffer s = [] /\ current_channel s = 0 /\
  (fixed c = false -> sorted_filter s = []).
Definition ok (s : state) : Prop := empty s \/ exists num den half blen, good s num den half blen.

(** The delay line of a state that has been given the stream [xs] and has moved
    on by [u] frames. *)
Definition holds (s : state) (u : Z) (xs : list T) : Prop :=
  fill s = centre s + zlen xs - u * ch /\
  forall i, 0 <= i < zlen (buffer s) ->
    stream_at (zero A) (buffer s) i = stream_at (zero A) xs (i - centre s + u * ch).

(** The last [n] samples of a stream; zeros before. *)
Definition recent (n : Z) (xs : list T) : list T :=
  replicate (Z.to_nat (zlen xs - n)) (zero A) ++ drop (Z.to_nat (zlen xs - n)) xs.
Lemma recent_length n xs : 0 <= n -> zlen (recent n xs) = zlen xs.
Proof. intros. unfold recent, zlen. rewrite app_length, replicate_length, drop_length. lia. Qed.
Lemma recent_at n xs i : 0 <= n -> stream_at (zero A) (recent n xs) i =
  if decide (i < zlen xs - n) then zero A else stream_at (zero A) xs i.
Proof.
  intros Hn. unfold recent. pose proof (zlen_nonneg xs).
  destruct (decide (zlen xs - n <= 0)) as [Hz|Hz].
  - replace (Z.to_nat (zlen xs - n)) with 0%nat by lia. rewrite drop_0. cbn [replicate app].
    case_decide; [|done]. apply stream_at_neg. lia.
  - case_decide.
    + rewrite stream_at_app_l by (rewrite zlen_replicate; lia). apply stream_at_replicate.
    + unfold stream_at. destruct (Z.ltb_spec i 0); [done|].
      rewrite lookup_app_r; rewrite replicate_length; [|lia].
      rewrite lookup_drop. do 2 f_equal. lia.
Qed.

Lemma holds_advance s num den half blen u xs : good s num den half blen -> centre s <= fill s ->
  holds s u xs ->
  holds (advance s num den)
    (if current_channel s + 1 =? ch then u + ceil_div (Z.max 0 (den - current_phase s)) num else u) xs.
Proof.
  intros G Hf [H1 H2].
  pose proof (q0_drop num den half (current_phase s) (g_num _ _ _ _ _ G) (g_den _ _ _ _ _ G)
    (g_half _ _ _ _ _ G) ltac:(pose proof (g_phase _ _ _ _ _ G); lia)) as Hd.
  unfold advance. destruct (Z.eqb_spec (current_channel s + 1) ch) as [E|E]; [|done].
  set (d := ceil_div _ _) in *. split; cbn; [lia|].
  intros i Hi.
  assert (Hl : 0 <= d * ch) by nia.
  rewrite stream_at_app_z, stream_at_drop by lia.
  rewrite zlen_app, zlen_replicate in Hi by lia.
  destruct (decide (d * ch + i < zlen (buffer s))) as [Hb|Hb].
  - rewrite H2 by lia. f_equal. lia.
  - rewrite stream_at_past by lia. symmetry. apply stream_at_past.
    pose proof (g_fill _ _ _ _ _ G). pose proof (g_buf _ _ _ _ _ G). lia.
Qed.

Lemma phase_data_ok target p half : 1 <= numerator p -> 1 <= denominator p ->
  Z.gcd (numerator p) (denominator p) = 1 -> 6 * Z.max (numerator p) (denominator p) <= half ->
  (fixed c = false -> sorted_filter target = []) ->
  exists info sorted,
    phase_data_for A c (2 * half + 1) (peak_to_zero p) (r0 (numerator p) half) (numerator p)
      (denominator p) (sorted_filter target) = Some (info, sorted) /\
    rec_ok A (numerator p) (denominator p) (2 * half + 1)
      (make_filter A (2 * half + 1) (peak_to_zero p)) info sorted (fun _ => fixed c = true) /\
    (fixed c = false -> sorted = []).
Proof.
  intros Hn Hd Hg Hh Hs. unfold phase_data_for.
  pose proof (make_filter_len (2 * half + 1) (peak_to_zero p) ltac:(lia)) as Hm.
  destruct (fixed c) eqn:Hfx.
  - destruct (sort_all A (numerator p) (denominator p) half (2 * half + 1) Hn Hd ltac:(lia) Hg
      ltac:(lia) _ Hm) as (t & srt & He & Hl & Hr).
    exists t, srt. split_and!; [done| |done]. split; [done|]. intros x Hx.
    destruct (Hr x Hx) as (pr & ? & ? & ? & ? & ?). exists pr. split_and!; auto.
  - exists (phase_table (2 * half + 1) (numerator p) (denominator p)), (sorted_filter target).
    split_and!; [done| |done].
    destruct (table_ok A (numerator p) (denominator p) (2 * half + 1) Hn Hd Hg ltac:(lia) _ Hm
      (sorted_filter target)) as [Hl Hr]. split; [done|]. intros x Hx.
    destruct (Hr x Hx) as (pr & ? & ? & ? & ? & ?). exists pr. split_and!; try done.
Qed.

Lemma supported_params ratio p : supported ratio p -> (0 < ratio)%Q ->
  Z.gcd (numerator p) (denominator p) = 1 /\ p_ratio p = ratio /\
  peak_to_zero p = (inject_Z (Z.max (denominator p) (numerator p)) / cut (qp c))%Q.
Proof.
  intros (Hp & Hn & Hd & Hl) Hr. unfold pick_params in Hp.
  set (m := if fixed c then _ else _) in Hp.
  destruct (pickNearestRational (fuel c) ratio m) as [[n d]|] eqn:E; [|done].
  cbn [mbind option_bind] in Hp.
  assert (Hm : 1 <= m).
  { unfold m. destruct (fixed c); [lia|].
    assert (Hq : 1 <= rational_max (qp c)) by (unfold qp; destruct (qual c); cbn; lia).
    destruct (Qlt_le_dec 1 ratio); [|done].
    assert (0 < Qceiling (inject_Z (rational_max (qp c)) / ratio)); [|lia].
    rewrite Zlt_Qlt. eapply Qlt_le_trans; [|apply Qle_ceiling].
    apply Qlt_shift_div_l; [done|]. rewrite Qmult_0_l. rewrite <- (Zlt_Qlt 0). lia. }
  destruct (farey_ok ratio farey_eps m Hr eq_refl Hm) as [f0 Hf0].
  destruct (Hf0 (Nat.max f0 (fuel c)) ltac:(lia)) as (r & Hr1 & Hr2).
  unfold pickNearestRational in *.
  apply (farey_mono _ (Nat.max f0 (fuel c))) in E; [|lia]. rewrite E in Hr1. injection Hr1 as <-.
  cbn in Hr2. destruct Hr2 as (Hr2 & Hr3 & Hr4 & _).
  cbn [fst snd] in *.  destruct (fill_params_ok ratio n d p ltac:(lia) ltac:(lia) Hp) as (_ & _ & H1 & _ & H2 & H3). done.
Qed.

Lemma state_for_ratio_ok target ratio p prev : supported ratio p -> (0 < ratio)%Q ->
  0 <= current_channel target < ch -> (fixed c = false -> sorted_filter target = []) -> ok prev ->
  exists s blen, state_for_ratio A c target ratio prev = Some s /\
    good s (numerator p) (denominator p) (filter_length_for c p / 2) blen /\ parameters s = p /\
    current_channel s = current_channel target /\
    (empty prev -> blen = 2 * q0 (numerator p) (filter_length_for c p / 2) + 1 /\
       current_phase s = initial_phase s /\ holds s 0 []) /\
    (forall u xs, buffer prev <> [] -> holds prev u xs -> holds s u (recent (fill prev) xs)) /\
    (forall pn pd ph pb, good prev pn pd ph pb ->
       Z.abs (current_phase s * pn - current_phase prev * numerator p) <= pn).
Proof.
  intros Hsup Hpos Hcc Hso Hprev.
  destruct (supported_params ratio p Hsup Hpos) as (Hg & Hpr & Hptz).
  destruct Hsup as (Hpick & Hn & Hd & Hmax).
  destruct (flen_half p Hn Hd Hptz) as [Hfl Hhalf].
  set (half := filter_length_for c p / 2) in *.
  unfold state_for_ratio. rewrite Hpick. cbn [mbind option_bind]. cbv zeta.
  destruct (_ || _) eqn:E; [lia|clear E].
  destruct (Z.eqb_spec (numerator p) 0); [lia|].
  fold half. fold (r0 (numerator p) half). fold (q0 (numerator p) half).
  destruct (phase_data_ok target p half Hn Hd Hg Hhalf Hso) as (info & srt & Hpd & Hrec & Hsn).
  rewrite Hfl, Hpd. cbn [mbind option_bind].
  pose proof (half_eq (numerator p) half Hn ltac:(lia)) as He.
  pose proof (r0_range (numerator p) half Hn ltac:(lia)) as Hr.
  pose proof (q0_nonneg (numerator p) half Hn ltac:(lia)) as Hq.
  pose proof (q0_drop (numerator p) (denominator p) half 0 Hn Hd Hhalf ltac:(lia)) as Hqd.
  set (qq := q0 (numerator p) half) in *.
  destruct Hprev as [(Hb & Hc0 & Hs0)|(pn & pd & ph & pb & G)].
  - rewrite Hb, zlen_nil. cbn [Z.eqb].
    rewrite Z.div_0_l by lia. rewrite Z.max_l by lia.
    assert (Hdiv : (2 * qq + 1) / 2 = qq) by (symmetry; apply (Z.div_unique _ 2 _ 1); lia).
    rewrite Hdiv.
    eexists _, (2 * qq + 1). split; [done|]. split_and!; cbn.
    + constructor; cbn -[Z.div Z.mul Z.add]; fold qq; try done; try lia.
      * apply zlen_replicate. nia.
      * nia.
      * apply Z.divide_factor_r.
    + done.
    + done.
    + intros _. split_and!; [done|done|]. split; cbn; [rewrite zlen_nil; lia|].
      intros i Hi. rewrite stream_at_replicate. unfold stream_at. by destruct (_ <? 0).
    + intros u xs Hne. done.
    + intros pn pd ph pb G. pose proof (g_buf _ _ _ _ _ G) as Hgb. pose proof (g_fill _ _ _ _ _ G).
      rewrite Hb, zlen_nil in Hgb. lia.
  - pose proof (g_buf _ _ _ _ _ G) as Hgb. pose proof (g_blen _ _ _ _ _ G) as Hgl.
    pose proof (g_centre _ _ _ _ _ G) as Hgc. pose proof (g_fill _ _ _ _ _ G) as Hgf.
    pose proof (g_num _ _ _ _ _ G) as Hgn. pose proof (g_phase _ _ _ _ _ G) as Hgp.
    pose proof (q0_nonneg pn ph Hgn ltac:(pose proof (g_half _ _ _ _ _ G); lia)) as Hgq.
    destruct (g_info _ _ _ _ _ G) as [Hgi _].
    destruct Hrec as [Hil Hrec].
    rewrite Hgb. destruct (Z.eqb_spec (pb * ch) 0); [nia|].
    rewrite Z.div_mul by lia.
    set (blen := Z.max (2 * qq + 1) pb).
    assert (Hbl : 2 * qq + 1 <= blen /\ pb <= blen) by (unfold blen; lia).
    pose proof (Z.div_mod blen 2 ltac:(lia)). pose proof (Z.mod_pos_bound blen 2 ltac:(lia)).
    pose proof (Z.div_mod pb 2 ltac:(lia)). pose proof (Z.mod_pos_bound pb 2 ltac:(lia)).
    set (z := if _ : bool then (buffer prev, fill prev) else _).
    assert (Hz : zlen (fst z) = blen * ch /\ snd z = fill prev - centre prev + blen / 2 * ch /\
      forall j, 0 <= j < blen * ch -> stream_at (zero A) (fst z) j =
        if decide (j < snd z) then stream_at (zero A) (buffer prev) (j - blen / 2 * ch + centre prev)
        else if decide (pb = blen) then stream_at (zero A) (buffer prev) j else zero A).
    { unfold z. destruct (Z.eqb_spec (pb * ch) (blen * ch)) as [E|E].
      - assert (Hpb : pb = blen) by nia. cbn [fst snd].
        split_and!; [lia|rewrite Hgc, Hpb; lia|]. intros j Hj. case_decide; [f_equal; rewrite Hgc, Hpb; lia|].
        case_decide; [done|lia].
      - assert (Hpb : pb <> blen) by nia.
        destruct (transfer_ok (take (Z.to_nat (fill prev)) (buffer prev)) 0 (centre prev)
          (blen / 2 * ch) (blen * ch) (replicate (Z.to_nat (blen * ch)) (zero A)) (blen / 2 * ch))
          as (H1' & H2' & H3').
        { apply zlen_replicate. nia. }
        { rewrite Hgc. nia. }
        { rewrite Hgc. unfold zlen. rewrite take_length. unfold zlen in Hgb. nia. }
        assert (Hzt : zlen (take (Z.to_nat (fill prev)) (buffer prev)) = fill prev).
        { unfold zlen. rewrite take_length. unfold zlen in Hgb. lia. }
        rewrite Hzt in *. destruct (Z.eqb_spec (fill prev) 0); [lia|].
        split_and!; [done|rewrite H2'; lia|]. intros j Hj. rewrite H3', H2', stream_at_replicate.
        destruct (decide (j < 0 + fill prev - centre prev + blen / 2 * ch)).
        + case_decide.
          * rewrite stream_at_take by lia. f_equal. lia.
          * symmetry. apply stream_at_neg. lia.
        + repeat case_decide; try lia. done. }
    destruct z as [zb zf]. cbn [fst snd] in Hz. destruct Hz as (Hz1 & Hz2 & Hz3).
    destruct (Z.eqb_spec (zlen (phase_info prev)) 0); [lia|].
    set (cp := roundQ _).
    assert (Hcp : 0 <= cp).
    { apply roundQ_nonneg. apply Qmult_le_0_compat; [rewrite <- (Zle_Qle 0); lia|].
      apply Qle_shift_div_l; [rewrite <- (Zlt_Qlt 0); lia|].
      rewrite Qmult_0_l, <- (Zle_Qle 0). lia. }
    eexists _, blen. split; [done|]. split_and!; cbn.
    + constructor; cbn -[Z.div Z.mul Z.add]; fold qq; try done; try lia.
      * destruct (Z.leb_spec (zlen info) cp); lia.
      * assert (pb / 2 <= blen / 2) by lia. assert (pb - pb / 2 <= blen - blen / 2) by lia.
        rewrite Hz2, Hgc. nia.
      * rewrite Hz2, Hgc. apply Z.divide_add_r; [|apply Z.divide_factor_r].
        apply Z.divide_sub_r; [apply (g_whole _ _ _ _ _ G)|apply Z.divide_factor_r].
    + done.
    + done.
    + intros [Hb0 _]. rewrite Hb0, zlen_nil in Hgb. nia.
    + intros u xs _ [Hh1 Hh2]. split; cbn.
      * rewrite recent_length by lia. lia.
      * intros i Hi. rewrite recent_at, Hz3 by lia.
        assert (Hci : i - blen / 2 * ch + u * ch < zlen xs - fill prev <-> i - blen / 2 * ch + centre prev < 0) by lia.
        destruct (decide (i < zf)) as [Hlt|Hge].
        -- destruct (decide (i - blen / 2 * ch + u * ch < zlen xs - fill prev)) as [Hd1|Hd1];
             [by apply stream_at_neg, Hci|].
           rewrite Hh2 by (rewrite Hgb; lia). f_equal. lia.
        -- destruct (decide (i - blen / 2 * ch + u * ch < zlen xs - fill prev)) as [Hd1|Hd1]; [lia|].
           rewrite (stream_at_past _ xs) by lia.
           destruct (decide (pb = blen)) as [Hd2|]; [|done].
           destruct (decide (i < zlen (buffer prev))) as [Hi2|Hi2]; [|apply stream_at_past; lia].
           rewrite Hh2 by lia. apply stream_at_past. rewrite Hd2 in *. lia.
    + intros pn' pd' ph' pb' G'. assert (pn' = pn) as ->.
      { rewrite <- (g_pn _ _ _ _ _ G), <- (g_pn _ _ _ _ _ G'). done. }
      assert (Hrd : 2 * Z.abs (cp * pn - current_phase prev * numerator p) <= pn).
      { unfold cp. rewrite Hgi, Hil. apply roundQ_near; lia. }
      destruct (Z.leb_spec (zlen info) cp) as [Hle|Hlt]; [|lia]. rewrite Hil in *.
      assert (current_phase prev * numerator p <= (pn - 1) * numerator p) by nia.
      assert (numerator p * pn <= cp * pn) by nia. lia.
Qed.
End Core.
