(** The input, output and cross-fade loops. *)
From stdpp Require Import prelude.
From Coq Require Import ZArith QArith Qround Qabs Lia Znumtheory.
From Verif.Resampler Require Import Model Spec Phases Core.
Local Open Scope Z_scope.
Local Set Default Proof Using "Type*".

Lemma next_sample ch q : 1 <= ch ->
  (q + 1) / ch = (if q mod ch + 1 =? ch then q / ch + 1 else q / ch) /\
  (q + 1) mod ch = (if q mod ch + 1 =? ch then 0 else q mod ch + 1).
Proof.
  intros Hc. pose proof (Z.div_mod q ch ltac:(lia)). pose proof (Z.mod_pos_bound q ch ltac:(lia)).
  destruct (Z.eqb_spec (q mod ch + 1) ch) as [E|E].
  - split; symmetry; [apply (Z.div_unique _ _ _ 0)|apply (Z.mod_unique _ _ (q / ch + 1))]; nia.
  - split; symmetry; [apply (Z.div_unique _ _ _ (q mod ch + 1))|apply (Z.mod_unique _ _ (q / ch))]; lia.
Qed.
Lemma seqZ_shift {X} (f : Z -> X) a n : f <$> seqZ a n = (fun i => f (a + i)) <$> seqZ 0 n.
Proof.
  unfold seqZ. rewrite <- !list_fmap_compose. apply list_fmap_ext. intros i x _. cbn. f_equal. lia.
Qed.
Lemma seqZ_S a n : 0 <= n -> seqZ a (n + 1) = a :: seqZ (a + 1) n.
Proof. intros. rewrite seqZ_cons by lia. do 2 f_equal; lia. Qed.

Section Loops.
Context (A : arith) (c : config) (Hch : 1 <= channels c).
Notation T := (T A).
Notation ch := (channels c).
Notation state := (state A).
Notation good := (good A c).
Notation holds := (holds A c).
Notation advance := (advance A c).

Lemma take_input_eq : forall ins (s : state), 0 <= fill s <= zlen (buffer s) ->
  exists b, take_input A s ins =
    Some (set_buffer A s b (fill s + Z.min (zlen ins) (zlen (buffer s) - fill s)),
          drop (Z.to_nat (Z.min (zlen ins) (zlen (buffer s) - fill s))) ins) /\
    zlen b = zlen (buffer s) /\
    forall j, stream_at (zero A) b j =
      if decide (fill s <= j < fill s + Z.min (zlen ins) (zlen (buffer s) - fill s))
      then stream_at (zero A) ins (j - fill s) else stream_at (zero A) (buffer s) j.
Proof.
  induction ins as [|x ins IH]; intros s Hf; cbn [take_input].
  - exists (buffer s). rewrite zlen_nil, Z.min_l, Z.add_0_r by lia. destruct s; split_and!; try done.
    intros j. case_decide; [lia|done].
  - rewrite zlen_cons. pose proof (zlen_nonneg ins). destruct (Z.ltb_spec (fill s) (zlen (buffer s))) as [Hl|Hl].
    + unfold setZ. destruct (_ && _) eqn:E; [clear E|lia]. cbn [mbind option_bind].
      destruct (IH (set_buffer A s (<[Z.to_nat (fill s) := x]> (buffer s)) (fill s + 1))) as (b & Hb & Hlen & Hat).
      { cbn. rewrite zlen_insert. lia. }
      cbn in Hb, Hlen, Hat. rewrite zlen_insert in *.
      exists b. split_and!; [|done|].
      * rewrite Hb. unfold set_buffer. cbn. f_equal. f_equal; [f_equal; lia|].
        replace (Z.to_nat (Z.min (zlen ins + 1) (zlen (buffer s) - fill s))) with
          (S (Z.to_nat (Z.min (zlen ins) (zlen (buffer s) - (fill s + 1))))) by lia. done.
      * intros j. rewrite Hat, stream_at_insert by lia.
        destruct (decide (j = fill s)) as [->|Hj].
        -- repeat case_decide; try lia. by rewrite Z.sub_diag.
        -- repeat case_decide; try lia; try done. unfold stream_at.
           destruct (Z.ltb_spec (j - (fill s + 1)) 0), (Z.ltb_spec (j - fill s) 0); try lia.
           replace (Z.to_nat (j - fill s)) with (S (Z.to_nat (j - (fill s + 1)))) by lia. done.
    + exists (buffer s). rewrite Z.min_r, Z.add_comm by lia.
      replace (zlen (buffer s) - fill s + fill s) with (fill s) by lia.
      replace (zlen (buffer s) - fill s) with 0 by lia. destruct s; split_and!; try done.
      intros j. case_decide; [lia|done].
Qed.

(** Taking input keeps the invariants. *)
Lemma take_input_ok s num den half blen u xs ins : good s num den half blen -> holds s u xs ->
  (ch | zlen ins) ->
  exists s1 pre rest, take_input A s ins = Some (s1, rest) /\ ins = pre ++ rest /\
    good s1 num den half blen /\ holds s1 u (xs ++ pre) /\ (ch | zlen rest) /\
    parameters s1 = parameters s /\ filter_length s1 = filter_length s /\
    current_phase s1 = current_phase s /\ current_channel s1 = current_channel s /\
    centre s1 = centre s /\ initial_phase s1 = initial_phase s /\
    (rest = [] \/ fill s1 = zlen (buffer s1)) /\
    (fill s = zlen (buffer s) -> s1 = s /\ pre = []) /\ (ins = [] -> s1 = s /\ pre = []).
Proof.
  intros G [H1 H2] Hd.
  pose proof (g_fill _ _ _ _ _ _ _ G) as Hf. pose proof (g_buf _ _ _ _ _ _ _ G) as Hb.
  destruct (take_input_eq ins s ltac:(lia)) as (b & He & Hbl & Hat).
  set (k := Z.min (zlen ins) (zlen (buffer s) - fill s)) in *.
  assert (Hk : 0 <= k) by (pose proof (zlen_nonneg ins); lia).
  assert (Hkd : (ch | k)).
  { unfold k. destruct (Z.min_spec (zlen ins) (zlen (buffer s) - fill s)) as [[_ ->]|[_ ->]]; [done|].
    rewrite Hb. apply Z.divide_sub_r; [apply Z.divide_factor_r|apply (g_whole _ _ _ _ _ _ _ G)]. }
  assert (Hpl : zlen (take (Z.to_nat k) ins) = k) by (unfold zlen in *; rewrite take_length; lia).
  assert (Hrl : zlen (drop (Z.to_nat k) ins) = zlen ins - k) by (unfold zlen in *; rewrite drop_length; lia).
  exists (set_buffer A s b (fill s + k)), (take (Z.to_nat k) ins), (drop (Z.to_nat k) ins).
  split_and!; try done.
  - by rewrite take_drop.
  - destruct G. constructor; cbn; try done; try lia. by apply Z.divide_add_r.
  - split; cbn; [rewrite zlen_app; lia|].
    intros i Hi. rewrite Hbl in Hi. rewrite Hat. case_decide as Hc.
    + unfold stream_at at 2. destruct (Z.ltb_spec (i - centre s + u * ch) 0) as [Hn|Hn].
      { pose proof (zlen_nonneg xs). lia. }
      pose proof (zlen_nonneg xs).
      rewrite lookup_app_r by (unfold zlen in *; lia). rewrite lookup_take by (unfold zlen in *; lia).
      unfold stream_at. destruct (Z.ltb_spec (i - fill s) 0); [lia|].
      do 2 f_equal. unfold zlen in *. lia.
    + rewrite H2 by lia. destruct (decide (i < fill s)) as [Hi2|Hi2].
      * symmetry. apply stream_at_app_l. lia.
      * rewrite !stream_at_past; [done|rewrite zlen_app; lia|lia].
  - rewrite Hrl. by apply Z.divide_sub_r.
  - cbn. rewrite Hbl. destruct (decide (zlen ins = k)) as [E|E].
    + left. apply nil_length_inv. unfold zlen in *. lia.
    + right. lia.
  - intros Hfull. assert (k = 0) as -> by lia.
    assert (Hq : take_input A s ins = Some (s, ins)).
    { destruct ins as [|x ins]; [done|]. cbn [take_input].
      destruct (Z.ltb_spec (fill s) (zlen (buffer s))); [lia|done]. }
    rewrite Hq in He. injection He as He. by rewrite <- He.
  - intros ->. cbn in He. injection He as He _. rewrite <- He. by rewrite take_nil.
Qed.

(** ** Positions: the state before output sample [q] of a conversion that began
    [u0] frames into the stream at phase [p0]. *)
Section Position.
Context (num den half blen u0 p0 : Z) (P : params) (Hnum : 1 <= num) (Hden : 1 <= den)
  (Hp0 : 0 <= p0 < num).
Notation pos := (pos num den p0).
Notation phase := (phase num den p0).

Definition At (s : state) (q : Z) (xs : list T) : Prop :=
  good s num den half blen /\ parameters s = P /\ current_phase s = phase (q / ch) /\
  current_channel s = q mod ch /\ holds s (u0 + pos (q / ch)) xs.

(** The sample there, when the whole stream is [xs]. *)
Definition value (xs : list T) (q : Z) : T :=
  let k := q / ch in
  let ts := seqZ 0 (Z.min (ceil_div (2 * half + 1 - phase k) num) (blen - blen / 2 + q0 num half)) in
  fscale A (p_scale P) (fdot A (fixed c && (ch =? 1))
    ((fun i => filter_tap A c P (2 * half + 1) (i * num + phase k)) <$> ts)
    ((fun i => stream_at (zero A) xs ((u0 + pos k - q0 num half + i) * ch + q mod ch)) <$> ts)).

(** Whether frame [k] can be made from [n] samples. *)
Definition can (final : bool) (n k : Z) : Prop :=
  (blen - blen / 2 + u0 + pos k) * ch <= n \/
  final = true /\ ((u0 + pos k) * ch < n \/
                   (u0 + pos k) * ch = n /\ phase k <> r0 num half).
Lemma can_mono final n n' k : n <= n' -> can final n k -> can final n' k.
Proof.
  intros Hn [H|(Hf & [H|[H H']])]; [left; lia|right; split; [done|left; lia]|].
  right. split; [done|]. destruct (decide (n = n')); [right|left]; lia.
Qed.

Lemma ready_can final s q xs : At s q xs -> ready A final s = true <-> can final (zlen xs) (q / ch).
Proof.
  intros (G & HP & Hph & Hcc & [H1 H2]). unfold ready, can.
  pose proof (g_buf _ _ _ _ _ _ _ G) as Hb. pose proof (g_fill _ _ _ _ _ _ _ G) as Hf.
  pose proof (g_centre _ _ _ _ _ _ _ G) as Hc. pose proof (g_init _ _ _ _ _ _ _ G) as Hi.
  rewrite !orb_true_iff, !andb_true_iff, negb_true_iff, !Z.eqb_eq, Z.eqb_neq, Z.ltb_lt.
  rewrite Hb, Hi, Hph. rewrite Hc in *. destruct final; [|split; intros; [left|left]; lia].
  split.
  - intros [[?|[_ ?]]|[[_ ?] ?]]; [left; lia|right; split; [done|left; lia]|right; split; [done|right; lia]].
  - intros [?|[_ [?|[? ?]]]]; [left; left; lia|left; right; lia|right; split; [lia|done]].
Qed.
Lemma ready_centre final s q xs : At s q xs -> ready A final s = true -> centre s <= fill s.
Proof.
  intros (G & HP & Hph & Hcc & _). unfold ready.
  pose proof (g_buf _ _ _ _ _ _ _ G) as Hb. pose proof (g_blen _ _ _ _ _ _ _ G) as Hb2.
  pose proof (g_centre _ _ _ _ _ _ _ G) as Hc.
  assert (0 <= q0 num half).
  { apply q0_nonneg; [lia|]. pose proof (g_half _ _ _ _ _ _ _ G). lia. }
  pose proof (Z.div_mod blen 2 ltac:(lia)). pose proof (Z.mod_pos_bound blen 2 ltac:(lia)).
  rewrite !orb_true_iff, !andb_true_iff, !Z.eqb_eq, Z.ltb_lt. intros [[?|[_ ?]]|[[_ ?] ?]]; [nia|lia|lia].
Qed.

(** The next sample depends only on the stream. *)
Lemma out_value_at s q xs : At s q xs -> out_value A c s num half blen = value xs q.
Proof.
  intros (G & HP & Hph & Hcc & [H1 H2]). unfold out_value, value, out_taps, tap. cbv zeta.
  rewrite HP, Hph, (g_flen _ _ _ _ _ _ _ G), Hcc. f_equal. f_equal.
  apply list_fmap_ext. intros i t Ht. apply lookup_seqZ in Ht as [-> Ht].
  pose proof (g_left _ _ _ _ _ _ _ G) as Hl. pose proof (g_centre _ _ _ _ _ _ _ G) as Hc.
  pose proof (g_buf _ _ _ _ _ _ _ G) as Hb. pose proof (g_blen _ _ _ _ _ _ _ G) as Hb2.
  pose proof (Z.mod_pos_bound q ch ltac:(lia)).
  pose proof (Z.div_mod blen 2 ltac:(lia)). pose proof (Z.mod_pos_bound blen 2 ltac:(lia)).
  rewrite H2.
  - f_equal. rewrite Hl, Hc. lia.
  - rewrite Hl, Hb. assert (0 <= blen / 2 - q0 num half) by lia. nia.
Qed.

Lemma advance_at s q xs : At s q xs -> centre s <= fill s ->
  reconstruct_one A c s = Some (value xs q, advance s num den) /\ At (advance s num den) (q + 1) xs /\
  centre (advance s num den) = centre s.
Proof.
  intros HA Hf. pose proof (out_value_at s q xs HA) as Hv.
  destruct HA as (G & HP & Hph & Hcc & Hh).
  destruct (reconstruct_ok A c Hch s num den half blen G Hf) as [Hr Hg]. rewrite Hv in Hr.
  split; [done|]. pose proof (holds_advance A c Hch s num den half blen _ xs G Hf Hh) as Hh'.
  destruct (next_sample ch q Hch) as [Hq1 Hq2].
  rewrite Hcc in Hh'. split.
  2: { unfold Core.advance. by destruct (current_channel s + 1 =? ch). }
  split_and!; [done|..].
  - unfold Core.advance. by destruct (current_channel s + 1 =? ch).
  - rewrite Hq1. unfold Core.advance. rewrite Hcc. destruct (Z.eqb_spec (q mod ch + 1) ch); cbn; [|done].
    rewrite Hph. apply phase_next; lia.
  - rewrite Hq2. unfold Core.advance. rewrite Hcc. by destruct (q mod ch + 1 =? ch).
  - rewrite Hq1. destruct (Z.eqb_spec (q mod ch + 1) ch); [|done].
    rewrite Hph, pos_next in Hh' by lia.
    replace (u0 + pos (q / ch + 1)) with (u0 + pos (q / ch) + (pos (q / ch + 1) - pos (q / ch))) by lia.
    done.
Qed.

Lemma take_input_at s q xs ins : At s q xs -> (ch | zlen ins) ->
  exists s1 pre rest, take_input A s ins = Some (s1, rest) /\ ins = pre ++ rest /\
    At s1 q (xs ++ pre) /\ (ch | zlen rest) /\ (rest = [] \/ fill s1 = zlen (buffer s1)) /\
    (fill s = zlen (buffer s) -> s1 = s) /\ (ins = [] -> s1 = s).
Proof.
  intros (G & HP & Hph & Hcc & Hh) Hd.
  destruct (take_input_ok s num den half blen _ xs ins G Hh Hd)
    as (s1 & pre & rest & H1 & H2 & H3 & H4 & H5 & H6 & H7 & H8 & H9 & H10 & H11 & H12 & H13 & H14).
  exists s1, pre, rest. split_and!; try done.
  - split_and!; try done; congruence.
  - intros Hx. apply H13 in Hx as [Hx _]. done.
  - intros Hx. apply H14 in Hx as [Hx _]. done.
Qed.

(** A full delay line holds all the samples under the filter. *)
Lemma value_full s q xs ys : At s q xs -> fill s = zlen (buffer s) -> value xs q = value (xs ++ ys) q.
Proof.
  intros (G & HP & Hph & Hcc & [H1 H2]) Hf. unfold value. cbv zeta. f_equal. f_equal.
  apply list_fmap_ext. intros i t Ht. apply lookup_seqZ in Ht as [-> Ht].
  symmetry. apply stream_at_app_l.
  pose proof (g_centre _ _ _ _ _ _ _ G) as Hc. pose proof (g_buf _ _ _ _ _ _ _ G) as Hb.
  pose proof (Z.mod_pos_bound q ch ltac:(lia)).
  assert (zlen xs = (u0 + pos (q / ch) + blen - blen / 2) * ch) as -> by lia. nia.
Qed.

Lemma main_loop_ok final : forall n s ins q xs, 0 <= q -> At s q xs -> (ch | zlen ins) ->
  (q mod ch <> 0 -> fill s = zlen (buffer s) \/ ins = [] /\ ready A final s = true) ->
  exists outs s' pre rest, main_loop A c n final s ins = Some (outs, s', rest) /\ ins = pre ++ rest /\
    (ch | zlen rest) /\
    outs = value (xs ++ ins) <$> seqZ q (zlen outs) /\
    At s' (q + zlen outs) (xs ++ pre) /\ zlen outs <= Z.of_nat n /\
    (forall q', q <= q' < q + zlen outs -> can final (zlen (xs ++ ins)) (q' / ch)) /\
    (zlen outs < Z.of_nat n -> rest = [] /\ ready A final s' = false /\ (q + zlen outs) mod ch = 0).
Proof.
  induction n as [|n IH]; intros s ins q xs Hq HA Hd Hmid; cbn [main_loop].
  - exists [], s, [], ins. rewrite zlen_nil, Z.add_0_r, app_nil_r. split_and!; try done; lia.
  - destruct (take_input_at s q xs ins HA Hd) as (s1 & pre & rest & Ht & -> & HA1 & Hdr & Hor & Hfull & Hemp).
    rewrite Ht. cbn [mbind option_bind]. destruct (ready A final s1) eqn:Hrd.
    + pose proof (ready_centre final s1 q _ HA1 Hrd) as Hcen.
      destruct (advance_at s1 q _ HA1 Hcen) as (Hrec & HA2 & Hce2). rewrite Hrec. cbn [mbind option_bind].
      assert (Hmid2 : (q + 1) mod ch <> 0 -> fill (advance s1 num den) = zlen (buffer (advance s1 num den)) \/
        rest = [] /\ ready A final (advance s1 num den) = true).
      { destruct (next_sample ch q Hch) as [_ Hq2]. rewrite Hq2.
        destruct HA1 as (G1 & _ & _ & Hcc & _). unfold Core.advance. rewrite Hcc.
        destruct (Z.eqb_spec (q mod ch + 1) ch); [done|]. intros _. cbn.
        destruct Hor as [->|Hf]; [right|by left]. split; [done|].
        rewrite <- Hrd. unfold ready. done. }
      destruct (IH (advance s1 num den) rest (q + 1) (xs ++ pre) ltac:(lia) HA2 Hdr Hmid2)
        as (outs & s' & pre' & rest' & Hm & Hrest & Hdr' & Hout & HA' & Hlen & Hcan & Hend).
      rewrite Hm. cbn [mbind option_bind]. rewrite <- app_assoc in Hout, HA', Hcan.
      exists (value (xs ++ pre) q :: outs), s', (pre ++ pre'), rest'.
      rewrite zlen_cons. replace (q + (zlen outs + 1)) with (q + 1 + zlen outs) by lia.
      split_and!; try done.
      * by rewrite Hrest, app_assoc.
      * rewrite seqZ_S by apply zlen_nonneg. cbn [fmap list_fmap]. f_equal; [|done].
        destruct Hor as [->|Hf]; [by rewrite app_nil_r|].
        rewrite app_assoc. eapply value_full; done.
      * lia.
      * intros q' Hq'. destruct (decide (q' = q)) as [->|Hne]; [|apply Hcan; lia].
        apply (ready_can final _ _ _ HA1) in Hrd. eapply can_mono; [|done].
        rewrite !zlen_app. pose proof (zlen_nonneg rest). lia.
      * intros Hlt. apply Hend. lia.
    + exists [], s1, pre, rest. rewrite zlen_nil, Z.add_0_r.
      assert (Hq0 : q mod ch = 0).
      { destruct (decide (q mod ch = 0)) as [?|Hne]; [done|]. exfalso.
        destruct (Hmid Hne) as [Hf|[Hi Hr]].
        - apply Hfull in Hf as Hs. rewrite Hs in Hrd. unfold ready in Hrd. rewrite Hf, Z.eqb_refl in Hrd.
          done.
        - apply Hemp in Hi. congruence. }
      assert (Hrest : rest = []).
      { destruct Hor as [?|Hf]; [done|]. unfold ready in Hrd. rewrite Hf, Z.eqb_refl in Hrd. done. }
      split_and!; try done; try lia.
Qed.

(** The cross-fade: the first samples mixed with the old signal, the rest as
    they were. *)
Definition mixed (flen count : Z) (r y : T) : T := if flen =? 0 then nan A else fmix A count flen r y.
Lemma fade_loop_ok flen : forall outs s count ins q xs, 0 <= q -> At s q xs -> (ch | zlen ins) ->
  0 <= count -> (q mod ch <> 0 -> fill s = zlen (buffer s) /\ 0 < count) ->
  exists m s' pre rest, 0 <= m <= zlen outs /\ ins = pre ++ rest /\
    fade_loop A c s count flen ins outs =
      Some (zip_with (fun i y => mixed flen (count - (i / ch - q / ch)) (value (xs ++ ins) i) y)
              (seqZ q m) outs ++ drop (Z.to_nat m) outs,
            s', count - ((q + m) / ch - q / ch)) /\
    At s' (q + m) (xs ++ pre) /\ 0 <= count - ((q + m) / ch - q / ch) /\
    (forall i, q <= i < q + m -> 1 <= count - (i / ch - q / ch)) /\
    (m < zlen outs -> (q + m) mod ch = 0).
Proof.
  induction outs as [|y outs IH]; intros s count ins q xs Hq HA Hd Hc Hmid; cbn [fade_loop].
  - exists 0, s, [], ins. change (zlen []) with 0. rewrite !Z.add_0_r, Z.sub_diag, Z.sub_0_r.
    rewrite (app_nil_r xs). split_and!; try done; try lia.
  - rewrite zlen_cons. pose proof (zlen_nonneg outs).
    destruct (Z.ltb_spec 0 count) as [Hpos|Hz].
    2: { exists 0, s, [], ins. rewrite !Z.add_0_r, Z.sub_diag, Z.sub_0_r, app_nil_r.
         assert (q mod ch = 0).
         { destruct (decide (q mod ch = 0)) as [?|Hne]; [done|]. apply Hmid in Hne. lia. }
         split_and!; try done; try lia. }
    destruct (take_input_at s q xs ins HA Hd) as (s1 & pre & rest & Ht & -> & HA1 & Hdr & Hor & Hfull & Hemp).
    rewrite Ht. cbn [mbind option_bind].
    destruct (Z.eqb_spec (fill s1) (zlen (buffer s1))) as [Hf1|Hf1].
    2: { exists 0, s1, pre, rest. rewrite !Z.add_0_r, Z.sub_diag, Z.sub_0_r.
         assert (q mod ch = 0).
         { destruct (decide (q mod ch = 0)) as [?|Hne]; [done|]. apply Hmid in Hne as [Hne _].
           apply Hfull in Hne as Hs. subst s1. done. }
         split_and!; try done; try lia. }
    assert (Hrd : ready A false s1 = true) by (unfold ready; by rewrite Hf1, Z.eqb_refl).
    pose proof (ready_centre false s1 q _ HA1 Hrd) as Hcen.
    destruct (advance_at s1 q _ HA1 Hcen) as (Hrec & HA2 & Hce2). rewrite Hrec. cbn [mbind option_bind].
    destruct (next_sample ch q Hch) as [Hq1 Hq2].
    assert (Hcc : current_channel (advance s1 num den) = (q + 1) mod ch) by apply HA2.
    set (count' := if current_channel _ =? 0 then _ else _).
    assert (Hcount : count' = count - ((q + 1) / ch - q / ch)).
    { unfold count'. rewrite Hcc, Hq1, Hq2. pose proof (Z.mod_pos_bound q ch ltac:(lia)).
      destruct (Z.eqb_spec (q mod ch + 1) ch); [rewrite Z.eqb_refl; lia|].
      destruct (Z.eqb_spec (q mod ch + 1) 0); lia. }
    destruct (IH (advance s1 num den) count' rest (q + 1) (xs ++ pre) ltac:(lia) HA2 Hdr)
      as (m & s' & pre' & rest' & Hm & Hrest & He & HA' & Hc' & Hall & Hend).
    { rewrite Hcount, Hq1. destruct (_ =? _); lia. }
    { rewrite Hcount, Hq1, Hq2. pose proof (Z.mod_pos_bound q ch ltac:(lia)).
      destruct HA1 as (G1 & _ & _ & Hcc1 & _). unfold Core.advance. rewrite Hcc1.
      destruct (Z.eqb_spec (q mod ch + 1) ch); [done|]. intros _. cbn. lia. }
    exists (m + 1), s', (pre ++ pre'), rest'. rewrite He. cbn [mbind option_bind].
    rewrite <- app_assoc in HA' |- *. rewrite <- !app_assoc.
    replace (q + (m + 1)) with (q + 1 + m) by lia.
    split_and!; try done; try lia.
    + by rewrite Hrest.
    + rewrite Hcount. f_equal. f_equal; [f_equal|lia].
      * rewrite seqZ_S by lia. cbn [zip_with].
        replace (Z.to_nat (m + 1)) with (S (Z.to_nat m)) by lia. cbn [drop app]. f_equal.
        -- unfold mixed. rewrite Z.sub_diag, Z.sub_0_r.
           rewrite (value_full s1 q (xs ++ pre) rest HA1 Hf1). by rewrite <- app_assoc.
        -- f_equal. apply zip_with_ext; [|done..]. intros i z. f_equal. lia.
    + intros i Hi. destruct (decide (i = q)) as [->|Hne]; [lia|].
      specialize (Hall i ltac:(lia)). lia.
Qed.
End Position.
End Loops.
