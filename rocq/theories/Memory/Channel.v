(** The buffers of a channel through every operation. *)
From stdpp Require Import prelude gmap.
From Coq Require Import Lia.
From Verif Require Import Memory.Model Memory.Spec Memory.Proofs Memory.ChannelModel Memory.ChannelSpec.
From stdpp Require Import list.

Section Channel.
Context {A : Type} (zero one : A).
Notation blocks := (list (nat * list (cell A))).
Implicit Types (h : heap A) (own : blocks) (rest : gmap nat (list (cell A))) (cd : cdata).

Lemma each_own rest (f : heap A -> nat -> option (nat * heap A)) (Q : list (cell A) -> Prop) (P : list (cell A) -> list (cell A) -> Prop) :
  (forall own h p l, Q l -> holds rest ((p, l) :: own) h -> exists q l' h', f h p = Some (q, h') /\ P l l' /\ holds rest ((q, l') :: own) h') ->
  forall (L : blocks) own h, Forall (fun q => Q (snd q)) L -> holds rest (L ++ own) h ->
  exists (L' : blocks) h', each f h L.*1 = Some (L'.*1, h') /\ Forall2 P L.*2 L'.*2 /\ holds rest (L' ++ own) h'.
Proof.
  intros Hf. induction L as [|[p l] L IH]; intros own h HQ H.
  { exists [], h. split; [done|]. split; [by constructor|done]. }
  apply Forall_cons_1 in HQ as [Hl HQ]. cbn [app] in H. destruct (Hf _ _ _ _ Hl H) as (q & l' & h1 & E1 & HP & H1).
  destruct (IH ((q, l') :: own) h1 HQ) as (L' & h2 & E2 & HP2 & H2). { eapply holds_perm; [|exact H1]. apply Permutation_middle. }
  exists ((q, l') :: L'), h2. cbn [each fmap list_fmap fst]. rewrite E1. cbn [mbind option_bind]. change (list_fmap _ _ fst L) with (L.*1). rewrite E2. cbn [mbind option_bind].
  split; [done|]. split; [by constructor|]. eapply holds_perm; [|exact H2]. symmetry. apply Permutation_middle.
Qed.
Lemma each_new rest n : forall ps own h, holds rest own h ->
  exists (L : blocks) h', each (fun h _ => allocate_and_zero zero h n) h ps = Some (L.*1, h') /\ length L = length ps /\ Forall (fun q => snd q = replicate n (Num zero)) L /\ holds rest (L ++ own) h'.
Proof.
  induction ps as [|p ps IH]; intros own h H.
  { by exists [], h. }
  cbn [each]. destruct (allocate_and_zero_own zero rest own h n H) as (h1 & E1 & H1). rewrite E1. cbn [mbind option_bind].
  destruct (IH _ _ H1) as (L & h2 & E2 & Hl & HL & H2). rewrite E2. cbn [mbind option_bind]. exists ((brk h, replicate n (Num zero)) :: L), h2.
  split; [done|]. split; [cbn; lia|]. split; [by constructor|]. eapply holds_perm; [|exact H2]. symmetry. apply Permutation_middle.
Qed.
Lemma zeros_own rest n : forall (L : blocks) own h, Forall (fun q => n <= length (snd q))%nat L -> holds rest (L ++ own) h ->
  exists (L' : blocks) h', zeros zero h L.*1 n = Some h' /\ L'.*1 = L.*1 /\ Forall2 (fun a b => length (snd a) = length (snd b) /\ snd b = replicate n (Num zero) ++ drop n (snd a)) L L' /\ holds rest (L' ++ own) h'.
Proof.
  induction L as [|[p l] L IH]; intros own h HL H.
  { exists [], h. split; [done|]. split; [done|]. split; [by constructor|done]. }
  apply Forall_cons_1 in HL as [Hl HL]. cbn [fst snd] in Hl. cbn [zeros fmap list_fmap fst].
  destruct (v_zero_own zero rest (L ++ own) p n 0 h l H ltac:(lia)) as (h1 & E1 & H1). rewrite E1. cbn [mbind option_bind].
  change (take 0 l) with (@nil (cell A)) in H1. rewrite app_nil_l, Nat.add_0_l in H1. set (l' := replicate n (Num zero) ++ drop n l) in *.
  destruct (IH ((p, l') :: own) h1 HL) as (L' & h2 & E2 & Hf & HP & H2). { eapply holds_perm; [|exact H1]. apply Permutation_middle. }
  exists ((p, l') :: L'), h2. split; [done|]. split; [cbn; by rewrite Hf|]. split.
  - constructor; [|done]. cbn. split; [|done]. unfold l'. rewrite app_length, replicate_length, drop_length. lia.
  - eapply holds_perm; [|exact H2]. symmetry. apply Permutation_middle.
Qed.
Lemma frees_own rest : forall (L : blocks) own h, holds rest (L ++ own) h -> exists h', frees h L.*1 = Some h' /\ holds rest own h'.
Proof.
  induction L as [|[p l] L IH]; intros own h H; [by exists h|]. cbn [frees fmap list_fmap fst].
  destruct (free_own rest (L ++ own) h p l H) as (h1 & E1 & H1). rewrite E1. cbn [mbind option_bind]. by apply IH.
Qed.
Lemma freeOpt_own rest (R : blocks) o own h : R.*1 = option_list o -> holds rest (R ++ own) h -> exists h', freeOpt h o = Some h' /\ holds rest own h'.
Proof.
  intros HR H. destruct o as [b|]; cbn in *.
  - destruct R as [|[p l] [|]]; try done. injection HR as ->. by apply (free_own rest own h b l).
  - destruct R; [|done]. by exists h.
Qed.

(** ** The transforms *)
Lemma makeFfts_own rest : forall sizes own h, holds rest own h ->
  exists fs (F : blocks) h', makeFfts h sizes = (fs, h') /\ F.*1 = omap snd fs /\ Forall (fun e => is_Some (snd e)) fs /\ fs.*1 = sizes /\
    (forall n b, (n, Some b) ∈ fs -> exists l, (b, l) ∈ F /\ length l = n) /\ holds rest (F ++ own) h'.
Proof.
  induction sizes as [|n sizes IH]; intros own h H.
  { exists [], [], h. repeat (split; [done|]). split; [|done]. intros n b Hb. by apply elem_of_nil in Hb. }
  cbn [makeFfts]. destruct (alloc_own rest own h n H) as [E H1]. rewrite E.
  destruct (IH _ _ H1) as (fs & F & h2 & E2 & HF & Hs & H3 & Hin & H2). rewrite E2. exists ((n, Some (brk h)) :: fs), ((brk h, replicate n Undef) :: F), h2.
  split; [done|]. split; [cbn; by rewrite HF|]. split; [by constructor|]. split; [cbn; by rewrite H3|]. split.
  - intros m b [Hm|Hm]%elem_of_cons.
    + injection Hm as -> ->. eexists. split; [left|by rewrite replicate_length].
    + destruct (Hin m b Hm) as (l & ? & ?). exists l. split; [by right|done].
  - eapply holds_perm; [|exact H2]. symmetry. apply Permutation_middle.
Qed.
Lemma pick_there (fs : list (nat * option nat)) n : Forall (fun e => is_Some (snd e)) fs -> n ∈ fs.*1 ->
  exists b, pick fs n = (Some b, fs) /\ (n, Some b) ∈ fs.
Proof.
  intros Hs Hn. unfold pick. destruct (list_find _ fs) as [[i [m o]]|] eqn:E.
  - apply list_find_Some in E as (Hi & Hm & _). cbn in Hm. subst m. rewrite Forall_lookup in Hs. destruct (Hs i _ Hi) as [b Hb]. cbn in Hb. subst o.
    exists b. split; [done|]. by eapply elem_of_list_lookup_2.
  - apply list_find_None in E. apply elem_of_list_fmap in Hn as ([m o] & -> & Hin). rewrite Forall_forall in E. by destruct (E _ Hin).
Qed.

Lemma takeFft_sized rest cd acc own h n : sized cd acc own -> holds rest own h ->
  exists cd' own' h' b, takeFft cd h n = (cd', h') /\ sized cd' acc own' /\ holds rest own' h' /\
    inSize cd' = inSize cd /\ halves cd' = halves cd /\ scratch cd' = scratch cd /\ accs cd' = accs cd /\ fft cd' = Some b /\ (n, Some b) ∈ ffts cd'.
Proof.
  intros [(ic & oc & H & S & C & F & R & B & -> & P1 & P2 & P3 & P4 & P5 & P6 & P7 & P8 & P9 & P10 & P11 & P12 & P13 & P14) Hc Hf] Hh. unfold takeFft.
  destruct (list_find _ (ffts cd)) as [[i e]|] eqn:E.
  - assert (Hn : n ∈ (ffts cd).*1).
    { apply list_find_Some in E as (Hi & <- & _). apply elem_of_list_fmap. exists e. split; [done|]. by eapply elem_of_list_lookup_2. }
    destruct (pick_there (ffts cd) n Hf Hn) as (b & Hp & Hb). rewrite Hp. do 3 eexists. exists b. split; [reflexivity|]. split; [|split; [exact Hh|done]].
    constructor; [|done|done]. by exists ic, oc, H, S, C, F, R, B.
  - destruct (alloc_own rest _ h n Hh) as [Ea H1]. rewrite Ea. set (h1 := snd (allocate h n)) in *.
    assert (Hs' : Forall (fun e => is_Some (snd e)) ((n, Some (brk h)) :: ffts cd)) by (by constructor).
    destruct (pick_there _ n Hs') as (b & Hp & Hb); [left|]. rewrite Hp.
    exists (CD (inbuf cd) (inSize cd) (outbuf cd) (outSize cd) (halves cd) (scratch cd) (accs cd) ((n, Some (brk h)) :: ffts cd) (Some b) (resampler cd) (rbuf cd) (rbufSize cd)).
    exists ((inbuf cd, ic) :: (outbuf cd, oc) :: H ++ S ++ C ++ ((brk h, replicate n Undef) :: F) ++ R ++ B), h1, b.
    split; [done|]. split; [|split; [|done]].
    + constructor; [|done|done]. exists ic, oc, H, S, C, ((brk h, replicate n Undef) :: F), R, B. repeat (split; [done|]).
      split; [cbn; by rewrite P10|]. split; [|done]. intros m c [Hm|Hm]%elem_of_cons.
      * injection Hm as -> ->. eexists. split; [left|by rewrite replicate_length].
      * destruct (P11 m c Hm) as (l & ? & ?). exists l. split; [by right|done].
    + eapply holds_perm; [|exact H1]. solve_Permutation.
Qed.

(** ** Operations *)
Lemma sized_zeros_scratch rest cd acc own h k n : sized cd acc own -> holds rest own h -> (n <= inSize cd)%nat ->
  exists own' h', zeros zero h (take k (scratch cd)) n = Some h' /\ sized cd acc own' /\ holds rest own' h'.
Proof.
  intros [(ic & oc & H & S & C & F & R & B & -> & P1 & P2 & P3 & P4 & P5 & P6 & P7) Hc Hf] Hh Hn.
  destruct (zeros_own rest n (take k S) ((inbuf cd, ic) :: (outbuf cd, oc) :: H ++ drop k S ++ C ++ F ++ R ++ B) h) as (L & h' & E & H1 & H2 & H3).
  { apply Forall_take. eapply Forall_impl; [exact P6|]. cbn. intros q ->. done. }
  { eapply holds_perm; [|exact Hh]. rewrite <- (take_drop k S) at 1. solve_Permutation. }
  rewrite <- P5, <- fmap_take. rewrite E. exists ((inbuf cd, ic) :: (outbuf cd, oc) :: H ++ (L ++ drop k S) ++ C ++ F ++ R ++ B), h'. split; [done|]. split.
  - constructor; [|done|done]. exists ic, oc, H, (L ++ drop k S), C, F, R, B. repeat (split; [done|]). split.
    { rewrite fmap_app, H1, <- fmap_app, take_drop. done. } split; [|done].
    apply Forall_app. split; [|by apply Forall_drop]. clear -H2 P6. rewrite <- (take_drop k S) in P6. apply Forall_app in P6 as [P6 _].
    induction H2 as [|a b l l' [H2 _] _ IH]; [done|]. apply Forall_cons_1 in P6 as [? ?]. constructor; [congruence|by apply IH].
  - eapply holds_perm; [|exact H3]. solve_Permutation.
Qed.
Lemma sized_zeros_halves rest cd acc own h k n : sized cd acc own -> holds rest own h -> (n <= inSize cd / 2 + 1)%nat ->
  exists own' h', zeros zero h (take k (halves cd)) n = Some h' /\ sized cd acc own' /\ holds rest own' h'.
Proof.
  intros [(ic & oc & H & S & C & F & R & B & -> & P1 & P2 & P3 & P4 & P7) Hc Hf] Hh Hn.
  destruct (zeros_own rest n (take k H) ((inbuf cd, ic) :: (outbuf cd, oc) :: drop k H ++ S ++ C ++ F ++ R ++ B) h) as (L & h' & E & H1 & H2 & H3).
  { apply Forall_take. eapply Forall_impl; [exact P4|]. cbn. intros q ->. done. }
  { eapply holds_perm; [|exact Hh]. rewrite <- (take_drop k H) at 1. solve_Permutation. }
  rewrite <- P3, <- fmap_take. rewrite E. exists ((inbuf cd, ic) :: (outbuf cd, oc) :: (L ++ drop k H) ++ S ++ C ++ F ++ R ++ B), h'. split; [done|]. split.
  - constructor; [|done|done]. exists ic, oc, (L ++ drop k H), S, C, F, R, B. repeat (split; [done|]). split.
    { rewrite fmap_app, H1, <- fmap_app, take_drop. done. } split; [|done].
    apply Forall_app. split; [|by apply Forall_drop]. clear -H2 P4. rewrite <- (take_drop k H) in P4. apply Forall_app in P4 as [P4 _].
    induction H2 as [|a b l l' [H2 _] _ IH]; [done|]. apply Forall_cons_1 in P4 as [? ?]. constructor; [congruence|by apply IH].
  - eapply holds_perm; [|exact H3]. solve_Permutation.
Qed.

Lemma reset_sized rest cd acc own h : sized cd acc own -> holds rest own h ->
  exists own' h', reset zero one cd h = Some h' /\ sized cd [replicate (inSize cd) (Num zero); Num one :: replicate (inSize cd - 1) (Num zero)] own' /\ holds rest own' h'.
Proof.
  intros [(ic & oc & H & S & C & F & R & B & -> & P1 & P2 & P3 & P4 & P5 & P6 & P7 & P8 & P9 & P10) Hc Hf] Hh. unfold reset.
  destruct (zeros_own rest (inSize cd) C ((inbuf cd, ic) :: (outbuf cd, oc) :: H ++ S ++ F ++ R ++ B) h) as (L & h1 & E & H1 & H2 & H3).
  { eapply Forall_impl; [exact P9|]. cbn. intros q ->. done. } { eapply holds_perm; [|exact Hh]. solve_Permutation. }
  rewrite <- P7, E. cbn [mbind option_bind]. pose proof Hc as Hc0. destruct Hc as (Q1 & Q2 & Q3 & Q4 & Q5). rewrite <- P7, fmap_length in Q3.
  destruct C as [|[c0 l0] [|[c1 l1] [|? ?]]]; try (cbn in Q3; lia). clear Q3.
  apply Forall_cons_1 in P9 as [G0 P9]. apply Forall_cons_1 in P9 as [G1 _]. cbn in G0, G1.
  inversion H2 as [|? [d0 x0] ? L1 [A0 B0] H2' ]; subst. inversion H2' as [|? [d1 x1] ? L2 [A1 B1] H2'']; subst. inversion H2''; subst. cbn in *.
  injection H1 as -> ->. rewrite !drop_ge, !app_nil_r in * by lia. subst x0 x1.
  destruct (store_own rest ((c0, replicate (inSize cd) (Num zero)) :: (inbuf cd, ic) :: (outbuf cd, oc) :: H ++ S ++ F ++ R ++ B) h1 c1 (replicate (inSize cd) (Num zero)) 0 (Num one)) as (h2 & E2 & H4).
  { eapply holds_perm; [|exact H3]. apply Permutation_swap. } { rewrite replicate_length. lia. }
  rewrite E2. set (l := <[0%nat := Num one]> (replicate (inSize cd) (Num zero))) in *.
  assert (El : l = Num one :: replicate (inSize cd - 1) (Num zero)).
  { unfold l. destruct (inSize cd) as [|k]; [lia|]. cbn. by rewrite Nat.sub_0_r. }
  exists ((inbuf cd, ic) :: (outbuf cd, oc) :: H ++ S ++ [(c0, replicate (inSize cd) (Num zero)); (c1, l)] ++ F ++ R ++ B), h2. split; [done|]. split.
  - constructor; [|done|done]. exists ic, oc, H, S, [(c0, replicate (inSize cd) (Num zero)); (c1, l)], F, R, B. repeat (split; [done|]).
    split; [by rewrite El|]. split; [|done]. constructor; [cbn; by rewrite replicate_length|]. constructor; [|done]. cbn. unfold l. by rewrite insert_length, replicate_length.
  - eapply holds_perm; [|exact H4]. solve_Permutation.
Qed.

Lemma construct_sized rest h sizes w f out : holds rest [] h -> (1 <= w)%nat -> f ∈ sizes ->
  exists cd acc own h', construct zero one h sizes w f out = Some (cd, h') /\ sized cd acc own /\ holds rest own h' /\ ample cd w f.
Proof.
  intros H Hw Hf. unfold construct. set (m1 := if decide (w * 2 < f)%nat then f else (w * 2)%nat).
  set (m := match last sizes with Some n => if decide (m1 < n)%nat then n else m1 | None => m1 end).
  assert (Hm : (w * 2 <= m /\ f <= m)%nat).
  { assert (w * 2 <= m1 /\ f <= m1)%nat by (unfold m1; destruct (decide _); lia). unfold m. clearbody m1. clear m. destruct (last sizes); [destruct (decide _)|]; lia. }
  set (o := if decide (out < m)%nat then m else out).
  unfold ring. destruct (alloc_own rest [] h (S m) H) as [E1 H1]. rewrite E1. set (h1 := snd (allocate h (S m))) in *.
  destruct (alloc_own rest _ h1 (S o) H1) as [E2 H2]. rewrite E2. set (h2 := snd (allocate h1 (S o))) in *.
  destruct (each_new rest (m / 2 + 1) [0;0;0;0;0;0]%nat _ h2 H2) as (Hs & h3 & E3 & L3 & G3 & H3). rewrite E3. cbn [mbind option_bind].
  destruct (each_new rest m [0;0;0;0]%nat _ h3 H3) as (Ss & h4 & E4 & L4 & G4 & H4). rewrite E4. cbn [mbind option_bind].
  destruct (each_new rest m [0;0]%nat _ h4 H4) as (Cs & h5 & E5 & L5 & G5 & H5). rewrite E5. cbn [mbind option_bind].
  destruct (makeFfts_own rest sizes _ h5 H5) as (fs & F & h6 & E6 & F1 & F2 & F3 & F4 & H6). rewrite E6.
  destruct (pick_there fs f F2) as (b & Hp & Hb); [by rewrite F3|]. rewrite Hp.
  set (cd := CD (brk h) m (brk h1) o Hs.*1 Ss.*1 Cs.*1 fs (Some b) None None 0).
  assert (Hsz : sized cd Cs.*2 ((brk h, replicate (S m) Undef) :: (brk h1, replicate (S o) Undef) :: Hs ++ Ss ++ Cs ++ F ++ [] ++ [])).
  { constructor; [|cbn; rewrite !fmap_length, L3, L4, L5; cbn; lia|done]. do 2 eexists. exists Hs, Ss, Cs, F, [], []. split; [reflexivity|].
    rewrite !replicate_length. split; [cbn; lia|]. split; [cbn; lia|]. split; [done|].
    split; [eapply Forall_impl; [exact G3|]; cbn; intros q ->; by rewrite replicate_length|]. split; [done|].
    split; [eapply Forall_impl; [exact G4|]; cbn; intros q ->; by rewrite replicate_length|]. split; [done|]. split; [done|].
    split; [eapply Forall_impl; [exact G5|]; cbn; intros q ->; by rewrite replicate_length|]. done. }
  destruct (reset_sized rest cd _ _ h6 Hsz) as (own & h7 & E7 & S7 & H7). { eapply holds_perm; [|exact H6]. rewrite !app_nil_r. solve_Permutation. }
  rewrite E7. cbn [mbind option_bind].
  destruct S7 as [(ic & oc & H' & S' & C & F' & R & B & -> & P1 & P2 & P3 & P4 & P5 & P6 & P7 & P8 & P9 & P10) Hc Hff].
  change (accs cd) with (Cs.*1) in P7. rewrite <- P7.
  destruct C as [|[c0 l0] [|[c1 l1] [|? ?]]]; try done. cbn [fmap list_fmap fst lookup list_lookup mbind option_bind].
  cbn [fmap list_fmap snd] in P8. injection P8 as -> ->.
  destruct (store_own rest ((inbuf cd, ic) :: (outbuf cd, oc) :: H' ++ S' ++ [(c0, replicate (inSize cd) (Num zero))] ++ F' ++ R ++ B) h7 c1 (Num one :: replicate (inSize cd - 1) (Num zero)) 0 (Num one)) as (h8 & E8 & H8).
  { eapply holds_perm; [|exact H7]. solve_Permutation. } { cbn. lia. }
  rewrite E8. cbn [insert list_insert] in H8. exists cd. do 2 eexists. exists h8. split; [done|]. split; [|split].
  - constructor; [|exact Hc|exact Hff]. exists ic, oc, H', S', [(c0, replicate (inSize cd) (Num zero)); (c1, Num one :: replicate (inSize cd - 1) (Num zero))], F', R, B.
    repeat (split; [done|]). done.
  - eapply holds_perm; [|exact H8]. solve_Permutation.
  - split; [cbn; lia|]. split; [cbn; lia|]. by exists b.
Qed.

Lemma setSizes_sized rest cd acc own h w f : sized cd acc own -> holds rest own h ->
  exists cd' acc' own' h', setSizes zero cd h w f = Some (cd', h') /\ sized cd' acc' own' /\ holds rest own' h' /\ ample cd' w f /\
    (inSize cd <= inSize cd')%nat /\ acc' = refit (Num zero) (inSize cd') <$> acc.
Proof.
  intros HS Hh. unfold setSizes. set (m := (2 * (w `max` f))%nat). assert (Hm : (w <= m /\ f <= m)%nat) by lia.
  destruct (decide (m <= inSize cd)%nat) as [Hle|Hgt].
  - destruct (takeFft_sized rest cd acc own h f HS Hh) as (cd1 & own1 & h1 & b & E1 & S1 & H1 & I1 & I2 & I3 & I4 & I5 & I6). rewrite E1.
    destruct (sized_zeros_scratch rest cd1 acc own1 h1 2 m S1 H1 ltac:(lia)) as (own2 & h2 & E2 & S2 & H2). rewrite E2. cbn [mbind option_bind].
    destruct (sized_zeros_halves rest cd1 acc own2 h2 5 (m / 2 + 1) S2 H2) as (own3 & h3 & E3 & S3 & H3).
    { rewrite I1. assert (m / 2 <= inSize cd / 2)%nat by (by apply Nat.div_le_mono). lia. }
    rewrite E3. cbn [mbind option_bind]. exists cd1, acc, own3, h3. split; [done|]. split; [done|]. split; [done|]. split; [split; [lia|split; [lia|by exists b]]|]. split; [lia|].
    destruct S3 as [(ic & oc & H' & S' & C & F' & R & B & _ & _ & _ & _ & _ & _ & _ & _ & <- & P9 & _) _ _]. clear -P9. rewrite Forall_lookup in P9.
    apply list_eq. intros j. rewrite !list_lookup_fmap. destruct (C !! j) as [[c l]|] eqn:Hj; [|done]. cbn. f_equal. specialize (P9 j _ Hj). cbn in P9. unfold refit.
    rewrite take_ge by lia. rewrite P9, Nat.sub_diag. cbn. by rewrite app_nil_r.
  - destruct HS as [(ic & oc & H & S & C & F & R & B & -> & P1 & P2 & P3 & P4 & P5 & P6 & P7 & P8 & P9 & P10 & P11 & P12 & P13 & P14) Hc Hff].
    unfold ring. destruct (alloc_own rest _ h (Datatypes.S m) Hh) as [E1 H1]. rewrite E1. set (h1 := snd (allocate h (Datatypes.S m))) in *.
    destruct (free_own rest ((brk h, replicate (Datatypes.S m) Undef) :: (outbuf cd, oc) :: H ++ S ++ C ++ F ++ R ++ B) h1 (inbuf cd) ic) as (h2 & E2 & H2).
    { eapply holds_perm; [|exact H1]. solve_Permutation. } rewrite E2. cbn [mbind option_bind].
    destruct (each_own rest (fun h p => reallocate_and_zero zero h (Some p) (inSize cd / 2 + 1) (m / 2 + 1)) (fun l => length l = (inSize cd / 2 + 1)%nat) (fun _ l => length l = (m / 2 + 1)%nat))
      with (L := H) (own := (brk h, replicate (Datatypes.S m) (@Undef A)) :: (outbuf cd, oc) :: S ++ C ++ F ++ R ++ B) (h := h2) as (H' & h3 & E3 & G3 & H3).
    { intros own' h' p l <- Hp. destruct (reallocate_and_zero_own zero rest own' h' p l (m / 2 + 1) Hp) as (h'' & E & Hp'). do 3 eexists. split; [exact E|]. split; [by rewrite replicate_length|done]. }
    { done. } { eapply holds_perm; [|exact H2]. solve_Permutation. }
    rewrite <- P3, E3. cbn [mbind option_bind].
    destruct (each_own rest (fun h p => reallocate_and_zero zero h (Some p) (inSize cd) m) (fun l => length l = inSize cd) (fun _ l => length l = m))
      with (L := S) (own := H' ++ (brk h, replicate (Datatypes.S m) (@Undef A)) :: (outbuf cd, oc) :: C ++ F ++ R ++ B) (h := h3) as (S' & h4 & E4 & G4 & H4).
    { intros own' h' p l <- Hp. destruct (reallocate_and_zero_own zero rest own' h' p l m Hp) as (h'' & E & Hp'). do 3 eexists. split; [exact E|]. split; [by rewrite replicate_length|done]. }
    { done. } { eapply holds_perm; [|exact H3]. solve_Permutation. }
    rewrite <- P5, E4. cbn [mbind option_bind].
    destruct (each_own rest (fun h p => reallocate_and_zero_extension zero h (Some p) (inSize cd) m) (fun l => length l = inSize cd) (fun l l' => l' = refit (Num zero) m l))
      with (L := C) (own := S' ++ H' ++ (brk h, replicate (Datatypes.S m) (@Undef A)) :: (outbuf cd, oc) :: F ++ R ++ B) (h := h4) as (C' & h5 & E5 & G5 & H5).
    { intros own' h' p l <- Hp. destruct (reallocate_and_zero_extension_own zero rest own' h' p l m Hp) as (h'' & E & Hp'). do 3 eexists. split; [exact E|]. done. }
    { done. } { eapply holds_perm; [|exact H4]. solve_Permutation. }
    rewrite <- P7, E5. cbn [mbind option_bind].
    assert (Hlen : forall (P : list (cell A) -> list (cell A) -> Prop) (X Y : blocks) n, (forall a b, P a b -> length b = n) -> Forall2 P X.*2 Y.*2 -> Forall (fun q => length (snd q) = n) Y /\ length X = length Y).
    { clear. intros P X Y n HP HF. split; [|apply Forall2_length in HF; by rewrite !fmap_length in HF]. revert X HF. induction Y as [|[b l] Y IH]; intros X HF; [done|].
      destruct X as [|[a k] X]; [inversion HF|]. cbn in HF. apply Forall2_cons_1 in HF as [HF1 HF2]. constructor; [cbn; by eapply HP|by eapply IH]. }
    destruct (Hlen (fun _ l => length l = (m / 2 + 1)%nat) H H' (m / 2 + 1)%nat ltac:(done) G3) as [U3 V3]. destruct (Hlen (fun _ l => length l = m) S S' m ltac:(done) G4) as [U4 V4].
    destruct (Hlen (fun l l' => l' = refit (Num zero) m l) C C' m (fun a b (Hab : b = refit (Num zero) m a) => eq_trans (f_equal length Hab) (refit_length _ _ _)) G5) as [U5 V5].
    set (cd1 := CD (brk h) m (outbuf cd) (outSize cd) H'.*1 S'.*1 C'.*1 (ffts cd) (fft cd) (resampler cd) (rbuf cd) (rbufSize cd)).
    destruct Hc as (Q1 & Q2 & Q3 & Q4 & Q5). rewrite <- P3, fmap_length in Q1. rewrite <- P5, fmap_length in Q2. rewrite <- P7, fmap_length in Q3.
    destruct (takeFft_sized rest cd1 C'.*2 ((brk h, replicate (Datatypes.S m) Undef) :: (outbuf cd, oc) :: H' ++ S' ++ C' ++ F ++ R ++ B) h5 f) as (cd2 & own2 & h6 & b & E6 & S6 & H6 & I1 & I2 & I3 & I4 & I5 & I6).
    { constructor; [|cbn; rewrite !fmap_length; split; [lia|]; split; [lia|]; split; [lia|]; split; [lia|exact Q5]|done]. eexists _, oc, H', S', C', F, R, B. split; [reflexivity|]. split; [rewrite replicate_length; cbn; lia|]. by repeat (split; [done|]). }
    { eapply holds_perm; [|exact H5]. solve_Permutation. }
    exists cd2. do 2 eexists. exists h6. split; [by rewrite E6|]. split; [exact S6|]. split; [exact H6|]. cbn in I1. split; [split; [lia|split; [lia|by exists b]]|]. split; [lia|].
    rewrite I1, <- P8. clear -G5. revert G5. generalize (C.*2) (C'.*2). intros l l' HF. induction HF as [|a b l l' ? _ IH]; [done|]. cbn. by f_equal.
Qed.

Lemma setOutbufSize_sized rest cd acc own h n : sized cd acc own -> holds rest own h ->
  exists cd' own' h', setOutbufSize cd h n = Some (cd', h') /\ sized cd' acc own' /\ holds rest own' h' /\
    inSize cd' = inSize cd /\ fft cd' = fft cd /\ ffts cd' = ffts cd /\ (n <= outSize cd')%nat.
Proof.
  intros HS Hh. unfold setOutbufSize. destruct (decide (outSize cd < n)%nat) as [Hlt|Hge]; [|exists cd, own, h; repeat (split; [done|]); lia].
  destruct HS as [(ic & oc & H & S & C & F & R & B & -> & P1 & P2 & P3) Hc Hff].
  unfold ring. destruct (alloc_own rest _ h (Datatypes.S n) Hh) as [E1 H1]. rewrite E1. set (h1 := snd (allocate h (Datatypes.S n))) in *.
  destruct (free_own rest ((inbuf cd, ic) :: (brk h, replicate (Datatypes.S n) Undef) :: H ++ S ++ C ++ F ++ R ++ B) h1 (outbuf cd) oc) as (h2 & E2 & H2).
  { eapply holds_perm; [|exact H1]. solve_Permutation. } rewrite E2. cbn [mbind option_bind]. do 2 eexists. exists h2. split; [reflexivity|]. split; [|split; [exact H2|repeat (split; [done|]); cbn; lia]].
  constructor; [|done|done]. eexists ic, _, H, S, C, F, R, B. split; [reflexivity|]. split; [done|]. split; [rewrite replicate_length; cbn; lia|]. done.
Qed.
Lemma setResampleBufSize_sized rest cd acc own h n : sized cd acc own -> holds rest own h ->
  exists cd' own' h', setResampleBufSize zero cd h n = Some (cd', h') /\ sized cd' acc own' /\ holds rest own' h' /\
    inSize cd' = inSize cd /\ fft cd' = fft cd /\ ffts cd' = ffts cd /\ rbufSize cd' = n.
Proof.
  intros HS Hh. unfold setResampleBufSize.
  destruct HS as [(ic & oc & H & S & C & F & R & B & -> & P1 & P2 & P3 & P4 & P5 & P6 & P7 & P8 & P9 & P10 & P11 & P12 & P13 & P14) Hc Hff].
  assert (Hr : exists h', reallocate_and_zero zero h (rbuf cd) (rbufSize cd) n = Some (brk h, h') /\
    holds rest ((brk h, replicate n (Num zero)) :: (inbuf cd, ic) :: (outbuf cd, oc) :: H ++ S ++ C ++ F ++ R) h').
  { destruct (rbuf cd) as [b|] eqn:Eb; cbn in P13.
    - destruct B as [|[p l] [|]]; try done. injection P13 as ->. apply Forall_cons_1 in P14 as [P14 _]. cbn in P14. rewrite <- P14. apply reallocate_and_zero_own.
      eapply holds_perm; [|exact Hh]. solve_Permutation.
    - destruct B; [|done]. destruct Hc as (_ & _ & _ & _ & Hn). rewrite Hn by done. apply reallocate_and_zero_null_own. by rewrite app_nil_r in Hh. }
  destruct Hr as (h' & E & H'). rewrite E. cbn [mbind option_bind]. eexists. exists ((inbuf cd, ic) :: (outbuf cd, oc) :: H ++ S ++ C ++ F ++ R ++ [(brk h, replicate n (Num zero))]), h'.
  split; [reflexivity|]. split; [|split; [eapply holds_perm; [|exact H']; solve_Permutation|done]].
  constructor; [|cbn; destruct Hc as (? & ? & ? & ? & ?); done|done]. exists ic, oc, H, S, C, F, R, [(brk h, replicate n (Num zero))]. repeat (split; [done|]). constructor; [|done]. cbn. by rewrite replicate_length.
Qed.
Lemma makeResampler_sized rest cd acc own h n : sized cd acc own -> holds rest own h ->
  exists cd' own' h', makeResampler zero cd h n = Some (cd', h') /\ sized cd' acc own' /\ holds rest own' h' /\
    inSize cd' = inSize cd /\ fft cd' = fft cd /\ ffts cd' = ffts cd /\ resampler cd' <> None.
Proof.
  intros HS Hh. unfold makeResampler. destruct (resampler cd) as [r|] eqn:Er; [exists cd, own, h; repeat (split; [done|]); by rewrite Er|].
  destruct HS as [(ic & oc & H & S & C & F & R & B & -> & P1 & P2 & P3 & P4 & P5 & P6 & P7 & P8 & P9 & P10 & P11 & P12 & P13 & P14) Hc Hff].
  rewrite Er in P12. destruct R; [|done]. destruct (alloc_own rest _ h 1 Hh) as [E1 H1]. rewrite E1. set (h1 := snd (allocate h 1)) in *.
  set (cd1 := CD (inbuf cd) (inSize cd) (outbuf cd) (outSize cd) (halves cd) (scratch cd) (accs cd) (ffts cd) (fft cd) (Some (brk h)) (rbuf cd) (rbufSize cd)).
  destruct (setResampleBufSize_sized rest cd1 acc ((inbuf cd, ic) :: (outbuf cd, oc) :: H ++ S ++ C ++ F ++ [(brk h, replicate 1 Undef)] ++ B) h1 n) as (cd2 & own2 & h2 & E2 & S2 & H2 & I1 & I2 & I3 & I4).
  { constructor; [|done|done]. exists ic, oc, H, S, C, F, [(brk h, replicate 1 Undef)], B. repeat (split; [done|]). done. }
  { eapply holds_perm; [|exact H1]. solve_Permutation. }
  exists cd2, own2, h2. split; [done|]. repeat (split; [done|]). unfold setResampleBufSize in E2. destruct (reallocate_and_zero _ _ _ _ _) as [[? ?]|]; [|done]. cbn in E2. by injection E2 as <- _.
Qed.
Lemma destroy_sized rest cd acc own h : sized cd acc own -> holds rest own h -> exists h', destroy cd h = Some h' /\ holds rest [] h'.
Proof.
  intros [(ic & oc & H & S & C & F & R & B & -> & P1 & P2 & P3 & P4 & P5 & P6 & P7 & P8 & P9 & P10 & P11 & P12 & P13 & P14) Hc Hff] Hh. unfold destroy.
  destruct (freeOpt_own rest R (resampler cd) (B ++ (inbuf cd, ic) :: (outbuf cd, oc) :: H ++ S ++ C ++ F) h P12) as (h1 & E1 & H1). { eapply holds_perm; [|exact Hh]. solve_Permutation. }
  rewrite E1. cbn [mbind option_bind]. destruct (freeOpt_own rest B (rbuf cd) _ h1 P13 H1) as (h2 & E2 & H2). rewrite E2. cbn [mbind option_bind].
  destruct (free_own rest _ h2 _ _ H2) as (h3 & E3 & H3). rewrite E3. cbn [mbind option_bind]. destruct (free_own rest _ h3 _ _ H3) as (h4 & E4 & H4). rewrite E4. cbn [mbind option_bind].
  destruct (frees_own rest H _ h4 H4) as (h5 & E5 & H5). rewrite <- P3, E5. cbn [mbind option_bind].
  destruct (frees_own rest S _ h5 H5) as (h6 & E6 & H6). rewrite <- P5, E6. cbn [mbind option_bind].
  destruct (frees_own rest C _ h6 H6) as (h7 & E7 & H7). rewrite <- P7, E7. cbn [mbind option_bind].
  rewrite <- P10. apply (frees_own rest F []). by rewrite app_nil_r.
Qed.

Lemma steps_sized rest : forall os cd acc own h w f, sized cd acc own -> holds rest own h -> ample cd w f ->
  exists cd' acc' own' h', steps zero one cd h os = Some (cd', h') /\ sized cd' acc' own' /\ holds rest own' h' /\
    ample cd' (fst (asked w f os)) (snd (asked w f os)).
Proof.
  induction os as [|o os IH]; intros cd acc own h w f HS Hh Ha; [by exists cd, acc, own, h|]. cbn [steps].
  destruct o as [w' f'|n|n|n|]; cbn [step asked].
  - destruct (setSizes_sized rest cd acc own h w' f' HS Hh) as (cd1 & acc1 & own1 & h1 & E1 & S1 & H1 & A1 & _). rewrite E1. cbn [mbind option_bind]. by eapply IH.
  - destruct (setOutbufSize_sized rest cd acc own h n HS Hh) as (cd1 & own1 & h1 & E1 & S1 & H1 & I1 & I2 & I3 & _). rewrite E1. cbn [mbind option_bind]. eapply IH; [done..|]. unfold ample. by rewrite I1, I2, I3.
  - destruct (setResampleBufSize_sized rest cd acc own h n HS Hh) as (cd1 & own1 & h1 & E1 & S1 & H1 & I1 & I2 & I3 & _). rewrite E1. cbn [mbind option_bind]. eapply IH; [done..|]. unfold ample. by rewrite I1, I2, I3.
  - destruct (makeResampler_sized rest cd acc own h n HS Hh) as (cd1 & own1 & h1 & E1 & S1 & H1 & I1 & I2 & I3 & _). rewrite E1. cbn [mbind option_bind]. eapply IH; [done..|]. unfold ample. by rewrite I1, I2, I3.
  - destruct (reset_sized rest cd acc own h HS Hh) as (own1 & h1 & E1 & S1 & H1). rewrite E1. cbn [mbind option_bind]. by eapply IH.
Qed.
End Channel.
