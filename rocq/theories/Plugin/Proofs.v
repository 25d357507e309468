(** The plug-ins: dry and wet paths. *)
From stdpp Require Import prelude list numbers.
From Coq Require Import QArith Lia.
From Verif Require Import Plugin.Model Plugin.Spec.
From stdpp Require Import list.
Local Open Scope nat_scope.

Lemma sizes : 0 < blockSize /\ reserve = 8 * blockSize /\ bufsize = 17 * blockSize.
Proof. unfold blockSize, reserve, bufsize. split; [lia|]. split; [rewrite <- (Nat2Z.id 8), <- Z2Nat.inj_mul by lia; done|rewrite <- (Nat2Z.id 17), <- Z2Nat.inj_mul by lia; done]. Qed.
Lemma live_sizes : 0 < liveBlock /\ bufferSize = 128 * liveBlock.
Proof. unfold liveBlock, bufferSize. split; [lia|]. rewrite <- (Nat2Z.id 128), <- Z2Nat.inj_mul by lia. done. Qed.
Local Opaque blockSize reserve bufsize liveBlock bufferSize.
(** [done] would unfold the sizes. *)
Ltac parts := repeat match goal with |- _ /\ _ => split end; first [assumption | reflexivity].
Lemma push_fits {A} cap (q xs : list A) : length q + length xs <= cap -> push cap q xs = q ++ xs.
Proof. intros H. unfold push. rewrite (take_ge xs) by lia. done. Qed.
Lemma silence_length n : length (silence n) = n.
Proof. apply replicate_length. Qed.

(** Mixing. *)
Lemma mixDry_is mix dry wet : length wet <= length dry -> mixDry mix dry (Some <$> wet) = (drop (length wet) dry, output wet dry (replicate (length wet) mix)).
Proof.
  intros H. unfold mixDry, output. rewrite fmap_length.
  assert (E : forall wet dry, length wet <= length dry -> zip_with mixed (zip wet dry) (replicate (length wet) mix) = if Qle_bool mix 0 then wet else zip_with (fun w d => w * (1 - mix) + d * mix)%Q wet dry).
  { clear. induction wet as [|w wet IH]; intros [|d dry] H; cbn in *; try lia; [by destruct (Qle_bool mix 0)..|]. unfold mixed at 1. cbn [fst snd]. rewrite (IH dry) by lia. by destruct (Qle_bool mix 0). }
  rewrite E by done. destruct (Qle_bool mix 0); [done|]. f_equal. clear E. revert dry H. induction wet as [|w wet IH]; intros [|d dry] H; cbn in *; try lia; try done. f_equal. apply IH. lia.
Qed.
Lemma output_app w1 w2 d1 d2 m1 m2 : length w1 = length d1 -> length w1 = length m1 -> output (w1 ++ w2) (d1 ++ d2) (m1 ++ m2) = output w1 d1 m1 ++ output w2 d2 m2.
Proof.
  intros H1 H2. unfold output. rewrite <- fmap_app. f_equal. rewrite !(zip_with_app _ w1) by done. apply zip_with_app. rewrite zip_with_length. lia.
Qed.
Lemma output_prefix w d m n : n <= length w -> n <= length d -> n <= length m -> output (take n w) (take n d) (take n m) = take n (output w d m).
Proof.
  intros H1 H2 H3. rewrite <- (take_drop n w), <- (take_drop n d), <- (take_drop n m) at 2. rewrite output_app by (rewrite !take_length; lia).
  rewrite take_app_alt; [done|]. unfold output. rewrite fmap_length, !zip_with_length, !take_length. lia.
Qed.
Lemma output_take w d m : length m <= length w -> length m <= length d -> output w d m = output (take (length m) w) (take (length m) d) m.
Proof. intros H1 H2. pose proof (output_prefix w d m (length m) H1 H2 ltac:(lia)) as E. rewrite firstn_all in E. rewrite E. symmetry. apply take_ge. unfold output. rewrite fmap_length, !zip_with_length. lia. Qed.

Lemma blend_is mix : forall wet dry, length wet <= length dry -> (mixDry mix dry wet).2 = blended wet dry (replicate (length wet) mix) /\ (mixDry mix dry wet).1 = drop (length wet) dry.
Proof.
  intros wet dry H. unfold mixDry. destruct (Qle_bool mix 0) eqn:E; (split; [|done]); cbn [snd].
  - revert dry H. induction wet as [|w wet IH]; intros [|d dry] H; cbn in *; try done; try lia. unfold blended. cbn [zip_with zip]. f_equal; [|apply IH; lia]. cbn [fst snd]. destruct w; [|done]. cbn. unfold mixed. by rewrite E.
  - revert dry H. induction wet as [|w wet IH]; intros [|d dry] H; cbn in *; try done; try lia. unfold blended. cbn [zip_with zip]. f_equal; [|apply IH; lia]. cbn [fst snd]. destruct w; [|done]. cbn. unfold mixed. by rewrite E.
Qed.
Lemma blended_app w1 w2 d1 d2 m1 m2 : length w1 = length d1 -> length w1 = length m1 -> blended (w1 ++ w2) (d1 ++ d2) (m1 ++ m2) = blended w1 d1 m1 ++ blended w2 d2 m2.
Proof. intros H1 H2. unfold blended. rewrite !(zip_with_app _ w1) by done. apply zip_with_app. rewrite zip_with_length. lia. Qed.
Lemma blended_take w d m : length w <= length d -> length w = length m -> blended w d m = blended w (take (length w) d) m.
Proof. revert d m. unfold blended. induction w as [|a w IH]; intros [|b d] [|c m] H1 H2; cbn in *; try done; try lia. f_equal. apply IH; lia. Qed.
(** The dry path of any stretcher at all. *)
Section Dry.
  Context {S : Type} (X : stretcher S).
  Lemma feeding_dry fuel : forall (p p' : plugin S) xs, feeding X fuel p xs = Some p' -> delayMix p' = delayMix p.
  Proof.
    induction fuel as [|fuel IH]; intros p p' [|x xs] H; cbn [feeding] in H; try (by injection H as <-); [done|].
    destruct (retrieve X _ _) as [ys s']. apply IH in H. done.
  Qed.
  Lemma runBlock_dry (p p' : plugin S) xs out : runBlock X p xs = Some (p', out) -> delayMix p' = delayMix p /\ length out = length xs.
  Proof.
    unfold runBlock. destruct (feeding X _ p xs) as [q|] eqn:E; [|done]. intros H. cbn [mbind option_bind] in H. injection H as <- <-. cbn [delayMix]. split; [exact (feeding_dry _ _ _ _ E)|].
    rewrite app_length, fmap_length, replicate_length, take_length. lia.
  Qed.
  Lemma runBlocks_dry fuel : forall (p p' : plugin S) xs out, runBlocks X fuel p xs = Some (p', out) -> delayMix p' = delayMix p /\ length out = length xs.
  Proof.
    induction fuel as [|fuel IH]; intros p p' xs out H.
    - destruct xs; [|done]. cbn [runBlocks] in H. by injection H as <- <-.
    - destruct xs as [|x xs'] eqn:Exs; [cbn [runBlocks] in H; by injection H as <- <-|]. cbn [runBlocks] in H. rewrite <- Exs in *.
      destruct (runBlock X p _) as [[p1 o1]|] eqn:E1; [|done]. cbn [mbind option_bind] in H. destruct (runBlocks X fuel p1 _) as [[p2 o2]|] eqn:E2; [|done]. cbn [mbind option_bind] in H. injection H as <- <-.
      apply runBlock_dry in E1 as [D1 L1]. apply IH in E2 as [D2 L2]. split; [congruence|]. rewrite app_length, L1, L2, <- app_length. by rewrite take_drop.
  Qed.
  Lemma host_dry : forall l (p p' : plugin S) out ins, delayMix p = drop (length ins) (silence reserve ++ ins) -> Forall (fun b => length b.2 <= 9 * blockSize) l -> host X p l = Some (p', out) ->
    exists wet, length wet = length (given l) /\ out = blended wet (take (length (given l)) (drop (length ins) (silence reserve ++ ins ++ given l))) (mixes l).
  Proof.
    destruct sizes as (B1 & B2 & B3).
    induction l as [|[m xs] l IH]; intros p p' out ins HD Hl H.
    - cbn [host] in H. injection H as <- <-. exists []. parts.
    - apply Forall_cons in Hl as [Hx Hl]. cbn [snd] in Hx. cbn [host] in H. unfold runPlugin at 1 in H.
      assert (Hdl : length (delayMix p) = reserve) by (rewrite HD, drop_length, app_length, silence_length; lia).
      rewrite push_fits in H by lia.
      destruct (runBlocks X _ _ xs) as [[p1 w1]|] eqn:E1; [|discriminate H]. apply runBlocks_dry in E1 as [D1 L1]. cbn [mbind option_bind delayMix] in *.
      destruct (blend_is m w1 (delayMix p1)) as [M1 M2]; [rewrite D1, app_length; lia|]. destruct (mixDry m (delayMix p1) w1) as [dry o1]. cbn [fst snd] in M1, M2. cbn [mbind option_bind] in H.
      destruct (host X _ l) as [[p2 o2]|] eqn:E2; [|discriminate H]. cbn [mbind option_bind] in H. injection H as <- <-.
      assert (Edry : delayMix p1 = drop (length ins) (silence reserve ++ ins ++ xs)). { rewrite D1, HD. rewrite (app_assoc (silence _)), (drop_app_le (silence reserve ++ ins) xs); [parts|]. rewrite app_length. lia. }
      assert (HD' : dry = drop (length (ins ++ xs)) (silence reserve ++ ins ++ xs)) by (rewrite M2, L1, Edry, drop_drop, app_length; parts).
      destruct (IH (Plugin (st p1) (outputBuffer p1) dry) _ _ (ins ++ xs) HD' Hl E2) as (w2 & L2 & ->).
      exists (w1 ++ w2). cbn [given fmap list_fmap snd concat] in *. fold (given l). rewrite <- !app_assoc in *. split; [rewrite !app_length; unfold given in *; cbn in *; lia|].
      change (mixes ((m, xs) :: l)) with (replicate (length xs) m ++ mixes l).
      assert (Hd : length ins + length xs <= length (silence reserve ++ ins ++ xs)) by (rewrite !app_length; lia).
      rewrite M1, L1. rewrite blended_take by (rewrite ?replicate_length, ?Edry, ?drop_length; lia). rewrite L1.
      rewrite <- blended_app by (rewrite ?replicate_length, ?take_length, ?Edry, ?drop_length; lia). f_equal.
      rewrite Edry, app_length, <- drop_drop. set (q := drop (length ins) (silence reserve ++ ins ++ xs ++ given l)).
      assert (E3 : take (length xs) (drop (length ins) (silence reserve ++ ins ++ xs)) = take (length xs) q).
      { unfold q. replace (silence reserve ++ ins ++ xs ++ given l) with ((silence reserve ++ ins ++ xs) ++ given l) by ((rewrite <- !app_assoc; parts)). rewrite (drop_app_le (_ ++ _ ++ xs)) by lia.
        rewrite take_app_le; [parts|]. rewrite drop_length. lia. }
      rewrite E3, app_length. apply take_take_drop.
  Qed.
End Dry.

Section Plugin.
  Context {S : Type} (X : stretcher S) (s0 : S) (HP : paced X s0).
  (** After [given], with the plug-in's silence ahead of it: the stretcher gave [ys], of which the
      host has had as many as it gave. *)
  Record at_ (p : plugin S) (ins ys : list Q) : Prop := At {
    a_played : played X s0 (silence reserve ++ ins) ys (st p); a_some : length ins <= length ys;
    a_out : outputBuffer p = drop (length ins) ys
  }.
  Lemma feeding_is fuel : forall (p : plugin S) had ins ys xs, played X s0 (silence reserve ++ had ++ ins) ys (st p) -> length had <= length ys -> outputBuffer p = drop (length had) ys ->
    length ins + length xs <= blockSize -> length xs < fuel + (if decide (available X (st p) = 0) then 1 else 0) -> 
    (available X (st p) = 0 \/ xs <> [] \/ fuel = 0) ->
    exists p' zs, feeding X fuel p xs = Some p' /\ played X s0 (silence reserve ++ had ++ ins ++ xs) (ys ++ zs) (st p') /\ outputBuffer p' = drop (length had) (ys ++ zs) /\ delayMix p' = delayMix p /\ available X (st p') = 0.
  Proof.
    destruct sizes as (B1 & B2 & B3).
    induction fuel as [|fuel IH]; intros p had ins ys xs H1 H2 H3 H4 H5 H6.
    - destruct (decide (available X (st p) = 0)) as [Ha|Ha]; [|lia]. destruct xs as [|x xs]; [|cbn in H5; lia]. cbn [feeding]. exists p, []. rewrite !app_nil_r. parts.
    - destruct xs as [|x xs'] eqn:Exs.
      { destruct H6 as [H6|[H6|H6]]; [|by destruct H6|discriminate H6]. cbn [feeding]. exists p, []. rewrite !app_nil_r. parts. }
      cbn [feeding]. rewrite <- Exs in *. set (k := length xs `min` required X (st p)). set (s := feed X (st p) (take k xs)).
      assert (P1 : played X s0 (silence reserve ++ had ++ ins ++ take k xs) ys s). { replace (silence reserve ++ had ++ ins ++ take k xs) with ((silence reserve ++ had ++ ins) ++ take k xs) by ((rewrite <- !app_assoc; parts)). by constructor. }
      destruct (HP _ _ _ P1) as (_ & L2 & _ & L4). rewrite !app_length, silence_length, take_length in L2.
      rewrite H3, drop_length. rewrite Nat.min_l by lia. destruct (L4 (available X s) ltac:(lia)) as [R1 R2].
      pose proof (played_take X s0 _ _ _ (available X s) P1) as P2. destruct (retrieve X s (available X s)) as [zs s']. cbn [fst snd] in *.
      rewrite push_fits by (rewrite drop_length; lia).
      assert (Hdr : drop (length had) ys ++ zs = drop (length had) (ys ++ zs)) by ((rewrite drop_app_le; parts)). rewrite Hdr.
      destruct (IH (Plugin s' (drop (length had) (ys ++ zs)) (delayMix p)) had (ins ++ take k xs) (ys ++ zs) (drop k xs)) as (p' & ws & F1 & F2 & F3 & F4 & F5); cbn [st outputBuffer delayMix] in *.
      + exact P2.
      + rewrite app_length. lia.
      + parts.
      + rewrite app_length, take_length, drop_length. lia.
      + rewrite decide_True by lia. rewrite drop_length. destruct (decide (available X (st p) = 0)) as [Ha|Ha]; [|lia]. destruct (HP _ _ _ H1) as (_ & _ & L3 & _). specialize (L3 Ha). assert (0 < length xs) by (rewrite Exs; cbn; lia). lia.
      + left. lia.
      + exists p', (zs ++ ws). split; [exact F1|]. rewrite <- !app_assoc in *. rewrite (take_drop k xs) in F2. parts.
  Qed.
  Lemma runBlock_is (p : plugin S) ins ys xs : at_ p ins ys -> length xs <= blockSize -> xs <> [] -> exists p' zs, runBlock X p xs = Some (p', Some <$> take (length xs) (drop (length ins) (ys ++ zs))) /\
    at_ p' (ins ++ xs) (ys ++ zs) /\ delayMix p' = delayMix p /\ length ins + length xs <= length (ys ++ zs).
  Proof.
    intros [A1 A2 A3] Hx Hne. unfold runBlock. destruct (feeding_is (2 * length xs + 2) p ins [] ys xs) as (p' & zs & F1 & F2 & F3 & F4 & F5).
    { (rewrite app_nil_r; parts). } { parts. } { parts. } { cbn; lia. } { destruct (decide _); lia. } { right; left; parts. }
    cbn [app] in F2. rewrite F1. cbn [mbind option_bind]. destruct (HP _ _ _ F2) as (L1 & _). rewrite F5 in L1. rewrite (app_length (silence _)), silence_length, app_length in L1.
    assert (L : length ins + length xs <= length (ys ++ zs)) by lia.
    exists (Plugin (st p') (drop (length xs) (outputBuffer p')) (delayMix p')), zs. split; [|split; [|split; [exact F4|parts]]].
    - assert (Hl : length (take (length xs) (drop (length ins) (ys ++ zs))) = length xs) by (rewrite take_length, drop_length; lia).
      rewrite F3, Hl, Nat.sub_diag. cbn [replicate]. rewrite app_nil_r. reflexivity.
    - constructor; cbn [st outputBuffer]; [exact F2|rewrite app_length; lia|]. (rewrite F3, drop_drop, app_length; parts).
  Qed.
  Lemma runBlocks_is fuel : forall (p : plugin S) ins ys xs, at_ p ins ys -> length xs <= fuel -> exists p' zs, runBlocks X fuel p xs = Some (p', Some <$> take (length xs) (drop (length ins) (ys ++ zs))) /\
    at_ p' (ins ++ xs) (ys ++ zs) /\ delayMix p' = delayMix p.
  Proof.
    destruct sizes as (B1 & _).
    induction fuel as [|fuel IH]; intros p ins ys xs HA Hx.
    - destruct xs; [|cbn in Hx; lia]. exists p, []. cbn [runBlocks length]. rewrite take_0, !app_nil_r. parts.
    - destruct xs as [|x xs'] eqn:Exs; [exists p, []; cbn [runBlocks length]; rewrite take_0, !app_nil_r; parts|]. cbn [runBlocks]. rewrite <- Exs in *.
      assert (Hn : 0 < length xs) by (rewrite Exs; cbn; lia).
      destruct (runBlock_is p ins ys (take blockSize xs) HA) as (p1 & z1 & -> & A1 & D1 & L1); [rewrite take_length; lia|intros E; apply (f_equal length) in E; rewrite take_length in E; cbn [length] in E; lia|]. cbn [mbind option_bind].
      destruct (IH p1 (ins ++ take blockSize xs) (ys ++ z1) (drop blockSize xs) A1) as (p2 & z2 & -> & A2 & D2); [rewrite drop_length; lia|]. cbn [mbind option_bind].
      exists p2, (z1 ++ z2). rewrite <- !app_assoc in A2. rewrite take_drop in A2. split; [|split; [parts|congruence]]. f_equal. f_equal. rewrite <- fmap_app. f_equal.
      rewrite <- !app_assoc, app_length, <- drop_drop. rewrite (app_assoc ys z1 z2). set (q := drop (length ins) ((ys ++ z1) ++ z2)).
      assert (E1 : take (length (take blockSize xs)) (drop (length ins) (ys ++ z1)) = take (length (take blockSize xs)) q). { unfold q. rewrite (drop_app_le (ys ++ z1) z2) by lia. rewrite take_app_le; [parts|]. rewrite drop_length. lia. }
      rewrite E1. rewrite take_take_drop. f_equal. rewrite <- app_length. (rewrite take_drop; parts).
  Qed.
  Lemma host_is : forall l (p : plugin S) ins ys, at_ p ins ys -> delayMix p = drop (length ins) (silence reserve ++ ins) -> Forall (fun b => length b.2 <= 9 * blockSize) l ->
    exists p' zs, host X p l = Some (p', output (take (length (given l)) (drop (length ins) (ys ++ zs))) (take (length (given l)) (drop (length ins) (silence reserve ++ ins ++ given l))) (mixes l)) /\
    at_ p' (ins ++ given l) (ys ++ zs).
  Proof.
    destruct sizes as (B1 & B2 & B3).
    induction l as [|[m xs] l IH]; intros p ins ys HA HD Hl.
    - exists p, []. rewrite !app_nil_r. parts.
    - apply Forall_cons in Hl as [Hx Hl]. cbn [snd] in Hx. cbn [host]. unfold runPlugin at 1.
      assert (Hdl : length (delayMix p) = reserve) by (rewrite HD, drop_length, app_length, silence_length; lia).
      rewrite push_fits by lia.
      destruct (runBlocks_is (length xs) (Plugin (st p) (outputBuffer p) (delayMix p ++ xs)) ins ys xs) as (p1 & z1 & -> & A1 & D1); [destruct HA; by constructor|parts|]. cbn [mbind option_bind delayMix] in *.
      set (wet := take (length xs) (drop (length ins) (ys ++ z1))). assert (Hw : length wet = length xs). { unfold wet. rewrite take_length, drop_length. destruct A1 as [_ A1 _]. rewrite app_length in A1. lia. }
      rewrite D1. rewrite mixDry_is by (rewrite app_length; lia). rewrite Hw.
      set (dry := delayMix p ++ xs). assert (Edry : dry = drop (length ins) (silence reserve ++ ins ++ xs)). { unfold dry. rewrite HD. rewrite (app_assoc (silence _)), (drop_app_le (silence reserve ++ ins) xs); [parts|]. rewrite app_length. lia. }
      cbn [mbind option_bind]. destruct (IH (Plugin (st p1) (outputBuffer p1) (drop (length xs) dry)) (ins ++ xs) (ys ++ z1)) as (p2 & z2 & -> & A2); [destruct A1; by constructor|cbn [delayMix]; rewrite Edry, drop_drop, app_length; parts|parts|]. cbn [mbind option_bind].
      exists p2, (z1 ++ z2). cbn [given fmap list_fmap snd concat] in *. fold (given l). rewrite <- !app_assoc in *. split; [|parts]. f_equal. f_equal.
      change (mixes ((m, xs) :: l)) with (replicate (length xs) m ++ mixes l).
      assert (L1 : length ins + length xs <= length (ys ++ z1)) by (destruct A1 as [_ A1 _]; rewrite app_length in A1; lia).
      rewrite (output_take wet dry) by (rewrite ?replicate_length; unfold dry; rewrite ?app_length; lia). rewrite replicate_length.
      rewrite <- output_app by (rewrite ?replicate_length, ?take_length; unfold dry; rewrite ?app_length; lia). f_equal.
      + rewrite (take_ge wet) by lia. unfold wet. rewrite app_length, <- drop_drop, (app_assoc ys z1 z2). set (q := drop (length ins) ((ys ++ z1) ++ z2)).
        assert (E1 : take (length xs) (drop (length ins) (ys ++ z1)) = take (length xs) q). { unfold q. rewrite (drop_app_le (ys ++ z1) z2) by lia. rewrite take_app_le; [parts|]. rewrite drop_length. lia. }
        rewrite E1, app_length. apply take_take_drop.
      + rewrite Edry, app_length, <- drop_drop. set (q := drop (length ins) (silence reserve ++ ins ++ xs ++ given l)).
        assert (E1 : take (length xs) (drop (length ins) (silence reserve ++ ins ++ xs)) = take (length xs) q).
        { unfold q. replace (silence reserve ++ ins ++ xs ++ given l) with ((silence reserve ++ ins ++ xs) ++ given l) by ((rewrite <- !app_assoc; parts)). rewrite (drop_app_le (_ ++ _ ++ xs)); [|rewrite !app_length; lia].
          rewrite take_app_le; [parts|]. rewrite drop_length, !app_length, silence_length. lia. }
        rewrite E1, app_length. apply take_take_drop.
  Qed.
End Plugin.

Section Live.
  Context {S : Type} (X : shifter S) (s0 : S) (HX : block_for_block X).
  Record lat (p : lplugin S) (d : nat) (ins done_ ys : list Q) : Prop := Lat {
    l_played : lplayed X s0 done_ ys (sh p); l_in : done_ ++ irb p = silence liveBlock ++ ins; l_len : length done_ = length ys; l_some : length ins <= length ys;
    l_out : orb p = drop (length ins) ys; l_dry : ldelayMix p = drop (length ins) (silence d ++ ins); l_delay : ldelay p = d
  }.
  Lemma shifting_is fuel : forall (p : lplugin S) xs ys, lplayed X s0 xs ys (sh p) -> length (orb p) + length (irb p) <= bufferSize -> length (irb p) <= fuel ->
    exists p' xs' us, shifting X fuel p = Some p' /\ lplayed X s0 (xs ++ xs') (ys ++ us) (sh p') /\ irb p = xs' ++ irb p' /\ orb p' = orb p ++ us /\ length us = length xs' /\ length (irb p') < liveBlock /\ ldelayMix p' = ldelayMix p /\ ldelay p' = ldelay p.
  Proof.
    destruct live_sizes as (B1 & _).
    induction fuel as [|fuel IH]; intros p xs ys H1 H2 H3; cbn [shifting].
    - rewrite (proj2 (Nat.ltb_lt _ _)) by lia. exists p, [], []. rewrite !app_nil_r. split_and!; try parts. lia.
    - destruct (Nat.ltb_spec (length (irb p)) liveBlock) as [Hl|Hl]; [exists p, [], []; rewrite !app_nil_r; parts|].
      assert (Ht : length (take liveBlock (irb p)) = liveBlock) by (rewrite take_length; lia).
      pose proof (lplayed_shift X s0 xs ys (sh p) _ Ht H1) as P. pose proof (HX (sh p) _ Ht) as L. destruct (lshift X (sh p) (take liveBlock (irb p))) as [us s']. cbn [fst snd] in *.
      rewrite push_fits by lia.
      destruct (IH (LPlugin s' (drop liveBlock (irb p)) (orb p ++ us) (ldelayMix p) (ldelay p)) _ _ P) as (p' & xs' & ws & F1 & F2 & F3 & F4 & F5 & F6 & F7 & F8); cbn [orb irb sh ldelayMix ldelay] in *.
      + rewrite app_length, drop_length. lia.
      + rewrite drop_length. lia.
      + exists p', (take liveBlock (irb p) ++ xs'), (us ++ ws). rewrite <- !app_assoc in *. split; [exact F1|]. split; [exact F2|]. split; [rewrite <- F3, take_drop; parts|]. split; [exact F4|]. split; [rewrite !app_length; lia|]. parts.
  Qed.
  Lemma runLive_is (p : lplugin S) d ins done_ ys scale mix xs : lat p d ins done_ ys -> length xs <= 127 * liveBlock -> length (irb p) <= liveBlock ->
    exists p' xs' us, runLive X p scale mix xs = Some (p', output (take (length xs) (drop (length ins) (ys ++ us))) (take (length xs) (drop (length ins) (silence d ++ ins ++ xs))) (replicate (length xs) mix)) /\
      lat p' d (ins ++ xs) (done_ ++ xs') (ys ++ us) /\ length (irb p') <= liveBlock /\ length ins + length xs <= length (ys ++ us).
  Proof.
    destruct live_sizes as (B1 & B2). intros [A1 A2 A3 A4 A5 A6 A7] Hx Hi. unfold runLive. rewrite (push_fits bufferSize) by lia.
    assert (Hdl : length (ldelayMix p) = d) by (rewrite A6, drop_length, app_length, silence_length; lia). rewrite push_fits by (rewrite A7, Hdl; lia).
    assert (Hsum : length ys + length (irb p) = liveBlock + length ins). { rewrite <- A3, <- app_length, A2, app_length, silence_length. parts. }
    destruct (shifting_is (length (irb p ++ xs)) (LPlugin (setScale X (sh p) scale) (irb p ++ xs) (orb p) (ldelayMix p ++ xs) (ldelay p)) done_ ys) as (p' & xs' & us & F1 & F2 & F3 & F4 & F5 & F6 & F7 & F8); cbn [orb irb sh ldelayMix ldelay] in *.
    { by constructor. } { rewrite app_length, A5, drop_length. lia. } { lia. }
    rewrite F1. cbn [mbind option_bind].
    assert (Hlen : length ins + length xs <= length (ys ++ us)). { rewrite app_length. apply (f_equal length) in F3. rewrite !app_length in F3. lia. }
    assert (Ho : orb p' = drop (length ins) (ys ++ us)) by ((rewrite F4, A5, drop_app_le; parts)).
    set (wet := take (length xs) (drop (length ins) (ys ++ us))). assert (Hw : length wet = length xs) by (unfold wet; rewrite take_length, drop_length; lia).
    rewrite Ho. fold wet. rewrite Hw, Nat.sub_diag. cbn [replicate]. rewrite app_nil_r, F7. rewrite mixDry_is by (rewrite app_length; lia). rewrite Hw.
    assert (Ed : ldelayMix p ++ xs = drop (length ins) (silence d ++ ins ++ xs)). { rewrite A6, (app_assoc (silence d)), (drop_app_le (silence d ++ ins) xs); [parts|]. rewrite app_length. lia. }
    exists (LPlugin (sh p') (irb p') (drop (length xs) (drop (length ins) (ys ++ us))) (drop (length xs) (ldelayMix p ++ xs)) (ldelay p')), xs', us.
    split; [|split; [|split; [|exact Hlen]]].
    - f_equal. f_equal. rewrite (output_take wet _ (replicate _ _)) by (rewrite replicate_length, ?app_length; lia). rewrite replicate_length, (take_ge wet) by lia. (rewrite Ed; parts).
    - constructor; cbn [orb irb sh ldelayMix ldelay].
      + exact F2.
      + rewrite <- app_assoc, <- F3, app_assoc, A2. (rewrite <- app_assoc; parts).
      + rewrite !app_length. lia.
      + (rewrite app_length; parts).
      + (rewrite drop_drop, app_length; parts).
      + (rewrite Ed, drop_drop, app_length; parts).
      + congruence.
    - cbn [irb]. lia.
  Qed.
  Lemma liveHost_is : forall l (p : lplugin S) d ins done_ ys, lat p d ins done_ ys -> length (irb p) <= liveBlock -> Forall (fun b => length b.2 <= 127 * liveBlock) l ->
    exists p' xs' us, liveHost X p l = Some (p', output (take (length (given l)) (drop (length ins) (ys ++ us))) (take (length (given l)) (drop (length ins) (silence d ++ ins ++ given l))) (mixes (settings l))) /\
      lat p' d (ins ++ given l) (done_ ++ xs') (ys ++ us).
  Proof.
    induction l as [|[[scale m] xs] l IH]; intros p d ins done_ ys HA Hi Hl.
    - exists p, [], []. rewrite !app_nil_r. parts.
    - apply Forall_cons in Hl as [Hx Hl]. cbn [snd] in Hx. cbn [liveHost].
      destruct (runLive_is p d ins done_ ys scale m xs HA Hx Hi) as (p1 & x1 & z1 & -> & A1 & I1 & L1). cbn [mbind option_bind].
      destruct (IH p1 d (ins ++ xs) (done_ ++ x1) (ys ++ z1) A1 I1 Hl) as (p2 & x2 & z2 & -> & A2). cbn [mbind option_bind].
      exists p2, (x1 ++ x2), (z1 ++ z2). cbn [given fmap list_fmap snd concat] in *. fold (given l). rewrite <- !app_assoc in *. split; [|parts]. f_equal. f_equal.
      change (mixes (settings ((scale, m, xs) :: l))) with (replicate (length xs) m ++ mixes (settings l)).
      assert (Hd : length ins + length xs <= length (silence d ++ ins ++ xs)) by (rewrite !app_length; lia).
      rewrite <- output_app by (rewrite ?replicate_length, !take_length, !drop_length; lia). f_equal.
      + rewrite app_length, <- drop_drop, (app_assoc ys z1 z2). set (q := drop (length ins) ((ys ++ z1) ++ z2)).
        assert (E1 : take (length xs) (drop (length ins) (ys ++ z1)) = take (length xs) q). { unfold q. rewrite (drop_app_le (ys ++ z1) z2) by lia. rewrite take_app_le; [parts|]. rewrite drop_length. lia. }
        rewrite E1, app_length. apply take_take_drop.
      + rewrite app_length, <- drop_drop. set (q := drop (length ins) (silence d ++ ins ++ xs ++ given l)).
        assert (E1 : take (length xs) (drop (length ins) (silence d ++ ins ++ xs)) = take (length xs) q).
        { unfold q. replace (silence d ++ ins ++ xs ++ given l) with ((silence d ++ ins ++ xs) ++ given l) by ((rewrite <- !app_assoc; parts)). rewrite (drop_app_le (_ ++ _ ++ xs)) by lia.
          rewrite take_app_le; [parts|]. rewrite drop_length. lia. }
        rewrite E1, app_length. apply take_take_drop.
  Qed.
End Live.
