(** The properties of the plug-ins. *)
From stdpp Require Import prelude list numbers.
From Coq Require Import QArith Lia.
From Verif Require Import Plugin.Model Plugin.Spec Plugin.Proofs.
From stdpp Require Import list.
Local Open Scope nat_scope.

(** A stretcher that echoes: what it is fed it has, and it asks for 300 at a time. *)
Definition echo : stretcher (list Q) := Stretcher _ (fun _ => []) (fun _ => 300) (fun s xs => s ++ xs) (fun s => length s) (fun s n => (take n s, drop n s)).
Lemma echo_played s0 xs ys s : played echo s0 xs ys s -> s0 ++ xs = ys ++ s.
Proof.
  induction 1 as [|xs ys s zs _ IH|xs ys s n _ IH]; cbn [echo feed retrieve fst snd] in *; [by rewrite app_nil_r| |].
  - by rewrite app_assoc, IH, <- app_assoc.
  - by rewrite IH, <- app_assoc, take_drop.
Qed.
Lemma echo_paced : paced echo [].
Proof.
  intros xs ys s H. apply echo_played in H. cbn [app] in H. apply (f_equal length) in H. rewrite app_length in H. cbn [echo available required retrieve fst snd]. split_and!; [lia..|].
  intros n Hn. by rewrite take_length, drop_length, Nat.min_l.
Qed.
(** One behind by 100 samples and asking for nothing while it has anything, as the finer engine does. *)
Definition lagging : stretcher (list Q) := Stretcher _ (fun _ => silence 100) (fun s => if length s <=? 100 then 64 else 0) (fun s xs => s ++ xs)
  (fun s => length s - 100) (fun s n => (take (n `min` (length s - 100)) s, drop (n `min` (length s - 100)) s)).
Lemma lagging_paced : paced lagging (silence 100).
Proof.
  destruct sizes as (B1 & B2 & _).
  assert (E : forall xs ys s, played lagging (silence 100) xs ys s -> silence 100 ++ xs = ys ++ s /\ 100 <= length s).
  { induction 1 as [|xs ys s zs _ [IH L]|xs ys s n _ [IH L]]; cbn [lagging feed retrieve fst snd] in *; [by rewrite app_nil_r|..].
    - split; [by rewrite app_assoc, IH, <- app_assoc|rewrite app_length; lia].
    - split; [by rewrite IH, <- app_assoc, take_drop|rewrite drop_length; lia]. }
  intros xs ys s H. apply E in H as [H L]. apply (f_equal length) in H. rewrite !app_length, silence_length in H. cbn [lagging available required retrieve fst snd]. split_and!; [lia|lia| |].
  - intros Ha. rewrite (proj2 (Nat.leb_le _ _)) by lia. lia.
  - intros n Hn. rewrite take_length, drop_length. lia.
Qed.

(** C54: with any stretcher at all, any sequence of host blocks of up to 9216 samples and any mix
    at each: if run ends, the dry part of every output sample is the input delayed by the reported
    latency. *)
Theorem C54_dry_partial : forall (S : Type) (X : stretcher S) (s : S) (l : list (Q * list Q)) (p : plugin S) (out : list (option Q)),
  Forall (fun b => length b.2 <= Z.to_nat 9216) l -> host X (activate X s) l = Some (p, out) ->
  exists wet, length wet = length (given l) /\ out = blended wet (delayed (latency p) (given l)) (mixes l).
Proof.
  intros S X s l p out Hl H. destruct sizes as (B1 & B2 & B3). destruct (host_dry X l (activate X s) p out []) as (wet & L & ->).
  - cbn [activate delayMix length drop]. rewrite push_fits by (rewrite silence_length; cbn [length]; lia). by rewrite app_nil_r.
  - replace (9 * blockSize) with (Z.to_nat 9216); [done|]. unfold blockSize. rewrite <- (Nat2Z.id 9), <- Z2Nat.inj_mul by lia. done.
  - done.
  - exists wet. split; [done|]. done.
Qed.
Print Assumptions C54_dry_partial.

(** One sample more in a block and it is not: the last sample of the block is never heard, at a mix
    that is all dry, and all that follows is early by one. *)
Theorem C54_dry_refuted : exists (xs ys : list Q),
  length xs = Z.to_nat 9217 /\ last xs = Some 1%Q /\ length ys = Z.to_nat 9000 /\ hd 0%Q ys = 2%Q /\
  match host echo (activate echo []) [(1%Q, xs); (1%Q, ys)] with
  | Some (_, out) => forallb (fun o => match o with Some y => negb (Qeq_bool y 1) | None => false end) out = true /\
      from_option (fun o => from_option (fun y => Qeq_bool y 2) false o) false (out !! (Z.to_nat (8192 + 9217 - 1))) = true
  | None => False
  end.
Proof. exists (silence (Z.to_nat 9216) ++ [1%Q]), (2%Q :: silence (Z.to_nat 8999)). split_and!; try (vm_compute; reflexivity). vm_compute. split; reflexivity. Qed.
Print Assumptions C54_dry_refuted.

(** C76: with a stretcher that keeps pace, for every such sequence of blocks, run ends; nothing is
    missing from the output; the wet signal is, from its first sample on, all that the stretcher
    has made out of the reserve of silence and the input, each given to it once and in order. *)
Theorem C76_wet_partial : forall (S : Type) (X : stretcher S) (s : S) (l : list (Q * list Q)), paced X (sreset X s) -> Forall (fun b => length b.2 <= Z.to_nat 9216) l ->
  exists p ys, host X (activate X s) l = Some (p, output (take (length (given l)) ys) (delayed (latency p) (given l)) (mixes l)) /\
    played X (sreset X s) (silence (latency p) ++ given l) ys (st p) /\ length (given l) <= length ys.
Proof.
  intros S X s l HP Hl. destruct sizes as (B1 & B2 & B3). destruct (host_is X (sreset X s) HP l (activate X s) [] []) as (p & zs & -> & [A1 A2 A3]).
  - constructor; cbn [activate st outputBuffer length]; [|lia|done]. rewrite app_nil_r. exact (played_feed X _ [] [] _ (silence reserve) (played_start X _)).
  - cbn [activate delayMix length drop]. rewrite push_fits by (rewrite silence_length; cbn [length]; lia). by rewrite app_nil_r.
  - replace (9 * blockSize) with (Z.to_nat 9216); [done|]. unfold blockSize. rewrite <- (Nat2Z.id 9), <- Z2Nat.inj_mul by lia. done.
  - exists p, zs. split; [reflexivity|split; assumption].
Qed.
Print Assumptions C76_wet_partial.
(** Met: by the echo and by the one that lags; the echo's wet signal is the input late by the latency. *)
Example echo_wet (l : list (Q * list Q)) : Forall (fun b => length b.2 <= Z.to_nat 9216) l ->
  exists p, host echo (activate echo []) l = Some (p, output (delayed (latency p) (given l)) (delayed (latency p) (given l)) (mixes l)).
Proof.
  intros Hl. destruct (C76_wet_partial _ echo [] l echo_paced Hl) as (p & ys & -> & P & L). apply echo_played in P. exists p. do 3 f_equal. unfold delayed. cbn [app sreset echo] in P.
  rewrite P, take_app_le by done. done.
Qed.
Example lagging_wet : exists p ys, host lagging (activate lagging []) [((1 # 2)%Q, [1; 2; 3]%Q); (0%Q, silence 2000)] = Some (p, output (take 2003 ys) (delayed (latency p) ([1; 2; 3]%Q ++ silence 2000)) (replicate 3 (1 # 2)%Q ++ replicate 2000 0%Q)).
Proof.
  destruct (C76_wet_partial _ lagging [] [((1 # 2)%Q, [1; 2; 3]%Q); (0%Q, silence 2000)] lagging_paced) as (p & ys & H & _).
  - repeat apply Forall_cons_2; try apply Forall_nil_2; cbn [snd]; [cbn; lia|rewrite silence_length; lia].
  - exists p, ys. rewrite H. unfold given, mixes. cbn [fmap list_fmap concat snd fst app length]. rewrite !app_nil_r, silence_length. reflexivity.
Qed.
(** A stretcher that keeps only half of what it is given does not keep pace, and the output has
    holes: the host's old samples stay there. *)
Definition halving : stretcher (list Q) := Stretcher _ (fun _ => []) (fun _ => 300) (fun s xs => s ++ take (Nat.div2 (length xs)) xs) (fun s => length s) (fun s n => (take n s, drop n s)).
Theorem C76_wet_refuted : exists l, Forall (fun b => length b.2 <= Z.to_nat 1024) l /\ match host halving (activate halving []) l with Some (_, out) => existsb (fun o => match o with None => true | _ => false end) out = true | None => False end.
Proof.
  exists (replicate 9 (0%Q, silence (Z.to_nat 1024))). split; [|vm_compute; reflexivity]. apply Forall_replicate. cbn [snd]. by rewrite silence_length.
Qed.
Print Assumptions C76_wet_refuted.

(** The live plug-in: any shifter that gives a block for a block, any host blocks of up to 65024
    samples, with any pitch and mix at each.  Run ends, nothing is missing; wet is the shifter's
    output for a block of silence and then the input, each given once and in order; dry is the
    input delayed by what the start delay was when the plug-in was made. *)
Theorem C76_live : forall (S : Type) (X : shifter S) (s : S) (l : list (Q * Q * list Q)), block_for_block X -> Forall (fun b => length b.2 <= Z.to_nat 65024) l ->
  exists p xs ys, liveHost X (lnew X s) l = Some (p, output (take (length (given l)) ys) (delayed (startDelay X s) (given l)) (mixes (settings l))) /\
    lplayed X (setScale X (lreset X s) 1) xs ys (sh p) /\ xs `prefix_of` silence liveBlock ++ given l /\ length (given l) <= length ys.
Proof.
  intros S X s l HX Hl. destruct live_sizes as (B1 & B2). destruct (liveHost_is X (setScale X (lreset X s) 1) HX l (lnew X s) (startDelay X s) [] [] []) as (p & xs & ys & -> & [A1 A2 A3 A4 A5 A6 A7]).
  - unfold lnew, lactivate. constructor; cbn [sh irb orb ldelayMix ldelay length drop app]; [constructor|rewrite push_fits, app_nil_r; [done|]; rewrite silence_length; cbn [length]; lia|done|lia|done|rewrite push_fits, app_nil_r; [done|]; rewrite silence_length; cbn [length]; lia|done].
  - unfold lnew, lactivate. cbn [irb]. rewrite push_fits by (rewrite silence_length; cbn [length]; lia). cbn [app]. by rewrite silence_length.
  - replace (127 * liveBlock) with (Z.to_nat 65024); [done|]. unfold liveBlock. rewrite <- (Nat2Z.id 127), <- Z2Nat.inj_mul by lia. done.
  - exists p, xs, ys. split; [done|]. split; [exact A1|]. split; [|exact A4]. exists (irb p). symmetry. exact A2.
Qed.
Print Assumptions C76_live.

(** A live shifter that delays by 2048 and says so, whatever the pitch. *)
Definition delay2048 : shifter (list Q) := Shifter _ (fun _ => Z.to_nat 2048) (fun _ => silence (Z.to_nat 2048)) (fun s _ => s) (fun s xs => (take liveBlock (s ++ xs), drop liveBlock (s ++ xs))).
Lemma delay2048_blocks : block_for_block delay2048.
Proof. intros s zs H. cbn [delay2048 lshift fst]. rewrite take_length, app_length, H. lia. Qed.
(** C54 of the live plug-in: the dry signal is ahead of the reported latency by a block, for any
    shifter whose start delay at pitch 1 is the same after reset, and any host. *)
Theorem C54_live_refuted : exists (X : shifter (list Q)) (s : list Q) (xs : list Q), block_for_block X /\ length xs = Z.to_nat 3000 /\ hd 0%Q xs = 1%Q /\
  match liveHost X (lnew X s) [(1%Q, 1%Q, xs)] with
  | Some (p, out) => llatency X p = Z.to_nat 2560 /\ from_option (fun o => from_option (fun y => Qeq_bool y 1) false o) false (out !! Z.to_nat 2048) = true /\ from_option (fun o => from_option (fun y => Qeq_bool y 0) false o) false (out !! Z.to_nat 2560) = true
  | None => False
  end.
Proof. exists delay2048, [], (1%Q :: silence (Z.to_nat 2999)). split; [exact delay2048_blocks|]. split; [by vm_compute|]. split; [done|]. vm_compute. split_and!; reflexivity. Qed.
Print Assumptions C54_live_refuted.
Theorem C54_live_ahead : forall (S : Type) (X : shifter S) (s : S) (l : list (Q * Q * list Q)), block_for_block X -> startDelay X (setScale X (lreset X s) 1) = startDelay X s -> Forall (fun b => length b.2 <= Z.to_nat 65024) l ->
  exists p wet, liveHost X (lnew X s) l = Some (p, output wet (delayed (llatency X (lnew X s) - liveBlock) (given l)) (mixes (settings l))).
Proof.
  intros S X s l HX HD Hl. destruct (C76_live S X s l HX Hl) as (p & xs & ys & -> & _). exists p, (take (length (given l)) ys). unfold llatency, lnew, lactivate. cbn [sh]. rewrite HD, Nat.add_sub. done.
Qed.
Print Assumptions C54_live_ahead.
(** With that shifter the wet signal does have the reported latency. *)
Example wet_on_time : match liveHost delay2048 (lnew delay2048 []) [(1%Q, 0%Q, 1%Q :: silence 700); (1%Q, 0%Q, silence (Z.to_nat 2299))] with
  | Some (p, out) => llatency delay2048 p = Z.to_nat 2560 /\ out = Some <$> delayed (Z.to_nat 2560) (1%Q :: silence (Z.to_nat 2999))
  | None => False
  end.
Proof. vm_compute. split; reflexivity. Qed.
