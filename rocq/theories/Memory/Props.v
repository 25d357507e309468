(** Properties C53 (reallocation keeps content and frees what it replaces) and C79 (a
    channel's buffers are always large enough and all given back). *)
From stdpp Require Import prelude gmap.
From Coq Require Import Lia.
From Verif Require Import Memory.Model Memory.Spec Memory.Proofs Memory.ChannelModel Memory.ChannelSpec Memory.Channel.
From stdpp Require Import list.

Section Props.
Context {A : Type} (zero one : A).
Notation blocks := (list (nat * list (cell A))).
Implicit Types (h : heap A) (own : blocks) (rest : gmap nat (list (cell A))).

(** C53.  In each case the heap afterwards is the new block, the other blocks of the owner
    and the rest of the program's: so the old block is gone (freed, and once, since freeing
    again is [None]) and nothing else has been touched or lost. *)
Theorem C53_reallocate rest own h b l count : holds rest ((b, l) :: own) h ->
  (exists p h', reallocate h (Some b) (length l) count = Some (p, h') /\ holds rest ((p, refit Undef count l) :: own) h') /\
  (exists p h', reallocate_and_zero zero h (Some b) (length l) count = Some (p, h') /\ holds rest ((p, replicate count (Num zero)) :: own) h') /\
  (exists p h', reallocate_and_zero_extension zero h (Some b) (length l) count = Some (p, h') /\ holds rest ((p, refit (Num zero) count l) :: own) h').
Proof.
  intros H. split; [|split].
  - destruct (reallocate_own rest own h b l count H) as (h' & ? & ?). eauto.
  - destruct (reallocate_and_zero_own zero rest own h b l count H) as (h' & ? & ?). eauto.
  - destruct (reallocate_and_zero_extension_own zero rest own h b l count H) as (h' & ? & ?). eauto.
Qed.

(** From nothing. *)
Theorem C53_reallocate_null rest own h count : holds rest own h ->
  (exists p h', reallocate h None 0 count = Some (p, h') /\ holds rest ((p, replicate count Undef) :: own) h') /\
  (exists p h', reallocate_and_zero zero h None 0 count = Some (p, h') /\ holds rest ((p, replicate count (Num zero)) :: own) h').
Proof.
  intros H. split.
  - destruct (reallocate_null_own rest own h count H) as (h' & ? & ?). eauto.
  - destruct (reallocate_and_zero_null_own zero rest own h count H) as (h' & ? & ?). eauto.
Qed.

(** Arrays of channels, [z] for the variant that zeroes: every channel there was keeps its
    common prefix, a channel that is new is blank, and all old blocks are gone. *)
Theorem C53_reallocate_channels z rest own h p (O : blocks) oldcount channels count :
  Forall (fun q => length (snd q) = oldcount) O -> holds rest (array p O ++ own) h ->
  exists p' (N : blocks) h', reallocate_channels zero z h (Some p) (length O) oldcount channels count = Some (p', h') /\
    N.*2 = (fun c => refit (if z then Num zero else Undef) count (default [] (O.*2 !! c))) <$> seq 0 channels /\
    holds rest (array p' N ++ own) h'.
Proof. exact (reallocate_channels_own zero z rest own h p O oldcount channels count). Qed.

(** C79 *)
Theorem C79_channel_memory rest h sizes window size out os : holds rest [] h -> (1 <= window)%nat -> size ∈ sizes ->
  exists cd h', construct zero one h sizes window size out = Some (cd, h') /\
  exists cd' acc own h'', steps zero one cd h' os = Some (cd', h'') /\ sized cd' acc own /\ holds rest own h'' /\
    ample cd' (asked window size os).1 (asked window size os).2 /\
  exists h3, destroy cd' h'' = Some h3 /\ cells h3 = cells h.
Proof.
  intros H Hw Hs. destruct (construct_sized zero one rest h sizes window size out H Hw Hs) as (cd & acc & own & h' & E & S1 & H1 & A1).
  exists cd, h'. split; [done|]. destruct (steps_sized zero one rest os cd acc own h' window size S1 H1 A1) as (cd' & acc' & own' & h'' & E2 & S2 & H2 & A2).
  exists cd', acc', own', h''. repeat (split; [done|]). destruct (destroy_sized rest cd' acc' own' h'' S2 H2) as (h3 & E3 & H3).
  exists h3. split; [done|]. destruct H as [Hc _ _ _]. destruct H3 as [Hc3 _ _ _]. by rewrite Hc3, Hc.
Qed.

(** A change of the sizes keeps what the accumulators hold and clears what is added, and
    never makes the buffers smaller. *)
Theorem C79_accumulators_kept rest cd acc own h window size : sized cd acc own -> holds rest own h ->
  exists cd' own' h', setSizes zero cd h window size = Some (cd', h') /\ (inSize cd <= inSize cd')%nat /\
    sized cd' (refit (Num zero) (inSize cd') <$> acc) own' /\ holds rest own' h'.
Proof.
  intros HS Hh. destruct (setSizes_sized zero rest cd acc own h window size HS Hh) as (cd' & acc' & own' & h' & E & S1 & H1 & A1 & L1 & ->). by exists cd', own', h'.
Qed.

(** The other half of what [construct] asks for: a transform size that is not among the sizes
    leaves the channel without a transform, as with the constructor that gives no sizes
    (StretcherChannelData.cpp:34-40), which is therefore not to be used before a setSizes. *)
Theorem C79_no_transform rest h window size out : holds rest [] h -> (1 <= window)%nat ->
  exists cd h', construct zero one h [] window size out = Some (cd, h') /\ fft cd = None.
Proof.
  intros H Hw. destruct (construct_sized zero one rest h [size] window size out H Hw ltac:(left)) as (cd & acc & own & h' & E & _).
  unfold construct. set (m := if decide (window * 2 < size)%nat then size else (window * 2)%nat). cbn [last]. set (o := if decide (out < m)%nat then m else out).
  assert (Hm : (1 <= m)%nat) by (unfold m; destruct (decide _); lia). clearbody m o. clear cd acc own h' E.
  unfold ring. destruct (alloc_own rest [] h (S m) H) as [E1 H1]. rewrite E1. set (h1 := snd (allocate h (S m))) in *.
  destruct (alloc_own rest _ h1 (S o) H1) as [E2 H2]. rewrite E2. set (h2 := snd (allocate h1 (S o))) in *.
  destruct (each_new zero rest (m / 2 + 1) [0;0;0;0;0;0]%nat _ h2 H2) as (Hs & h3 & E3 & L3 & G3 & H3). rewrite E3. cbn [mbind option_bind].
  destruct (each_new zero rest m [0;0;0;0]%nat _ h3 H3) as (Ss & h4 & E4 & L4 & G4 & H4). rewrite E4. cbn [mbind option_bind].
  destruct (each_new zero rest m [0;0]%nat _ h4 H4) as (Cs & h5 & E5 & L5 & G5 & H5). rewrite E5. cbn [mbind option_bind makeFfts].
  change (pick [] size) with (@None nat, [(size, @None nat)]). cbn beta iota.
  set (cd := CD (brk h) m (brk h1) o Hs.*1 Ss.*1 Cs.*1 [(size, None)] None None None 0).
  set (cd0 := CD (brk h) m (brk h1) o Hs.*1 Ss.*1 Cs.*1 [] None None None 0).
  assert (Hsz : sized cd0 Cs.*2 ((brk h, replicate (S m) Undef) :: (brk h1, replicate (S o) Undef) :: Hs ++ Ss ++ Cs ++ [] ++ [] ++ [])).
  { constructor; [|cbn; rewrite !fmap_length, L3, L4, L5; cbn; lia|by constructor]. do 2 eexists. exists Hs, Ss, Cs, [], [], []. split; [reflexivity|].
    rewrite !replicate_length. split; [cbn; lia|]. split; [cbn; lia|]. split; [done|].
    split; [eapply Forall_impl; [exact G3|]; cbn; intros q ->; by rewrite replicate_length|]. split; [done|].
    split; [eapply Forall_impl; [exact G4|]; cbn; intros q ->; by rewrite replicate_length|]. split; [done|]. split; [done|].
    split; [eapply Forall_impl; [exact G5|]; cbn; intros q ->; by rewrite replicate_length|]. split; [done|]. split; [|repeat (split; [done|]); by constructor]. intros n b Hb. by apply elem_of_nil in Hb. }
  destruct (reset_sized zero one rest cd0 _ _ h5 Hsz) as (own & h7 & E7 & S7 & H7). { eapply holds_perm; [|exact H5]. rewrite !app_nil_r. solve_Permutation. }
  change (reset zero one cd h5) with (reset zero one cd0 h5). rewrite E7. cbn [mbind option_bind].
  destruct S7 as [(ic & oc & H' & S' & C & F' & R & B & -> & P1 & P2 & P3 & P4 & P5 & P6 & P7 & P8 & P9 & P10) Hc Hff].
  change (accs cd0) with (Cs.*1) in P7. rewrite <- P7. clear Hsz.
  destruct C as [|[c0 l0] [|[c1 l1] [|? ?]]]; try done. cbn [fmap list_fmap fst lookup list_lookup mbind option_bind].
  cbn [fmap list_fmap snd] in P8. injection P8 as -> ->.
  destruct (store_own rest ((inbuf cd0, ic) :: (outbuf cd0, oc) :: H' ++ S' ++ [(c0, replicate (inSize cd0) (Num zero))] ++ F' ++ R ++ B) h7 c1 (Num one :: replicate (inSize cd0 - 1) (Num zero)) 0 (Num one)) as (h8 & E8 & H8).
  { eapply holds_perm; [|exact H7]. solve_Permutation. } { cbn. lia. }
  rewrite E8. by exists cd, h8.
Qed.
End Props.
Print Assumptions C53_reallocate.
Print Assumptions C53_reallocate_null.
Print Assumptions C53_reallocate_channels.
Print Assumptions C79_channel_memory.
Print Assumptions C79_accumulators_kept.
Print Assumptions C79_no_transform.

(** Two channels of three samples become three of two, in a program that has another block. *)
Example C53_case :
  let h := Heap (<[1%nat := [Num 1%nat; Num 2%nat; Num 3%nat]]> (<[2%nat := [Num 4%nat; Num 5%nat; Num 6%nat]]> (<[3%nat := [Ptr 1%nat; Ptr 2%nat]]> (<[0%nat := [Num 9%nat]]> ∅)))) 4 in
  match reallocate_channels 0%nat true h (Some 3%nat) 2 3 3 2 with
  | Some (p, h') => (p, map_to_list (cells h')) = (4%nat, [(0%nat, [Num 9%nat]); (7%nat, [Num 0%nat; Num 0%nat]); (5%nat, [Num 1%nat; Num 2%nat]); (4%nat, [Ptr 5%nat; Ptr 6%nat; Ptr 7%nat]); (6%nat, [Num 4%nat; Num 5%nat])])
  | None => False
  end.
Proof. vm_compute. reflexivity. Qed.

(** A channel made for windows of 2 grows to windows of 4, gains a resampler and a larger
    output buffer, and goes. *)
Example C79_case : forall rest (h : heap nat), holds rest [] h ->
  exists cd h', construct 0%nat 1%nat h [2;4]%nat 2 2 3 = Some (cd, h') /\
  exists cd' acc own h'', steps 0%nat 1%nat cd h' [Sizes 4 4; MakeResampler 7; OutbufSize 40; Reset; Sizes 3 6] = Some (cd', h'') /\ sized cd' acc own /\ holds rest own h'' /\
    ample cd' 3 6 /\ exists h3, destroy cd' h'' = Some h3 /\ cells h3 = cells h.
Proof. intros rest h H. refine (C79_channel_memory 0%nat 1%nat rest h [2;4]%nat 2 2 3 _ H _ _); [lia|left]. Qed.
(** The program's heap may be empty. *)
Example C79_case_start : holds ∅ [] (Heap (∅ : gmap nat (list (cell nat))) 0).
Proof. constructor; [cbn; by rewrite (left_id_L ∅ (∪))|constructor|intros b Hb; by apply elem_of_nil in Hb|intros b [x Hx]; cbn in Hx; by rewrite lookup_empty in Hx]. Qed.

(** reallocate_and_zero_extension of a null pointer, told that there were samples, leaves as
    many uninitialised. *)
Theorem C53_null_extension_refuted : exists (h : heap nat) p h', holds ∅ [] h /\
  reallocate_and_zero_extension 0%nat h None 2 3 = Some (p, h') /\ cells h' !! p = Some [Undef; Undef; Num 0%nat].
Proof. exists (Heap ∅ 0). do 2 eexists. split; [exact C79_case_start|]. split; vm_compute; reflexivity. Qed.
Print Assumptions C53_null_extension_refuted.
