(** Properties C29 and C30: the R2 engine offline, over whole streams. *)
From stdpp Require Import prelude.
From Coq Require Import ZArith QArith Qround Lia Lqa.
From Verif Require Import Base.Arith Faster.Model Faster.Core Faster.Chunks Faster.Stream Faster.Count Faster.Runs Faster.RunsProofs.
Local Open Scope Z_scope.

(** A small engine over the integers for the concrete cases: frames pass through
    unchanged, the synthesis weight is constant, no resampling. *)
Definition plainDsp (w : Z) : dsp Z unit unit unit :=
  Dsp _ _ _ _ 0 1 Z.add Z.sub Z.div (fun x => x / 2)
    (fun s x => (x, s)) (fun s x _ _ _ => (x, s)) (fun _ => replicate (Z.to_nat w) 1)
    (fun r x _ _ _ => (x, r)) (fun k _ => (2, 2, false, k)).
Definition plainParams (w i : Z) (ratio : Q) (incs : list Z) : params := Params w i false ratio 1 false false false incs.
Definition plainChan (w cap : Z) : channel Z unit unit :=
  Chan (replicate (Z.to_nat (w / 2)) 0) cap [] cap (replicate (Z.to_nat w) 0) (replicate (Z.to_nat w) 0)
    (1 :: replicate (Z.to_nat (w - 1)) 0) 0 tt tt 0 0 0 None 0 false false.
Lemma plain_sane w i ratio incs : 1 <= i -> 4 * i <= w -> sane (plainDsp w) (plainParams w i ratio incs).
Proof.
  intros. constructor; cbn; try done; try lia.
  - intros si. rewrite zlen_replicate. lia.
Qed.
Lemma plain_start w cap i ratio incs : 1 <= i -> 4 * i <= w -> w <= cap ->
  start (plainDsp w) (plainParams w i ratio incs) (plainChan w cap).
Proof.
  intros. constructor; try done.
  - constructor; cbn; rewrite ?zlen_cons, ?zlen_replicate; lia.
  - split; cbn; [rewrite (@zlen_nil Z); lia|done].
Qed.

(** C29, offline: every call of process returns, having taken the whole block.  What is
    waiting is less than a window: the end of the stream, beginning at a multiple of the
    input increment; so the chunks analysed are the windows of the stream at
    successive multiples, and channels given equally long blocks stay level. *)
Theorem C29_every_block_taken : forall {A S R K} (D : dsp A S R K) P c cs,
  sane D P -> before P = false -> ready P c ->
  exists out d k, calls D P c cs = Some (out, d) /\ ready P d /\
    inCount d = inCount c + zlen (inputs cs) /\
    0 <= k /\ inbuf d = skipn_z (k * increment P) (inbuf c ++ inputs cs) /\
    zlen (inbuf d) = zlen (inbuf c ++ inputs cs) - k * increment P /\
    zlen (inbuf d) < window P /\ (0 < k -> window P - increment P <= zlen (inbuf d)).
Proof.
  intros A S R K D P c cs HP Hb Hr. destruct (calls_ok D P HP Hb cs c Hr) as (out & d & E & Hrd & _ & H2 & (k & K1 & K2 & K3 & K4) & _).
  exists out, d, k. assert (zlen (inbuf d) = zlen (inbuf c ++ inputs cs) - k * increment P).
  { rewrite K2, zlen_skipn. pose proof (sane_incr _ _ HP). nia. }
  repeat (split; [done|]). split; [apply Hrd|]. lia.
Qed.
Print Assumptions C29_every_block_taken.

(** Channels whose buffers are equally full and that get equally long blocks stay level. *)
Theorem C29_channels_level : forall {A S R K} (D : dsp A S R K) P c c' cs cs' out out' d d',
  sane D P -> before P = false -> ready P c -> ready P c' ->
  zlen (inbuf c) = zlen (inbuf c') -> zlen (inputs cs) = zlen (inputs cs') ->
  calls D P c cs = Some (out, d) -> calls D P c' cs' = Some (out', d') -> zlen (inbuf d) = zlen (inbuf d').
Proof.
  intros A S R K D P c c' cs cs' out out' d d' HP Hb Hr Hr' El Ei E E'.
  destruct (C29_every_block_taken D P c cs HP Hb Hr) as (o1 & d1 & k & E1 & _ & _ & K1 & _ & K2 & K3 & K4).
  destruct (C29_every_block_taken D P c' cs' HP Hb Hr') as (o2 & d2 & k' & E2 & _ & _ & L1 & _ & L2 & L3 & L4).
  rewrite E in E1. injection E1 as <- <-. rewrite E' in E2. injection E2 as <- <-. rewrite !zlen_app in *.
  pose proof (sane_incr _ _ HP). assert (k = k') as ->; [|lia].
  destruct (Z.eq_dec k 0), (Z.eq_dec k' 0); try lia.
  - specialize (L4 ltac:(lia)). nia.
  - specialize (K4 ltac:(lia)). nia.
  - specialize (K4 ltac:(lia)). specialize (L4 ltac:(lia)). nia.
Qed.
Print Assumptions C29_channels_level.

(** Nothing the stream produces depends on how the input was cut into blocks, nor on
    when and in what portions the output was retrieved. *)
Theorem C29_block_sizes_irrelevant : forall {A S R K} (D : dsp A S R K) P c cs cs' last,
  sane D P -> before P = false -> ready P c -> inputs cs = inputs cs' ->
  exists out d d', wholeOutput D P c cs last = Some (out, d) /\ wholeOutput D P c cs' last = Some (out, d') /\
    inCount d = inCount c + zlen (inputs cs ++ last).
Proof.
  intros A S R K D P c cs cs' last HP Hb Hr Hcs.
  destruct (whole_ok D P cs last c HP Hb Hr) as (out & d & E & _ & H1 & _ & H3).
  destruct (H3 cs' (eq_sym Hcs)) as (d' & E' & _). exists out, d, d'. done.
Qed.
Print Assumptions C29_block_sizes_irrelevant.

(** Ten samples in blocks of 1, 6, 0 and 3 with retrieval in between, or all but one at
    once: the same fifteen samples come out. *)
Definition exDsp := plainDsp 8.
Definition exParams := plainParams 8 2 (3 # 2) [3; -3; 2; 3; 2; 2].
Definition exCalls : list (call Z) := [Process [5]; Retrieve 1; Process [6; 7; 8; 9; 10; 11]; Process []; Retrieve 2; Process [12; 13]].
Definition exCalls' : list (call Z) := [Process [5; 6; 7; 8; 9; 10; 11; 12; 13]].
Example C29_example :
  sane exDsp exParams /\ ready exParams (plainChan 8 9) /\ inputs exCalls = inputs exCalls' /\
  fst <$> wholeOutput exDsp exParams (plainChan 8 9) exCalls [14] = Some [2; 5; 6; 7; 7; 8; 9; 10; 11; 12; 13; 14; 13; 14; 13] /\
  fst <$> wholeOutput exDsp exParams (plainChan 8 9) exCalls' [14] = Some [2; 5; 6; 7; 7; 8; 9; 10; 11; 12; 13; 14; 13; 14; 13].
Proof.
  split; [by apply plain_sane|].
  split; [apply (start_ready exDsp); [by apply plain_sane|by apply plain_start]|].
  split; [done|]. vm_compute. done.
Qed.

(** C30 is false as stated.  When nothing is expected (here an empty input) the
    output is not limited at all (StretcherProcess.cpp:1140-1150 test theoreticalOut > 0). *)
Theorem C30_output_length_refuted : exists P c out,
  sane (plainDsp 8) P /\ start (plainDsp 8) P c /\ pitchScale P = 1%Q /\ rint (inject_Z 0 * timeRatio P) = 0 /\
  fst <$> wholeOutput (plainDsp 8) P c [] [] = Some out /\ zlen out = 4.
Proof.
  exists (plainParams 8 2 1 []), (plainChan 8 16), [0; 0; 0; 0].
  split; [by apply plain_sane|]. split; [by apply plain_start|]. vm_compute. done.
Qed.
Print Assumptions C30_output_length_refuted.

(** Nor is the block that crosses the start delay limited, and once that has gone too far
    the limit is never applied again: without a study pass, at a quarter of the
    duration, eight samples come out where one is expected. *)
Theorem C30_first_block_refuted : exists P c out,
  sane (plainDsp 8) P /\ start (plainDsp 8) P c /\ rint (inject_Z 4 * timeRatio P) = 1 /\
  fst <$> wholeOutput (plainDsp 8) P c [] [1; 2; 3; 4] = Some out /\ zlen out = 8.
Proof.
  exists (plainParams 8 2 (1 # 4) []), (plainChan 8 16), [1; 2; 3; 4; 3; 4; 3; 4].
  split; [by apply plain_sane|]. split; [by apply plain_start|]. vm_compute. done.
Qed.
Print Assumptions C30_first_block_refuted.

(** C30 under conditions on the stretch profile only (record [exact]): it has no more entries
    than the input has chunks, no step exceeds the expected length, what is out
    when the end is announced does not exceed it, and with what is then drained it is reached.
    Exactly the expected number of samples comes out, whatever the block sizes.
    Theorem C69 proves the conditions for the profiles a study pass makes.  Missing: pitch scales other than 1. *)
Theorem C30_output_length_partial : forall {A S R K} (D : dsp A S R K) P N c cs last,
  sane D P -> exact P N -> start D P c -> zlen (inputs cs ++ last) = N ->
  exists out d, wholeOutput D P c cs last = Some (out, d) /\ zlen out = rint (inject_Z N * timeRatio P).
Proof.
  intros A S R K D P N c cs last HP HE Hs HN. destruct (whole_exact D P N cs last c HP HE Hs HN) as (out & d & E & H & _). eauto.
Qed.
Print Assumptions C30_output_length_partial.
Example C30_example : sane exDsp exParams /\ exact exParams 10 /\ start exDsp exParams (plainChan 8 9) /\
  zlen (inputs exCalls ++ [14]) = 10 /\ rint (inject_Z 10 * timeRatio exParams) = 15.
Proof.
  split; [by apply plain_sane|]. split.
  { apply exact_profile with (x0 := 3); try done; try (vm_compute; split; done); [repeat constructor; done|by left]. }
  split; [by apply plain_start|done].
Qed.
