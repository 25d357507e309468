(** Sequences of API calls on all channels of a real-time R2 stretcher. *)
From stdpp Require Import prelude.
From Coq Require Import ZArith QArith Qround.
From Verif Require Import Base.Arith Faster.Model.
Local Open Scope Z_scope.

(** process(blocks, false), process(blocks, true), available() and retrieve(n);
    a block is one list of samples for each channel. *)
Inductive rcall (A : Type) := Feed (blocks : list (list A)) | Finish (blocks : list (list A)) | Available | Take (n : Z).
Arguments Feed {A}. Arguments Finish {A}. Arguments Available {A}. Arguments Take {A}.

(** What the call returns. *)
Inductive answer (A : Type) := Done | Count (n : Z) | Frames (xs : list (list A)).
Arguments Done {A}. Arguments Count {A}. Arguments Frames {A}.

(** The channels, the increment calculator's state and whether m_mode is Finished. *)
Record engine (A S R K : Type) := Engine { chans : list (channel A S R); calc : K; finished : bool }.
Arguments Engine {A S R K}. Arguments chans {A S R K}. Arguments calc {A S R K}. Arguments finished {A S R K}.

Section Runs.
Context {A S R K : Type} (D : dsp A S R K).
Notation chan := (channel A S R).

(** Rounds enough for the loop in available(); proved to be so in RealTime.v. *)
Definition rtRounds (P : params) (cs : list chan) : nat :=
  match cs with [] => 1%nat | c :: _ => Z.to_nat (zlen (inbuf c) + Z.max (fill c) (window P) + 3) end.
Definition blockLen (blocks : list (list A)) : nat := foldr (fun b n => Nat.max (length b) n) 0%nat blocks.

(** R2Stretcher.cpp:1240-1359; ignored once finished (1247-1250). *)
Definition processRT (P : params) (e : engine A S R K) (blocks : list (list A)) (final : bool) : option (engine A S R K) :=
  if finished e then Some e
  else x ← feedRT D (Datatypes.S (blockLen blocks)) P (fun _ => false) (calc e) (chans e) blocks final;
       let '(k, cs) := (x : K * list chan) in Some (Engine cs k final).

(** One call.  Mid/side decoding (StretcherProcess.cpp:1286-1296) is left out; see C38. *)
Definition rtCall (P : params) (e : engine A S R K) (a : rcall A) : option (answer A * engine A S R K) :=
  match a with
  | Feed b => e ← processRT P e b false; Some (Done, e)
  | Finish b => e ← processRT P e b true; Some (Done, e)
  | Available =>
    x ← availableRT D (rtRounds P (chans e)) P (calc e) (chans e);
    let '(n, k, cs) := (x : Z * K * list chan) in Some (Count n, Engine cs k (finished e))
  | Take n =>
    let '(xs, got, cs) := takeOut (chans e) n in
    Some (Frames (firstn_z got <$> xs), Engine cs (calc e) (finished e))
  end.
Fixpoint rtCalls (P : params) (e : engine A S R K) (cs : list (rcall A)) : option (list (answer A) * engine A S R K) :=
  match cs with
  | [] => Some ([], e)
  | a :: cs =>
    x ← rtCall P e a; let '(r, e) := (x : answer A * engine A S R K) in
    y ← rtCalls P e cs; let '(rs, e) := (y : list (answer A) * engine A S R K) in Some (r :: rs, e)
  end.
End Runs.

(** Everything given to channel [i] up to and including the final block. *)
Fixpoint given {A} (cs : list (rcall A)) (i : nat) : list A :=
  match cs with
  | [] => []
  | Feed b :: cs => default [] (b !! i) ++ given cs i
  | Finish b :: cs => default [] (b !! i)
  | _ :: cs => given cs i
  end.
(** Whether the final block is among the calls. *)
Fixpoint ended {A} (cs : list (rcall A)) : bool :=
  match cs with [] => false | Finish _ :: _ => true | _ :: cs => ended cs end.
(** Every block has [n] channels of equal length. *)
Definition level {A} (n : nat) (b : list (list A)) : Prop := length b = n /\ exists m, Forall (fun x => length x = m) b.
(** A call the interface allows on [n] channels. *)
Definition fits {A} (n : nat) (a : rcall A) : Prop :=
  match a with Feed b | Finish b => level n b | Take n => 0 <= n | Available => True end.
(** Real-time channels as construction or reset() leaves them (StretcherChannelData.cpp:50-110,
    254-282): nothing read, nothing written; input buffers of [cap] samples. *)
Record idle {A S R} (cap : Z) (c : channel A S R) : Prop := Idle {
  idle_in : inbuf c = []; idle_cap : inCap c = cap; idle_out : outbuf c = []; idle_fill : fill c = 0; idle_chunk : chunkCount c = 0;
  idle_count : inCount c = 0; idle_size : inputSize c = None; idle_outCount : outCount c = 0; idle_drain : draining c = false;
  idle_complete : outputComplete c = false
}.
