(** What is asked of the plug-ins. *)
From stdpp Require Import prelude list numbers.
From Coq Require Import QArith.
From Verif Require Import Plugin.Model.
Local Open Scope nat_scope.

(** One sample of the mix: all wet at 0 or below. *)
Definition mixed (wd : Q * Q) (mix : Q) : Q := if Qle_bool mix 0 then wd.1 else (wd.1 * (1 - mix) + wd.2 * mix)%Q.
(** What a host gave, sample by sample, and the mix at each. *)
Definition given {A} (l : list (A * list Q)) : list Q := concat (snd <$> l).
Definition mixes (l : list (Q * list Q)) : list Q := concat ((fun b => replicate (length b.2) b.1) <$> l).
Definition settings (l : list (Q * Q * list Q)) : list (Q * list Q) := (fun b => (b.1.2, b.2)) <$> l.
(** The output asked for: wet and dry mixed, every sample set. *)
Definition output (wet dry m : list Q) : list (option Q) := Some <$> zip_with mixed (zip wet dry) m.
(** The same when some of the wet signal is missing. *)
Definition blended (wet : list (option Q)) (dry m : list Q) : list (option Q) := zip_with (fun wd k => (fun w => mixed (w, wd.2) k) <$> wd.1) (zip wet dry) m.
Definition delayed (d : nat) (xs : list Q) : list Q := take (length xs) (silence d ++ xs).

(** A stretcher given the samples [xs], in whatever pieces, has given [ys], in whatever pieces. *)
Inductive played {S} (X : stretcher S) (s0 : S) : list Q -> list Q -> S -> Prop :=
| played_start : played X s0 [] [] s0
| played_feed xs ys s zs : played X s0 xs ys s -> played X s0 (xs ++ zs) ys (feed X s zs)
| played_take xs ys s n : played X s0 xs ys s -> played X s0 xs (ys ++ (retrieve X s n).1) (retrieve X s n).2.
(** It keeps pace: never more than 8192 behind or ahead, asks for something when it has nothing,
    and gives what it has when asked. *)
Definition paced {S} (X : stretcher S) (s0 : S) : Prop := forall xs ys s, played X s0 xs ys s ->
  length xs <= length ys + available X s + reserve /\ length ys + available X s <= length xs + reserve /\
  (available X s = 0 -> 0 < required X s) /\
  (forall n, n <= available X s -> length (retrieve X s n).1 = n /\ available X (retrieve X s n).2 = available X s - n).

(** A live shifter given whole blocks, with changes of scale between. *)
Inductive lplayed {S} (X : shifter S) (s0 : S) : list Q -> list Q -> S -> Prop :=
| lplayed_start : lplayed X s0 [] [] s0
| lplayed_scale xs ys s p : lplayed X s0 xs ys s -> lplayed X s0 xs ys (setScale X s p)
| lplayed_shift xs ys s zs : length zs = liveBlock -> lplayed X s0 xs ys s -> lplayed X s0 (xs ++ zs) (ys ++ (lshift X s zs).1) (lshift X s zs).2.
Definition block_for_block {S} (X : shifter S) : Prop := forall s zs, length zs = liveBlock -> length (lshift X s zs).1 = liveBlock.
