(** What is asked of a stretcher with the finer engine. *)
From stdpp Require Import prelude list numbers.
From Coq Require Import ZArith QArith Qround.
From Verif Require Import Base.Arith Finer.EngineModel.
Local Open Scope Z_scope.

(** Any resampler that keeps to the space it is given, with an effective ratio near the wanted one. *)
Definition fair {R} (RS : resampler R) : Prop :=
  (forall r cap n q f, 0 <= cap -> 0 <= n -> 0 <= (rres RS r cap n q f).1 <= cap) /\
  (forall r q, (0 < q)%Q -> ((4 # 5) * q <= reff RS r q)%Q).
(** All the frames made so far, in output frames (after resampling). *)
Definition made {R} (s : @eng R) : Z := foldr (fun e n => e.2 + n) 0 (trail s).
(** Cut at the target, if there is one. *)
Definition cut (target n : Z) : Z := if 0 <? target then Z.min target n else n.
(** Calls before the first block of the second pass, and from then on. *)
Definition first_pass (o : op) : Prop := match o with Process _ _ | Reset => False | _ => True end.
Definition second_pass (o : op) : Prop := match o with Process _ _ | Retrieve _ | MaxProcess _ => True | _ => False end.
Definition begun {R} (s : @eng R) : Prop := mode s = Processing \/ mode s = Finished.
Definition one_session (o : op) : Prop := match o with Reset => False | _ => True end.
(** Arguments that are counts. *)
Definition counts (o : op) : Prop :=
  match o with
  | Study n | Expected n | MaxProcess n | Process n _ | Retrieve n => 0 <= n
  | _ => True
  end.
(** Never a call of setPitchScale. *)
Definition no_pitch (o : op) : Prop := match o with PitchScale _ => False | _ => True end.
(** The length wanted: of the sound as studied or else as announced, times the ratio. *)
Definition aim {R} (s : @eng R) : Z :=
  match mode s with
  | Studying => cround (inject_Z (studied s) * timeRatio s)
  | _ => cround (inject_Z (supplied s) * timeRatio s)
  end.
(** The key-frame map, if there is one, does not begin with frame 0. *)
Definition starts {R} (s : @eng R) : Prop := match keys s with (k, _) :: _ => k <> 0 | [] => True end.
(** No single frame gave more than the whole length. *)
Definition whole {R} (E : shape) (s : @eng R) : Prop := realTime E = true \/ target s = 0 \/ Forall (fun e => e.2 <= target s) (trail s).
(** The output hop of a new engine at ratio [t], pitch unchanged. *)
Definition firstHop (E : shape) (t : Q) : Z := Z.max 1 (rint (inject_Z (inhopFor E (t * 1)) * t)).
(** Reached by calls. *)
Definition reached {R} (RS : resampler R) (E : shape) (s : @eng R) : Prop :=
  exists t p l a, Forall counts l /\ run RS E (engine0 RS E t p) l = Some (s, a).
(** At every block the ratio in use is at most the longest output hop. *)
Fixpoint moderate {R} (RS : resampler R) (E : shape) (s : @eng R) (l : list op) : Prop :=
  match l with
  | [] => True
  | o :: l =>
      match o with Process _ _ => (ratioOf (prepareOffline RS E s) <= inject_Z (maxOut E))%Q | _ => True end /\
      forall s' a, step RS E s o = Some (s', a) -> moderate RS E s' l
  end.
(** Blocks and retrievals of a stream, and the samples supplied. *)
Definition streaming (o : op) : Prop := match o with Process n f => f = false /\ n <= 524288 | Retrieve _ | MaxProcess _ => True | _ => False end.
Definition given (l : list op) : Z := foldr (fun o n => match o with Process k _ => k | _ => 0 end + n) 0 l.
(** How many frames of length [w], [h] apart, a stretch of [n] samples has. *)
Definition frames (w h n : Z) : Z := if n <? w then 0 else (n - w) / h + 1.
(** The ratio a key-frame map asks for at a position: the slope of the segment holding it, the map
    beginning at (0, 0) and ending at the whole lengths. *)
Fixpoint segment (a b : Z) (m : list (Z * Z)) (ea eb x : Z) : Q :=
  match m with
  | [] => (inject_Z (eb - b) / inject_Z (ea - a))%Q
  | (a1, b1) :: m => if x <? a1 then (inject_Z (b1 - b) / inject_Z (a1 - a))%Q else segment a1 b1 m ea eb x
  end.
Definition slope (m : list (Z * Z)) (ea eb x : Z) : Q := segment 0 0 m ea eb x.
(** Both sides strictly ascend, from (a, b) to (ea, eb). *)
Fixpoint rising (a b : Z) (m : list (Z * Z)) (ea eb : Z) : Prop :=
  match m with [] => a < ea /\ b < eb | (a1, b1) :: m => a < a1 /\ b < b1 /\ rising a1 b1 m ea eb end.
(** No more than one key frame lies after [x] and up to [y]. *)
Definition few (m : list (Z * Z)) (x y : Z) : Prop := Z.of_nat (length (filter (fun e : Z * Z => x < e.1 <= y) m)) <= 1.
(** From one block to the next no more than one key frame is passed. *)
Fixpoint gentle {R} (RS : resampler R) (E : shape) (seen : Z) (s : @eng R) (l : list op) : Prop :=
  match l with
  | [] => True
  | o :: l =>
      let seen' := match o with Process _ _ => consumed s | _ => seen end in
      few (keys s) seen seen' /\ forall s' a, step RS E s o = Some (s', a) -> gentle RS E seen' s' l
  end.
