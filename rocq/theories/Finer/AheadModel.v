(** Model of what each frame of the finer engine is made from: the input buffer, the frames cut
    from it for the FFT sizes, and the readahead of the classification size (src/finer/
    R3Stretcher.cpp: consume 951-1164, analyseChannel 1166-1365, calculateHop 395-409, reset
    551-584).  One channel; samples and spectra are of any type.  [analyse n x] stands for the
    windowing, shift, FFT and conversion to polar of a frame [x] of [n] samples, [scale n] for the
    division of the magnitudes by [n].  The conversion of phases in a subset of the bins, formant
    preservation and the output are not here; the output hop of a call is an argument. *)
From stdpp Require Import prelude list numbers.
From Coq Require Import ZArith QArith.
From Verif Require Import Base.Arith Finer.SegmenterModel Finer.GuideModel Finer.EngineModel.
Local Open Scope Z_scope.

Section Ahead.
  Context {A B : Type} (zero : A) (analyse : Z -> list A -> B) (scale : Z -> B -> B) (E : shape) (g : guide).

  (** R3Stretcher.h:214-219, 329-342 *)
  Record chan := Chan { input : list A; cinhop : Z; cprevInhop : Z; have : bool; readahead : B; fill : Z; cmode : emode }.
  (** What is seen of a frame: its spectra by FFT size, the spectrum the classifier is given, the
      hop, how far the input moves on. *)
  Record seen := Seen { spectra : list (Z * B); judged : B; ofHop : Z; moved : Z }.

  (** R3Stretcher.cpp:1172-1181: windowSource *)
  Definition source (s : chan) : list A := take (Z.to_nat (windowSource E)) (input s ++ replicate (Z.to_nat (windowSource E)) zero).
  (** [n] samples from [off] on; [None] when not all in the buffer *)
  Definition cutAt (src : list A) (off n : Z) : option (list A) :=
    if (0 <=? off) && (0 <=? n) && (off + n <=? Z.of_nat (length src)) then Some (take (Z.to_nat n) (drop (Z.to_nat off) src)) else None.
  Definition middle (n : Z) : Z := (longest g - n) / 2.
  (** R3Stretcher.cpp:1194-1201, 1286-1335: the sizes other than that of the classification *)
  Fixpoint otherSpectra (src : list A) (l : list limits) : option (list (Z * B)) :=
    match l with
    | [] => Some []
    | b :: l =>
        if lfft b =? cfft g then otherSpectra src l else
        x ← cutAt src (middle (lfft b)) (lfft b);
        r ← otherSpectra src l; Some ((lfft b, scale (lfft b) (analyse (lfft b) x)) :: r)
    end.
  (** R3Stretcher.cpp:1166-1358.  Lines 1245-1250 copy the readahead, 1270-1272 scale the copy *)
  Definition analyseChannel (s : chan) : option (chan * (list (Z * B) * B)) :=
    let src := source s in let inhop := cinhop s in
    let useAhead := useReadahead E inhop in
    others ← otherSpectra src (bandLimit g);
    let copyFromReadahead := useAhead && have s && (inhop =? cprevInhop s) in
    now ← (if copyFromReadahead then Some (scale (cfft g) (readahead s))
           else x ← cutAt src (middle (cfft g)) (cfft g); Some (scale (cfft g) (analyse (cfft g) x)));
    next ← (if useAhead then x ← cutAt src (middle (cfft g) + inhop) (cfft g); Some (analyse (cfft g) x) else Some (readahead s));
    Some (Chan (input s) inhop (cprevInhop s) (useAhead || have s) next (fill s) (cmode s),
          (others ++ [(cfft g, now)], if useAhead then next else now)).
  (** R3Stretcher.cpp:1004-1163: the loop; 1614-1667 for the fill of the accumulator *)
  Fixpoint frames (fuel : nat) (s : chan) (final : bool) (outhop : Z) : option (chan * list seen) :=
    match fuel with
    | O => None
    | S fuel =>
        let readSpace := Z.of_nat (length (input s)) in
        if (readSpace <? windowSource E) && (negb final || ((readSpace =? 0) && (fill s =? 0))) then Some (s, []) else
        '(s, (sp, j)) ← analyseChannel s;
        let acc := if readSpace =? 0 then (if outhop <? fill s then fill s - outhop else 0) else longest g in
        let advance := if readSpace <? cinhop s then readSpace else cinhop s in
        let f := Seen sp j (cinhop s) advance in
        '(s, r) ← frames fuel (Chan (drop (Z.to_nat advance) (input s)) (cinhop s) (cinhop s) (have s) (readahead s) acc (cmode s)) final outhop;
        Some (s, f :: r)
    end.
  Definition consume (s : chan) (final : bool) (outhop : Z) : option (chan * list seen) :=
    frames (Z.to_nat (Z.of_nat (length (input s)) + longest g + 1)) s final outhop.
  Definition write (s : chan) (x : list A) : chan := Chan (input s ++ x) (cinhop s) (cprevInhop s) (have s) (readahead s) (fill s) (cmode s).
  Definition become (s : chan) (m : emode) : chan := Chan (input s) (cinhop s) (cprevInhop s) (have s) (readahead s) (fill s) m.

  (** The calls.  A block comes as the pieces the input buffer takes (776-859), each with the
      output hop then in force, the last of a final block apart. *)
  Inductive acall := Ratio (q : Q) | Block (pieces : list (list A * Z)) (last : option (list A * Z)) | Again.
  Fixpoint pieces (s : chan) (l : list (list A * Z)) : option (chan * list seen) :=
    match l with
    | [] => Some (s, [])
    | (x, o) :: l => '(s, r) ← consume (write s x) false o; '(s, r') ← pieces s l; Some (s, r ++ r')
    end.
  Definition stepA (s : chan) (c : acall) : option (chan * list seen) :=
    match c with
    (* 395-409 *)
    | Ratio q => let h := inhopFor E q in
                 Some (Chan (input s) h (match cmode s with JustCreated => h | _ => cprevInhop s end) (have s) (readahead s) (fill s) (cmode s), [])
    (* 708-875 *)
    | Block l last =>
        match cmode s with
        | Finished => Some (s, [])
        | _ => '(s, r) ← pieces s l;
               match last with
               | None => Some (become s Processing, r)
               | Some (x, o) => '(s, r') ← consume (write s x) true o; Some (become s Finished, r ++ r')
               end
        end
    (* 551-584, R3Stretcher.h:254-268: the ratio and with it the hop stay, the readahead's magnitudes too *)
    | Again => Some (Chan [] (cinhop s) (cinhop s) false (readahead s) 0 JustCreated, [])
    end.
  Fixpoint runA (s : chan) (l : list acall) : option (chan * list seen) :=
    match l with [] => Some (s, []) | c :: l => '(s, r) ← stepA s c; '(s, r') ← runA s l; Some (s, r ++ r') end.
  (** A new engine; [dark] is the spectrum the readahead is filled with (R3Stretcher.h:183-193) *)
  Definition newChan (q : Q) (dark : B) : chan := let h := inhopFor E q in Chan [] h h false dark 0 JustCreated.
End Ahead.
Arguments chan : clear implicits.
Arguments seen : clear implicits.
Arguments acall : clear implicits.
