(** What the spectra of a frame must be of. *)
From stdpp Require Import prelude list numbers.
From Coq Require Import ZArith QArith.
From Verif Require Import Base.Arith Finer.AheadModel.
Local Open Scope Z_scope.

(** The sound [X] from position [at] on, silence before and after it. *)
Definition soundAt {A} (zero : A) (X : list A) (i : Z) : A := if i <? 0 then zero else default zero (X !! Z.to_nat i).
Definition stretchOf {A} (zero : A) (X : list A) (from n : Z) : list A := (fun k => soundAt zero X (from + k)) <$> seqZ 0 n.
(** What a session supplies: everything up to the end of the final block. *)
Fixpoint suppliedBy {A} (l : list (acall A)) : list A :=
  match l with
  | [] => []
  | Block ps None :: l => concat (fst <$> ps) ++ suppliedBy l
  | Block ps (Some (x, _)) :: _ => concat (fst <$> ps) ++ x
  | _ :: l => suppliedBy l
  end.
Definition withoutReset {A} (c : acall A) : Prop := match c with Again => False | _ => True end.
Definition hopsFit {A} (longest : Z) (c : acall A) : Prop :=
  match c with
  | Block ps last => Forall (fun p => 1 <= p.2 <= longest) ps /\ match last with Some p => 1 <= p.2 <= longest | None => True end
  | _ => True
  end.
(** The frames of a session from position [pos] on: in each, the frames of all sizes have the same
    centre and are of the sound at the place the input has reached; [sizes] are the FFT sizes, [c]
    the one of the classification, whose spectrum is judged a hop ahead where [ahead] says so.
    The input then moves by the hop, or to the end. *)
Fixpoint centred {A B} (zero : A) (analyse : Z -> list A -> B) (scale : Z -> B -> B) (sizes : list Z) (longest c : Z) (ahead : Z -> bool) (X : list A) (pos : Z) (l : list (seen B)) : Prop :=
  match l with
  | [] => True
  | f :: l =>
      let start n := pos + (longest - n) / 2 in
      spectra f = (fun n => (n, scale n (analyse n (stretchOf zero X (start n) n)))) <$> sizes /\
      judged f = (if ahead (ofHop f) then analyse c (stretchOf zero X (start c + ofHop f) c) else scale c (analyse c (stretchOf zero X (start c) c))) /\
      moved f = Z.min (ofHop f) (Z.of_nat (length X) - pos) /\
      centred zero analyse scale sizes longest c ahead X (pos + moved f) l
  end.
