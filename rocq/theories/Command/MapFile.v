(** Time, frequency and pitch map files of the command-line program, main/main.cpp:453-541.  A file
    is its bytes as numbers; a file that cannot be opened is left out. *)
From stdpp Require Import prelude list.
From Coq Require Import ZArith QArith.
From stdpp Require Import list.
Local Open Scope Z_scope.

(** What the program knows after the file: the map in ascending order of its keys, or "malformed at
    line", or a number atoi is not defined for. *)
Inductive outcome (V : Type) := Read (m : list (Z * V)) | Malformed (line : Z) | Undefined.
Arguments Read {V}. Arguments Malformed {V}. Arguments Undefined {V}.

(** while (!ifile.eof()) std::getline(ifile, line), main.cpp:464-465, 514-515: the pieces between the
    line ends.  At the end of a file that ends with one getline gives an empty line. *)
Fixpoint lines (l : list Z) : list (list Z) :=
  match l with
  | [] => [[]]
  | c :: l => if c =? 10 then [] :: lines l else match lines l with x :: xs => (c :: x) :: xs | [] => [[c]] end
  end.

Fixpoint skip (f : Z -> bool) (l : list Z) : list Z :=
  match l with c :: l' => if f c then skip f l' else l | [] => [] end.
(** line.find_first_of(" ") with line.substr(0, i) and the rest from i, main.cpp:473, 479, 523, 529 *)
Fixpoint cut (l : list Z) : option (list Z * list Z) :=
  match l with
  | [] => None
  | c :: l' => if c =? 32 then Some ([], l) else '(a, b) ← cut l'; Some (c :: a, b)
  end.

(** C library atoi: white space, a sign, digits; no digits give 0.  Outside the range of int the
    behaviour is undefined (None). *)
Definition isspace (c : Z) : bool := (c =? 32) || ((9 <=? c) && (c <=? 13)).
Definition isdigit (c : Z) : bool := (48 <=? c) && (c <=? 57).
Fixpoint digits (acc : Z) (l : list Z) : Z :=
  match l with c :: l => if isdigit c then digits (acc * 10 + (c - 48)) l else acc | [] => acc end.
Definition atoi (l : list Z) : option Z :=
  let l := skip isspace l in
  let '(neg, l) := match l with c :: l' => if c =? 45 then (true, l') else if c =? 43 then (false, l') else (false, l) | [] => (false, l) end in
  let v := if neg : bool then - digits 0 l else digits 0 l in
  if (- 2147483648 <=? v) && (v <=? 2147483647) then Some v else None.
(** size_t x = atoi(...), main.cpp:479, 481, 529; 64 bits *)
Definition toSize (v : Z) : Z := v mod 2 ^ 64.

(** std::map operator[] and assignment, main.cpp:482, 535 *)
Fixpoint put {V} (k : Z) (v : V) (m : list (Z * V)) : list (Z * V) :=
  match m with
  | [] => [(k, v)]
  | (k', v') :: m' => if k <? k' then (k, v) :: m else if k =? k' then (k, v) :: m' else (k', v') :: put k v m'
  end.

Section Loop.
  Context {V : Type} (value : list Z -> option V).
  (** main.cpp:464-487 and 514-540, the same but for what is made of the second field *)
  Fixpoint loop (ls : list (list Z)) (lineno : Z) (m : list (Z * V)) : outcome V :=
    match ls with
    | [] => Read m
    | line :: ls =>
        match skip (fun c => c =? 32) line with
        | [] => loop ls (lineno + 1) m
        | line =>
            match cut line with
            | None => Malformed lineno
            | Some (first, rest) =>
                match atoi first, value (skip (fun c => c =? 32) rest) with
                | Some source, Some v => loop ls (lineno + 1) (put (toSize source) v m)
                | _, _ => Undefined
                end
            end
        end
    end.
  Definition readMap (file : list Z) : outcome V := loop (lines file) 0 [].
End Loop.

(** main.cpp:453-494 *)
Definition timeMap : list Z -> outcome Z := readMap (fun rest => toSize <$> atoi rest).
(** main.cpp:496-549; atof and pow(2.0, _) are any functions *)
Definition freqMap (atof : list Z -> Q) (pow2 : Q -> Q) (convertFromPitch : bool) : list Z -> outcome Q :=
  readMap (fun rest => Some (if convertFromPitch then pow2 (atof rest / 12)%Q else atof rest)).
