(** Model of src/common/mathmisc.{h,cpp}.  Doubles are exact: rationals where
    only field operations and comparisons occur, reals for phases. *)
From Coq Require Import ZArith QArith Qabs Qround Reals.
Local Open Scope Z_scope.

(** mathmisc.cpp:69-76.  [size_t] is 64 bits; shifting by 64 or more is
    undefined, hence [None]. *)
Definition szmax : Z := 2 ^ 64.
(** mathmisc.cpp:73, the loop; at most 64 rounds. *)
Fixpoint bit_count (fuel : nat) (value bits : Z) : option Z :=
  match fuel with
  | O => None
  | S f => if value =? 0 then Some bits else bit_count f (Z.shiftr value 1) (bits + 1)
  end.
Definition roundUp (value : Z) : option Z :=
  if Z.land value ((value - 1) mod szmax) =? 0 then Some value
  else match bit_count 65 value 0 with
       | None => None
       | Some bits => if bits <? 64 then Some (Z.shiftl 1 bits) else None
       end.

(** mathmisc.cpp:78-82.  Conversion of a value outside size_t, or division by
    zero, is undefined. *)
Definition roundUpDiv (divisionOf : Q) (divisor : Z) : option Z :=
  if Qlt_le_dec divisionOf 0 then Some 0
  else if divisor =? 0 then None
  else let v := Qceiling (divisionOf / inject_Z divisor) in
       if v <? szmax then roundUp v else None.

(** A fraction of two of the integer-valued doubles (the second positive). *)
Definition frac (a b : Z) : Q := a # Z.to_pos b.

(** mathmisc.cpp:28-67.  The eight doubles only ever hold integers.  [pc/pd]
    with [pd = 0] is infinite, so the comparison on line 60 is false. *)
Record farey := Farey { fa : Z; fb : Z; fc : Z; fd : Z; fpa : Z; fpb : Z; fpc : Z; fpd : Z }.

Definition farey_init : farey := Farey 0 1 1 0 0 1 1 0.          (* 32-33 *)

(** mathmisc.cpp:60-66 *)
Definition farey_exit (ratio : Q) (s : farey) : Z * Z :=
  if fpd s =? 0 then (fpa s, fpb s)
  else if Qlt_le_dec (Qabs (ratio - frac (fpc s) (fpd s))) (Qabs (ratio - frac (fpa s) (fpb s)))
  then (fpc s, fpd s) else (fpa s, fpb s).

(** mathmisc.cpp:35-59; [None] when the fuel runs out. *)
Fixpoint farey_loop (fuel : nat) (ratio eps : Q) (max_denom : Z) (s : farey) : option (Z * Z) :=
  match fuel with
  | O => None
  | S f =>
    let '(Farey a b c d pa pb pc pd) := s in
    if (b <=? max_denom) && (d <=? max_denom) then
      let mediant := frac (a + c) (b + d) in
      if Qlt_le_dec (Qabs (ratio - mediant)) eps then
        Some (if b + d <=? max_denom then (a + c, b + d)
              else if b <? d then (c, d) else (a, b))
      else if Qlt_le_dec mediant ratio then
        farey_loop f ratio eps max_denom (Farey (a + c) (b + d) c d a b pc pd)
      else
        farey_loop f ratio eps max_denom (Farey a b (c + a) (d + b) pa pb c d)
    else Some (farey_exit ratio s)
  end.

(** mathmisc.cpp:34: 1e-9 *)
Definition farey_eps : Q := 1 # 1000000000.
Definition pickNearestRational (fuel : nat) (ratio : Q) (max_denom : Z) : option (Z * Z) :=
  farey_loop fuel ratio farey_eps max_denom farey_init.

(** mathmisc.h:35-37 and 42-44, over the reals, for any value [P] of M_PI. *)
Local Open Scope R_scope.
Definition rmod (x y : R) : R := x - y * IZR (Int_part (x / y)).
Definition princarg (P a : R) : R := rmod (a + P) (- 2 * P) + P.
