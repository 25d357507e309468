(** Specification vocabulary for the R2 engine. *)
From stdpp Require Import prelude.
From Coq Require Import ZArith QArith.
Local Open Scope Z_scope.

Definition pow2 (w : Z) : Prop := exists k, 0 <= k /\ w = 2 ^ k.
(** What the engine does with a ratio it is given: values that are not positive count as 1. *)
Definition accepted (q : Q) : Q := if negb (Qle_bool q 0) then q else 1%Q.
