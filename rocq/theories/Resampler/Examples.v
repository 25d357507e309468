(** Concrete instances: integers with [None] for NaN, and a filter that is one
    at its centre (or everywhere). *)
From stdpp Require Import prelude.
From Coq Require Import ZArith QArith Qround Lia.
From Verif.Resampler Require Import Model Spec Phases Core.
Local Open Scope Z_scope.

Definition oplus (a b : option Z) : option Z := x ← a; y ← b; Some (x + y).
Definition omult (a b : option Z) : option Z := x ← a; y ← b; Some (x * y).
Definition int_arith (w : Z -> Z -> Z) : arith :=
  Arith (option Z) (Some 0) None
    (fun _ xs ys => foldr oplus (Some 0) (zip_with omult xs ys))
    (fun _ x => x) (fun _ a b => a)
    (fun k n a b => oplus (omult (Some k) a) (omult (Some (n - k)) b))
    (fun len _ i => Some (w len i)).
Definition delta (len i : Z) : Z := if i =? len / 2 then 1 else 0.
Definition D : arith := int_arith delta.
Definition ones : arith := int_arith (fun _ _ => 1).
Definition cfg (sm : bool) (ch : Z) : config := Config Fastest true sm 48000 ch 100.
Definition ramp (a n : Z) : list (T D) := Some <$> seqZ a n.

Lemma supported_compute c ratio p : pick_params c ratio = Some p ->
  (1 <=? numerator p) && (1 <=? denominator p) && (filter_length_for c p <=? int_max) = true ->
  supported c ratio p.
Proof. intros H1 H2. split; [done|]. lia. Qed.

Definition p_1 : params := default params0 (pick_params (cfg false 1) 1).
Definition p_3_2 : params := default params0 (pick_params (cfg false 1) (3 # 2)).
Definition p_1_2 : params := default params0 (pick_params (cfg false 1) (1 # 2)).
Definition p_2 : params := default params0 (pick_params (cfg false 1) 2).
Definition p_1_4 : params := default params0 (pick_params (cfg false 1) (1 # 4)).
Lemma sup_1 sm ch : supported (cfg sm ch) 1 p_1.
Proof. apply supported_compute; vm_compute; reflexivity. Qed.
Lemma sup_3_2 sm ch : supported (cfg sm ch) (3 # 2) p_3_2.
Proof. apply supported_compute; vm_compute; reflexivity. Qed.
Lemma sup_1_2 sm ch : supported (cfg sm ch) (1 # 2) p_1_2.
Proof. apply supported_compute; vm_compute; reflexivity. Qed.
Lemma sup_2 sm ch : supported (cfg sm ch) 2 p_2.
Proof. apply supported_compute; vm_compute; reflexivity. Qed.
Lemma sup_1_4 sm ch : supported (cfg sm ch) (1 # 4) p_1_4.
Proof. apply supported_compute; vm_compute; reflexivity. Qed.

Lemma outputs {X Y} (o : option (X * Y)) x : fst <$> o = Some x -> exists y, o = Some (x, y).
Proof. destruct o as [[x' y]|]; [|done]. cbn. intros [= ->]. eauto. Qed.
Definition p_2_3 : params := default params0 (pick_params (cfg false 1) (2 # 3)).
Lemma sup_2_3 sm ch : supported (cfg sm ch) (2 # 3) p_2_3.
Proof. apply supported_compute; vm_compute; reflexivity. Qed.
