(** What the smoothed values in the statement of C63 are. *)
From stdpp Require Import prelude.
From Coq Require Import ZArith QArith Lia Lqa.
From Verif Require Import Base.Arith Calculator.Model Calculator.Peaks.
From stdpp Require Import list.
Local Open Scope Z_scope.

(** C63: each value is smoothed to the mean of itself and its neighbours, as far as there are any. *)
Definition around (raw : list Q) (i : nat) : list Q := take (if decide (i = 0%nat) then 2 else 3) (drop (i - 1) raw).
Definition mean (l : list Q) : Q := (foldr Qplus 0 l / inject_Z (Z.of_nat (length l)))%Q.
Theorem C63_smoothing : forall raw df, smoothDF raw = Some df ->
  length df = length raw /\ forall i x, df !! i = Some x -> (x == mean (around raw i))%Q.
Proof.
  intros raw df H. unfold smoothDF in H. apply mapM_Some in H. pose proof (Forall2_length _ _ _ H) as L. rewrite seqZ_length in L.
  unfold zlen in L. rewrite Nat2Z.id in L. split; [done|]. intros i x Hx.
  destruct (Forall2_lookup_r _ _ _ i x H Hx) as (j & Hj & E). apply lookup_seqZ in Hj as [-> Hi]. rewrite Z.add_0_l in E. unfold zlen in Hi.
  unfold smooth_at, getZ in E. clear H L Hx. unfold around, mean. destruct i as [|i].
  - rewrite decide_True by done. change (Z.of_nat 0) with 0 in E. change (0 <? 0) with false in E. cbn [mbind option_bind] in E.
    change (0 <=? 0) with true in E. cbv iota in E. destruct raw as [|a raw]; [done|]. change ((a :: raw) !! Z.to_nat 0) with (Some a) in E. cbn [mbind option_bind] in E.
    cbn [drop Nat.sub]. destruct raw as [|b raw].
    + change (0 + 1 <? zlen [a]) with false in E. cbn [mbind option_bind] in E. injection E as <-. cbn [take foldr length]. change (inject_Z (0 + 1)) with 1%Q. change (inject_Z (Z.of_nat 1)) with 1%Q. field.
    + replace (0 + 1 <? zlen (a :: b :: raw)) with true in E by (symmetry; apply Z.ltb_lt; unfold zlen; cbn [length]; lia).
      change (0 <=? 0 + 1) with true in E. cbv iota in E. change ((a :: b :: raw) !! Z.to_nat (0 + 1)) with (Some b) in E. cbn [mbind option_bind] in E. injection E as <-.
      change (take 2 (a :: b :: raw)) with [a; b]. cbn [foldr length]. change (inject_Z (0 + 2)) with 2%Q. change (inject_Z (Z.of_nat 2)) with 2%Q. field.
  - rewrite decide_False by done.
    rewrite (proj2 (Z.ltb_lt 0 (Z.of_nat (S i)))), (proj2 (Z.leb_le 0 (Z.of_nat (S i) - 1))), (proj2 (Z.leb_le 0 (Z.of_nat (S i)))), (proj2 (Z.leb_le 0 (Z.of_nat (S i) + 1))) in E by lia.
    replace (Z.to_nat (Z.of_nat (S i) - 1)) with i in E by lia. rewrite Nat2Z.id in E. replace (Z.to_nat (Z.of_nat (S i) + 1)) with (S (S i)) in E by lia.
    destruct (lookup_lt_is_Some_2 raw i ltac:(lia)) as [a Ha]. destruct (lookup_lt_is_Some_2 raw (S i) ltac:(lia)) as [b Hb].
    rewrite Ha in E. cbn [mbind option_bind] in E. rewrite Hb in E. cbn [mbind option_bind] in E.
    replace (S i - 1)%nat with i by lia. rewrite (drop_S _ _ _ Ha), (drop_S _ _ _ Hb).
    destruct (raw !! S (S i)) as [c|] eqn:Hc.
    + assert (Z.of_nat (S i) + 1 <? zlen raw = true) as X by (apply Z.ltb_lt; apply lookup_lt_Some in Hc; unfold zlen; lia). rewrite X in E.
      cbn [mbind option_bind] in E. injection E as <-. rewrite (drop_S _ _ _ Hc). change (take 3 (a :: b :: c :: drop (S (S (S i))) raw)) with [a; b; c]. cbn [foldr length]. change (inject_Z (1 + 2)) with 3%Q. change (inject_Z (Z.of_nat 3)) with 3%Q. field.
    + assert (Z.of_nat (S i) + 1 <? zlen raw = false) as X by (apply Z.ltb_ge; apply lookup_ge_None in Hc; unfold zlen; lia). rewrite X in E.
      cbn [mbind option_bind] in E. injection E as <-. rewrite (drop_ge raw (S (S i))) by (by apply lookup_ge_None). change (take 3 [a; b]) with [a; b]. cbn [foldr length]. change (inject_Z (1 + 1)) with 2%Q. change (inject_Z (Z.of_nat 2)) with 2%Q. field.
Qed.
Print Assumptions C63_smoothing.
Example C63_smoothing_example : exists df, smoothDF [0; 3; 6; 0]%Q = Some df /\ map Qred df = [3 # 2; 3; 3; 3]%Q.
Proof. eexists. split; [vm_compute; reflexivity|]. vm_compute. reflexivity. Qed.
