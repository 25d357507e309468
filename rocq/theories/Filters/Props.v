(** Properties C07-C10: moving median and histogram filters. *)
From stdpp Require Import base list numbers.
From Coq Require Import ZArith QArith.
From Verif.Filters Require Import Model Spec MMProofs HFProofs.
Local Close Scope Q_scope.
Local Open Scope nat_scope.

(** C07. The window is what the history says, the rank what the percentile says. *)
Theorem C07_moving_median : forall (T : Type) (key : T -> Z) (isnan : T -> bool) (zero : T)
    (n : nat) (p : option Q) (os : list (mm_op T)),
  1 <= n ->
  let win := mm_window isnan zero n os in
  let pct := mm_percentile p os in
  win <> [] -> pct_ok pct ->
  exists f x,
    mm_run key isnan zero (mm_new zero n p) os = Some f /\
    mm_get f = Some x /\
    kth_smallest (map key win) (mm_rank (length win) pct) (key x).
Proof. exact @final_get. Qed.
Print Assumptions C07_moving_median.

Example C07_example :
  let os := [MPush 5; MPush (-1); MPush 3; MPush 3; MDrop; MPush 9; MPush 2]%Z in
  mm_window (fun x => Z.ltb x 0) 0%Z 3 os = [3; 9; 2]%Z /\
  mm_rank 3 None = 1 /\
  (f ← mm_run id (fun x => Z.ltb x 0) 0%Z (mm_new 0%Z 3 None) os; mm_get f) = Some 3%Z /\
  (f ← mm_run id (fun x => Z.ltb x 0) 0%Z (mm_new 0%Z 3 (Some 90%Q)) os; mm_get f) = Some 3%Z /\
  (f ← mm_run id (fun x => Z.ltb x 0) 0%Z (mm_new 0%Z 3 (Some 100%Q)) os; mm_get f) = Some 9%Z.
Proof. vm_compute. repeat split. Qed.

(** C08. *)
Theorem C08_array_median_filter : forall (T : Type) (key : T -> Z) (isnan : T -> bool) (zero : T)
    (n : nat) (p : option Q) (os : list (mm_op T)) (f : mm T) (v : list T),
  1 <= n -> pct_ok (mm_percentile p os) ->
  mm_run key isnan zero (mm_new zero n p) os = Some f ->
  exists f' v',
    mm_filter key isnan zero f v = Some (f', v') /\ length v' = length v /\
    forall i, i < length v -> exists x, v' !! i = Some x /\
      let win := centred n (map (denan isnan zero) v) i in
      kth_smallest (map key win) (mm_rank (length win) (mm_percentile p os)) (key x).
Proof. exact @final_filter. Qed.
Print Assumptions C08_array_median_filter.

Example C08_example :
  let v := [4; 1; 7; 7; 0; 2; 5]%Z in
  option_map snd (mm_filter id (fun _ => false) 0%Z (mm_new 0%Z 4 None) v) =
    Some [4; 4; 1; 2; 2; 2; 2]%Z /\
  centred 4 v 2 = [1; 7; 7; 0]%Z /\ centred 4 v 6 = [2; 5]%Z.
Proof. vm_compute. repeat split. Qed.

(** C09. *)
Theorem C09_histogram_median : forall (nv n : nat) (os : list hf_op),
  1 <= n -> 1 <= nv -> Forall (hf_op_ok nv) os ->
  let win := hf_window n os in win <> [] ->
  exists f, hf_run (hf_new nv n) os = Some f /\
    kth_smallest win ((length win - 1) / 2) (hf_getMedian f).
Proof. exact final_median. Qed.
Print Assumptions C09_histogram_median.

(** C09 for a whole array, filtered in place. *)
Theorem C09_histogram_median_filter : forall (nv n : nat) (os : list hf_op) (f : hf) (v : list Z),
  1 <= n -> 1 <= nv -> Forall (hf_op_ok nv) os -> Forall (in_range nv) v ->
  hf_run (hf_new nv n) os = Some f ->
  exists f' v', hf_filter f v false = Some (f', v') /\ length v' = length v /\
    forall i, i < length v -> exists x, v' !! i = Some x /\ in_range nv x /\
      kth_smallest (centred n v i) ((length (centred n v i) - 1) / 2) x.
Proof. exact (fun nv n os f v => final_hf_filter nv n os f v false). Qed.
Print Assumptions C09_histogram_median_filter.

Example C09_example :
  let os := [HPush 3; HPush 1; HGetMode; HPush 1; HPush 4; HDrop; HPush 0; HPush 2]%Z in
  Forall (hf_op_ok 5) os /\ hf_window 3 os = [4; 0; 2]%Z /\
  option_map hf_getMedian (hf_run (hf_new 5 3) os) = Some 2%Z /\
  option_map snd (hf_filter (hf_new 5 3) [4; 0; 2; 2; 1; 3]%Z false) = Some [0; 2; 2; 2; 2; 1]%Z.
Proof. split; [repeat constructor; done | vm_compute; repeat split]. Qed.

(** C10 is false: the cached mode is not invalidated when a push evicts it.
    Window length 5: push 1 1 1 0 0, ask, push 2; the window 1 1 0 0 2 has
    smallest most frequent value 0, the answer is 1. *)
Theorem C10_histogram_mode_refuted : exists (nv n : nat) (os : list hf_op) (f : hf),
  Forall (hf_op_ok nv) os /\ hf_window n os <> [] /\
  hf_run (hf_new nv n) os = Some f /\
  ~ is_mode (hf_window n os) (snd (hf_getMode f)).
Proof.
  exists 3, 5, [HPush 1; HPush 1; HPush 1; HPush 0; HPush 0; HGetMode; HPush 2]%Z.
  eexists. split; [repeat constructor; done|]. split; [done|].
  split; [vm_compute; reflexivity|].
  vm_compute. intros [_ H]. destruct (H 0%Z) as [H0|[_ H0]].
  - do 2 apply elem_of_list_further. apply elem_of_list_here.
  - repeat (apply le_S_n in H0). inversion H0.
  - apply H0. done.
Qed.
Print Assumptions C10_histogram_mode_refuted.

(** The same through the array filter that the segmenter uses
    (BinSegmenter.h:83), on a fresh filter: position 3 of the output. *)
Theorem C10_modal_filter_refuted : exists (nv n : nat) (v : list Z) f' v' i x,
  Forall (in_range nv) v /\ hf_filter (hf_new nv n) v true = Some (f', v') /\
  v' !! i = Some x /\ ~ is_mode (centred n v i) x.
Proof.
  exists 3, 5, [1; 1; 1; 0; 0; 2; 2; 1]%Z. eexists _, _, 3, _.
  split; [repeat constructor; done|].
  split; [vm_compute; reflexivity|]. split; [vm_compute; reflexivity|].
  vm_compute. intros [_ H]. destruct (H 0%Z) as [H0|[_ H0]].
  - do 2 apply elem_of_list_further. apply elem_of_list_here.
  - repeat (apply le_S_n in H0). inversion H0.
  - apply H0. done.
Qed.
Print Assumptions C10_modal_filter_refuted.

(** What does hold: the mode is right if, from the first query on, no push into
    a full window evicts the mode for another value. *)
Theorem C10_histogram_mode_partial : forall (nv n : nat) (os1 os2 : list hf_op),
  1 <= n -> 1 <= nv -> Forall (hf_op_ok nv) (os1 ++ os2) -> Forall no_query os1 ->
  all_harmless n (hf_window n os1) os2 ->
  let win := hf_window n (os1 ++ os2) in win <> [] ->
  exists f, hf_run (hf_new nv n) (os1 ++ os2) = Some f /\ is_mode win (snd (hf_getMode f)).
Proof. exact final_mode. Qed.
Print Assumptions C10_histogram_mode_partial.

(** For arrays: same length, every output a legal value, and the mode of the
    centred window if no step evicts the mode for another value. *)
Theorem C10_modal_filter_partial : forall (nv n : nat) (os : list hf_op) (f : hf) (v : list Z),
  1 <= n -> 1 <= nv -> Forall (hf_op_ok nv) os -> Forall (in_range nv) v ->
  hf_run (hf_new nv n) os = Some f ->
  exists f' v', hf_filter f v true = Some (f', v') /\ length v' = length v /\
    forall i, i < length v -> exists x, v' !! i = Some x /\ in_range nv x /\
      (array_harmless n v -> is_mode (centred n v i) x).
Proof. exact (fun nv n os f v => final_hf_filter nv n os f v true). Qed.
Print Assumptions C10_modal_filter_partial.

(** Evicting pushes happen after the query, and the answer still changes. *)
Example C10_example :
  let os1 := [HPush 1; HPush 2; HPush 2]%Z in
  let os2 := [HGetMode; HPush 0; HPush 0; HDrop; HPush 0; HGetMode]%Z in
  Forall (hf_op_ok 3) (os1 ++ os2) /\ Forall no_query os1 /\
  all_harmless 4 (hf_window 4 os1) os2 /\ hf_window 4 (os1 ++ os2) = [2; 0; 0; 0]%Z /\
  option_map (fun f => snd (hf_getMode f)) (hf_run (hf_new 3 4) (os1 ++ os2)) = Some 0%Z.
Proof.
  split; [repeat constructor; done|]. split; [repeat constructor|].
  split; [|vm_compute; split; reflexivity].
  cbn. repeat split; try (intros; done). intros _. right. intros [_ H].
  destruct (H 2%Z) as [H0|[H0 _]]; [by do 1 apply elem_of_list_further; apply elem_of_list_here| |done].
  vm_compute in H0. repeat (apply le_S_n in H0). inversion H0.
Qed.

Example C10_array_example :
  let v := [1; 2; 2; 0; 2; 2; 2; 0; 2]%Z in
  array_harmless 4 v /\
  option_map snd (hf_filter (hf_new 3 4) v true) = Some [2; 2; 2; 2; 2; 2; 2; 2; 0]%Z.
Proof.
  split; [|vm_compute; reflexivity].
  intros j x Hj Hx Hl. destruct j as [|[|[|[|[|[|[|[|[|j]]]]]]]]]; try lia; try done;
    cbn in *; injection Hx as <-; try (left; reflexivity); right; intros [_ H].
  - destruct (H 2%Z) as [H0|[H0 _]]; [by do 1 apply elem_of_list_further; apply elem_of_list_here| |done].
    vm_compute in H0. repeat (apply le_S_n in H0). inversion H0.
Qed.
