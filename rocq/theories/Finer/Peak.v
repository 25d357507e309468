(** Proofs about the peak picker. *)
From stdpp Require Import prelude list numbers sorting.
From Coq Require Import ZArith Lia.
From Verif Require Import Finer.PeakModel Finer.PeakSpec.
Local Open Scope Z_scope.

Section peak.
  Context {T : Type} (gt : T -> T -> bool).
  Lemma at_in {A} (l : list A) i : 0 <= i < Z.of_nat (length l) -> exists x, at_ l i = Some x /\ l !! Z.to_nat i = Some x.
  Proof.
    intros H. destruct (lookup_lt_is_Some_2 l (Z.to_nat i)) as [x Hx]; [lia|]. exists x. unfold at_.
    destruct (Z.ltb_spec i 0); [lia|]. done.
  Qed.
  Lemma at_is {A} (l : list A) i x : 0 <= i -> l !! Z.to_nat i = Some x -> at_ l i = Some x.
  Proof. intros H Hx. unfold at_. destruct (Z.ltb_spec i 0); [lia|]. done. Qed.

  (** The neighbour loop answers whether bin [i] is a peak. *)
  Lemma good_spec v lo hi i x : 0 <= lo -> hi <= Z.of_nat (length v) -> forall m k,
    exists g, good gt v lo hi i x (seqZ k (Z.of_nat m)) = Some g /\
    (g = true <-> forall k' y, k <= k' < k + Z.of_nat m -> lo <= k' < hi -> v !! Z.to_nat k' = Some y ->
      (k' < i -> gt x y = true) /\ (i < k' -> gt y x = false)).
  Proof.
    intros Hlo Hhi. induction m as [|m IH]; intros k.
    - exists true. split; [done|]. split; [|done]. intros _ k' y Hk'. lia.
    - rewrite seqZ_cons by lia. replace (Z.pred (Z.of_nat (S m))) with (Z.of_nat m) by lia.
      destruct (IH (Z.succ k)) as (g & Hg & Hs). cbn [good].
      destruct (Z.ltb_spec k lo) as [H1|H1]; cbn [orb].
      { exists g. split; [done|]. rewrite Hs. split; intros H k' y Hk' Hr Hy; apply (H k' y); lia || done. }
      destruct (Z.eqb_spec k i) as [H2|H2].
      { exists g. split; [done|]. rewrite Hs. split; intros H k' y Hk' Hr Hy.
        - destruct (decide (k' = k)) as [->|]; [lia|]. apply (H k' y); lia || done.
        - apply (H k' y); lia || done. }
      destruct (Z.leb_spec hi k) as [H3|H3].
      { exists true. split; [done|]. split; [|done]. intros _ k' y Hk' Hr. lia. }
      destruct (at_in v k ltac:(lia)) as (y & Ey & Ey'). rewrite Ey. cbn [mbind option_bind].
      destruct (Z.ltb_spec k i) as [H4|H4]; cbn [andb].
      + destruct (gt x y) eqn:Eg; cbn [negb].
        * destruct (Z.ltb_spec i k); [lia|]. cbn [andb]. exists g. split; [done|]. rewrite Hs. split; intros H5 k' y' Hk' Hr Hy'.
          -- destruct (decide (k' = k)) as [->|]; [split; [|lia]; congruence|]. apply (H5 k' y'); lia || done.
          -- apply (H5 k' y'); lia || done.
        * exists false. split; [done|]. split; [done|]. intros H. destruct (H k y ltac:(lia) ltac:(lia) Ey') as [H5 _]. rewrite H5 in Eg by lia. done.
      + destruct (Z.ltb_spec i k); [|lia]. cbn [andb]. destruct (gt y x) eqn:Eg.
        * exists false. split; [done|]. split; [done|]. intros H'. destruct (H' k y ltac:(lia) ltac:(lia) Ey') as [_ H5]. rewrite H5 in Eg by lia. done.
        * exists g. split; [done|]. rewrite Hs. split; intros H5 k' y' Hk' Hr Hy'.
          -- destruct (decide (k' = k)) as [->|]; [split; [lia|]; congruence|]. apply (H5 k' y'); lia || done.
          -- apply (H5 k' y'); lia || done.
  Qed.

  (** The list of peaks found: ascending, and exactly the peaks below [b]. *)
  Definition listed (P : Z -> Prop) (locs : list Z) : Prop := StronglySorted Z.lt locs /\ forall q, q ∈ locs <-> P q.
  Lemma sorted_snoc l (x : Z) : StronglySorted Z.lt l -> Forall (fun q => q < x) l -> StronglySorted Z.lt (l ++ [x]).
  Proof.
    induction l as [|a l IH]; intros Hs Hf; [by repeat constructor|]. apply StronglySorted_inv in Hs as [Hs Ha].
    apply Forall_cons in Hf as [H1 H2]. cbn. constructor; [by apply IH|]. apply Forall_app. split; [done|]. by constructor.
  Qed.
  Lemma locate_spec mn v lo hi p : 0 <= lo -> 0 <= p -> hi <= Z.of_nat (length v) -> hi <= mn -> forall m b locs,
    lo <= b -> b + Z.of_nat m = hi -> Z.of_nat (length locs) <= b -> listed (fun q => peak_at gt v lo hi p q /\ q < b) locs ->
    exists locs', locate gt mn v lo hi p (seqZ b (Z.of_nat m)) locs = Some locs' /\ listed (peak_at gt v lo hi p) locs'.
  Proof.
    intros Hlo Hp Hhi Hmn. induction m as [|m IH]; intros b locs Hb Hm Hl Hs.
    - exists locs. split; [done|]. destruct Hs as [H1 H2]. split; [done|]. intros q. rewrite H2. unfold peak_at. intuition lia.
    - rewrite seqZ_cons by lia. replace (Z.pred (Z.of_nat (S m))) with (Z.of_nat m) by lia. cbn [locate].
      destruct (at_in v b ltac:(lia)) as (x & Ex & Ex'). rewrite Ex. cbn [mbind option_bind].
      destruct (good_spec v lo hi b x Hlo Hhi (Z.to_nat (2 * p + 1)) (b - p)) as (g & Hg & Hgs).
      rewrite Z2Nat.id in Hg, Hgs by lia. rewrite Hg. cbn [mbind option_bind].
      assert (Hpk : g = true <-> peak_at gt v lo hi p b).
      { rewrite Hgs. unfold peak_at. split.
        - intros H. split; [lia|]. exists x. split; [done|]. intros k y Hk Ha Hy. apply (H k y); [lia|lia|done].
        - intros (_ & x' & Hx' & H) k y Hk Hr Hy. assert (x' = x) as -> by congruence. apply (H k y); [lia|lia|done]. }
      destruct Hs as [Hss Hm'].
      assert (Hlt : Forall (fun q => q < b) locs) by (apply Forall_forall; intros q Hq; apply Hm' in Hq; lia).
      destruct g.
      + destruct (Z.ltb_spec (Z.of_nat (length locs)) mn); [|lia]. apply IH; [lia|lia|rewrite app_length; cbn; lia|].
        split; [by apply sorted_snoc|]. intros q. rewrite elem_of_app, elem_of_list_singleton, Hm'. split.
        * intros [[H1 H2]| ->]; [split; [done|lia]|]. split; [by apply Hpk|lia].
        * intros [H1 H2]. destruct (decide (q = b)); [by right|left; split; [done|lia]].
      + apply IH; [lia|lia|lia|]. split; [done|]. intros q. rewrite Hm'. split; intros [H1 H2]; (split; [done|]); [lia|].
        assert (q <> b); [|lia]. intros ->. apply Hpk in H1. done.
  Qed.

  Lemma put_in {A} (l : list A) i x : 0 <= i < Z.of_nat (length l) -> put l i x = Some (<[Z.to_nat i := x]> l).
  Proof. intros H. unfold put. destruct (Z.leb_spec 0 i), (Z.ltb_spec i (Z.of_nat (length l))); cbn; lia || done. Qed.

  Lemma sorted_app_lt (l r : list Z) : StronglySorted Z.lt (l ++ r) -> forall a b, a ∈ l -> b ∈ r -> a < b.
  Proof.
    induction l as [|x l IH]; intros Hs a b Ha Hb; [by apply not_elem_of_nil in Ha|]. cbn in Hs. apply StronglySorted_inv in Hs as [Hs Hf].
    apply elem_of_cons in Ha as [->|Ha]; [|by eapply IH]. rewrite Forall_forall in Hf. apply Hf. apply elem_of_app. by right.
  Qed.
  (** The while loop moves past bin [i] if it is a peak. *)
  Lemma advance_spec bef aft i np pp fuel : StronglySorted Z.lt (bef ++ aft) -> Forall (fun q => i <= q) aft -> (2 <= fuel)%nat ->
    np = default np (head aft) ->
    advance fuel (bef ++ aft) i np pp (Z.of_nat (length bef)) =
      match aft with
      | q :: _ => if q =? i then Some (i, Z.of_nat (length bef) + 1) else Some (pp, Z.of_nat (length bef))
      | [] => Some (pp, Z.of_nat (length bef))
      end.
  Proof.
    intros Hs Hf Hfu Hnp. destruct fuel as [|[|fuel]]; [lia|lia|]. cbn [advance]. rewrite app_length. destruct aft as [|q aft].
    { cbn [length]. destruct (Z.ltb_spec (Z.of_nat (length bef)) (Z.of_nat (length bef + 0))); [lia|done]. }
    cbn [length head default] in *. destruct (Z.ltb_spec (Z.of_nat (length bef)) (Z.of_nat (length bef + S (length aft)))); [|lia].
    rewrite (at_is _ (Z.of_nat (length bef)) q) by (try lia; rewrite Nat2Z.id; by apply list_lookup_middle). cbn [mbind option_bind].
    apply Forall_cons in Hf as [Hq Hf]. destruct (Z.eqb_spec q i) as [->|Hne].
    - destruct (Z.leb_spec i i); [|lia]. cbn in Hnp. subst np.
      destruct (Z.ltb_spec (Z.of_nat (length bef) + 1) (Z.of_nat (length bef + S (length aft)))) as [H1|H1].
      + destruct aft as [|q aft]; [cbn [length] in H1; lia|].
        rewrite (at_is _ (Z.of_nat (length bef) + 1) q) by (try lia; replace (Z.to_nat (Z.of_nat (length bef) + 1)) with (length bef + 1)%nat by lia; rewrite lookup_app_r by lia; by replace (length bef + 1 - length bef)%nat with 1%nat by lia).
        cbn [mbind option_bind]. assert (i < q).
        { apply (sorted_app_lt (bef ++ [i]) (q :: aft)); [by rewrite <- (assoc_L (++))| |by left]. apply elem_of_app. right. by left. }
        destruct (Z.leb_spec q i); [lia|done].
      + done.
    - destruct (Z.leb_spec q i); [lia|done].
  Qed.
  Lemma list_last_split (l : list Z) : l <> [] -> exists k x, l = k ++ [x].
  Proof. intros H. destruct (exists_last H) as (k & x & ->). eauto. Qed.

  (** One bin of the second loop, for both arrays. *)
  Lemma mark_spec (P : Z -> Prop) locs lo hi : 0 <= lo -> listed P locs -> (forall q, P q -> lo <= q < hi) -> forall m b bef aft pp nearest next,
    locs = bef ++ aft -> Forall (fun q => q < b) bef -> Forall (fun q => b <= q) aft -> lo <= b -> b + Z.of_nat m = hi ->
    (forall q k, bef = k ++ [q] -> pp = q) -> (bef = [] -> pp < b) -> fits hi nearest -> fits hi next ->
    exists nearest' next', mark locs (seqZ b (Z.of_nat m)) pp (Z.of_nat (length bef)) nearest next = Some (nearest', next') /\
      written nearest nearest' b hi (fun i r => closest P i r \/ (r = i /\ forall q, ~ P q)) /\ written next next' b hi (following P).
  Proof.
    intros Hlo [Hss Hm] Hrange. induction m as [|m IH]; intros b bef aft pp nearest next El Hbef Haft Hb Hbm Hpp Hpp0 Hfn Hfx.
    - exists nearest, next. split; [done|]. split; [destruct nearest|destruct next]; cbn; try done; (split; [done|]; split; [done|]; intros i Hi; lia).
    - rewrite seqZ_cons by lia. replace (Z.pred (Z.of_nat (S m))) with (Z.of_nat m) by lia. cbn [mark].
      (* the peak in view *)
      assert (Hnp : exists np, (if Z.of_nat (length bef) <? Z.of_nat (length locs) then at_ locs (Z.of_nat (length bef))
                 else if 0 <? Z.of_nat (length locs) then at_ locs (Z.of_nat (length locs) - 1) else Some b) = Some np /\
                 match aft with q :: _ => np = q | [] => (forall q k, bef = k ++ [q] -> np = q) /\ (bef = [] -> np = b) end).
      { rewrite El, app_length. destruct aft as [|q aft].
        - cbn [length]. rewrite Nat.add_0_r, app_nil_r. destruct (Z.ltb_spec (Z.of_nat (length bef)) (Z.of_nat (length bef))); [lia|].
          destruct (decide (bef = [])) as [->|Hne].
          + exists b. split; [done|]. split; [|done]. intros q k Hk. by destruct k.
          + destruct (list_last_split bef Hne) as (k & x & ->). rewrite app_length. cbn [length]. destruct (Z.ltb_spec 0 (Z.of_nat (length k + 1))); [|lia].
            exists x. split.
            * apply at_is; [lia|]. replace (Z.to_nat (Z.of_nat (length k + 1) - 1)) with (length k) by lia. by apply list_lookup_middle.
            * split; [|by destruct k]. intros q k' Hk. by apply app_inj_tail in Hk as [_ ->].
        - cbn [length]. destruct (Z.ltb_spec (Z.of_nat (length bef)) (Z.of_nat (length bef + S (length aft)))); [|lia].
          exists q. split; [|done]. apply at_is; [lia|]. rewrite Nat2Z.id. by apply list_lookup_middle. }
      destruct Hnp as (np & Enp & Hnp). rewrite Enp. cbn [mbind option_bind]. clear Enp.
      assert (Hin : forall q, P q <-> q ∈ bef \/ q ∈ aft) by (intros q; rewrite <- Hm, El; apply elem_of_app).
      assert (Hbe : forall q, q ∈ bef -> q < b) by (by apply Forall_forall).
      assert (Hae : forall q, q ∈ aft -> b <= q) by (by apply Forall_forall).
      assert (Hord : forall q r, q ∈ bef -> r ∈ aft -> q < r) by (apply sorted_app_lt; by rewrite <- El).
      set (vx := if (pp =? b) || (Z.of_nat (length locs) <=? Z.of_nat (length bef)) then b else np).
      set (vn := if Z.of_nat (length bef) =? 0 then np else if np - b <=? b - pp then np else pp).
      assert (Hppb : pp < b).
      { destruct (decide (bef = [])) as [H|H]; [auto|]. destruct (list_last_split bef H) as (k & x & Hk). rewrite (Hpp x k Hk).
        apply Hbe. rewrite Hk. apply elem_of_app. right. by left. }
      assert (Hafth : forall q aft', aft = q :: aft' -> forall r, r ∈ aft -> q <= r).
      { intros q aft' -> r Hr. apply elem_of_cons in Hr as [->|Hr]; [lia|].
        assert (q < r); [|lia]. apply (sorted_app_lt (bef ++ [q]) aft'); [rewrite <- (assoc_L (++)); by rewrite El in Hss| |done]. apply elem_of_app. right. by left. }
      assert (Hbeft : forall q k, bef = k ++ [q] -> forall r, r ∈ bef -> r <= q).
      { intros q k Hk r Hr. rewrite Hk in Hr. apply elem_of_app in Hr as [Hr|Hr]; [|apply elem_of_list_singleton in Hr; lia].
        assert (r < q); [|lia]. apply (sorted_app_lt k (q :: aft)); [by rewrite El, Hk, <- (assoc_L (++)) in Hss|done|by left]. }
      assert (Hvx : following P b vx).
      { unfold vx. destruct (Z.eqb_spec pp b); [lia|]. cbn [orb]. rewrite El, app_length. destruct aft as [|q aft].
        - cbn [length]. destruct (Z.leb_spec (Z.of_nat (length bef + 0)) (Z.of_nat (length bef))); [|lia]. right. split; [done|].
          intros q Hq. apply Hin in Hq as [Hq|Hq]; [auto|by apply not_elem_of_nil in Hq].
        - cbn [length]. destruct (Z.leb_spec (Z.of_nat (length bef + S (length aft))) (Z.of_nat (length bef))); [lia|]. subst np. left.
          split; [apply Hin; right; by left|]. split; [apply Hae; by left|]. intros r Hr Hbr. apply Hin in Hr as [Hr|Hr]; [specialize (Hbe r Hr); lia|].
          by apply (Hafth q aft). }
      assert (Hvn : closest P b vn \/ (vn = b /\ forall q, ~ P q)).
      { unfold vn. destruct (decide (bef = [])) as [Hb0|Hne].
        - rewrite Hb0. cbn [length]. rewrite Z.eqb_refl. destruct aft as [|q aft].
          + right. destruct Hnp as [_ Hnp]. split; [auto|]. intros q Hq. apply Hin in Hq as [Hq|Hq]; rewrite ?Hb0 in Hq; by apply not_elem_of_nil in Hq.
          + subst np. left. split; [apply Hin; right; by left|]. intros r Hr. apply Hin in Hr as [Hr|Hr]; [rewrite Hb0 in Hr; by apply not_elem_of_nil in Hr|].
            pose proof (Hafth q aft eq_refl r Hr). pose proof (Hae q ltac:(by left)). pose proof (Hae r Hr). lia.
        - left. destruct (list_last_split bef Hne) as (k & x & Hk). pose proof (Hpp x k Hk) as ->.
          assert (Hxin : x ∈ bef) by (rewrite Hk; apply elem_of_app; right; by left).
          destruct (Z.eqb_spec (Z.of_nat (length bef)) 0) as [H0|H0]; [destruct bef; cbn [length] in H0; [done|lia]|].
          destruct aft as [|q aft].
          + destruct Hnp as [Hnp _]. rewrite (Hnp x k Hk). destruct (Z.leb_spec (x - b) (b - x)) as [H1|H1]; [|lia].
            split; [apply Hin; by left|]. intros r Hr. apply Hin in Hr as [Hr|Hr]; [|by apply not_elem_of_nil in Hr].
            pose proof (Hbeft x k Hk r Hr). pose proof (Hbe x Hxin). pose proof (Hbe r Hr). lia.
          + subst np. pose proof (Hae q ltac:(by left)). pose proof (Hbe x Hxin). destruct (Z.leb_spec (q - b) (b - x)) as [Hc1|Hc1].
            * split; [apply Hin; right; by left|]. intros r Hr. apply Hin in Hr as [Hr|Hr].
              -- pose proof (Hbeft x k Hk r Hr). lia.
              -- pose proof (Hafth q aft eq_refl r Hr). pose proof (Hae r Hr). lia.
            * split; [apply Hin; by left|]. intros r Hr. apply Hin in Hr as [Hr|Hr].
              -- pose proof (Hbeft x k Hk r Hr). lia.
              -- pose proof (Hafth q aft eq_refl r Hr). pose proof (Hae r Hr). lia. }
      assert (Hx : exists next1, match next with Some a => a ← put a b vx; Some (Some a) | None => Some None end = Some next1 /\
        next1 = (fun a => <[Z.to_nat b := vx]> a) <$> next /\ fits hi next1).
      { destruct next as [a|]; cbn in Hfx |- *; [|by exists None]. rewrite put_in by lia. exists (Some (<[Z.to_nat b := vx]> a)). split; [done|]. split; [done|]. cbn. by rewrite insert_length. }
      destruct Hx as (next1 & Ex1 & Enext1 & Hfx1). rewrite Ex1. cbn [mbind option_bind]. clear Ex1.
      assert (Hn : exists nearest1, match nearest with Some a => a ← put a b vn; Some (Some a) | None => Some None end = Some nearest1 /\
        nearest1 = (fun a => <[Z.to_nat b := vn]> a) <$> nearest /\ fits hi nearest1).
      { destruct nearest as [a|]; cbn in Hfn |- *; [|by exists None]. rewrite put_in by lia. exists (Some (<[Z.to_nat b := vn]> a)). split; [done|]. split; [done|]. cbn. by rewrite insert_length. }
      destruct Hn as (nearest1 & En1 & Enear1 & Hfn1). rewrite En1. cbn [mbind option_bind]. clear En1.
      assert (Hadv : exists pp' bef' aft', advance (S (length locs)) locs b np pp (Z.of_nat (length bef)) = Some (pp', Z.of_nat (length bef')) /\
        locs = bef' ++ aft' /\ Forall (fun q => q < b + 1) bef' /\ Forall (fun q => b + 1 <= q) aft' /\
        (forall q k, bef' = k ++ [q] -> pp' = q) /\ (bef' = [] -> pp' < b + 1)).
      { destruct aft as [|q aft].
        - exists pp, bef, []. split.
          + rewrite El, app_nil_r. cbn [advance]. destruct (Z.ltb_spec (Z.of_nat (length bef)) (Z.of_nat (length bef))); [lia|done].
          + split; [done|]. split; [eapply Forall_impl; [exact Hbef|cbn; lia]|]. split; [constructor|]. split; [done|lia].
        - subst np. assert (Hl2 : (2 <= S (length locs))%nat) by (rewrite El, app_length; cbn; lia).
          assert (El2 : advance (S (length locs)) locs b q pp (Z.of_nat (length bef)) = advance (S (length locs)) (bef ++ q :: aft) b q pp (Z.of_nat (length bef))) by (by rewrite El at 2).
          rewrite El2, advance_spec; [|by rewrite <- El|done|done|done]. destruct (Z.eqb_spec q b) as [->|Hne].
          + exists b, (bef ++ [b]), aft. split; [rewrite app_length; cbn [length]; f_equal; f_equal; lia|]. split; [by rewrite <- (assoc_L (++))|].
            split; [apply Forall_app; split; [eapply Forall_impl; [exact Hbef|cbn; lia]|repeat constructor; lia]|].
            split; [|split; [|by destruct bef]].
            * apply Forall_forall. intros r Hr. assert (b < r); [|lia].
              apply (sorted_app_lt (bef ++ [b]) aft); [rewrite <- (assoc_L (++)); by rewrite El in Hss| |done]. apply elem_of_app. right. by left.
            * intros r k Hk. by apply app_inj_tail in Hk as [_ ->].
          + exists pp, bef, (q :: aft). split; [done|]. split; [done|]. split; [eapply Forall_impl; [exact Hbef|cbn; lia]|].
            split; [|split; [done|lia]]. apply Forall_forall. intros r Hr. pose proof (Hafth q aft eq_refl r Hr). pose proof (Hae q ltac:(by left)). lia. }
      destruct Hadv as (pp' & bef' & aft' & Ea & El' & Hb1 & Hb2 & Hb3 & Hb4). rewrite Ea. cbn [mbind option_bind].
      destruct (IH (Z.succ b) bef' aft' pp' nearest1 next1) as (nearest' & next' & Em & Hw1 & Hw2); try done; try lia.
      exists nearest', next'. split; [done|].
      assert (Hgen : forall old new1 new (ok : Z -> Z -> Prop) val, new1 = (fun a => <[Z.to_nat b := val]> a) <$> old -> fits hi old -> ok b val ->
        written new1 new (Z.succ b) hi ok -> written old new b hi ok).
      { intros old new1 new ok val -> Hfo Hok Hw. destruct old as [a|], new as [c|]; cbn in Hw |- *; try done. cbn in Hfo. rewrite insert_length in Hw. destruct Hw as (H1 & H2 & H3).
        split; [done|]. split.
        - intros i Hi Hni. rewrite H2 by lia. apply list_lookup_insert_ne. lia.
        - intros i Hi. destruct (decide (i = b)) as [->|]; [|apply H3; lia]. exists val. rewrite H2 by lia. split; [|done]. apply list_lookup_insert. lia. }
      split; [exact (Hgen _ _ _ _ _ Enear1 Hfn Hvn Hw1)|exact (Hgen _ _ _ _ _ Enext1 Hfx Hvx Hw2)].
  Qed.

  (** Some bin is a peak: the first of the greatest. *)
  Lemma some_peak v lo hi p : ordering gt -> 0 <= lo < hi -> hi <= Z.of_nat (length v) -> 0 <= p -> exists q, peak_at gt v lo hi p q.
  Proof.
    intros [Hirr Htr Hwk] Hlo Hhi Hp.
    assert (H : forall m, lo + 1 + Z.of_nat m <= hi -> exists q x, lo <= q < lo + 1 + Z.of_nat m /\ v !! Z.to_nat q = Some x /\
      forall k y, lo <= k < lo + 1 + Z.of_nat m -> v !! Z.to_nat k = Some y -> (k < q -> gt x y = true) /\ (q < k -> gt y x = false)).
    { induction m as [|m IH]; intros Hm.
      - destruct (at_in v lo ltac:(lia)) as (x & _ & Hx). exists lo, x. split; [lia|]. split; [done|]. intros k y Hk. lia.
      - destruct IH as (q & x & Hq & Hx & H); [lia|]. set (b := lo + 1 + Z.of_nat m) in *.
        destruct (at_in v b ltac:(lia)) as (z & _ & Hz). destruct (gt z x) eqn:Eg.
        + exists b, z. split; [lia|]. split; [done|]. intros k y Hk Hy. split; [|lia]. intros Hkb.
          destruct (H k y ltac:(lia) Hy) as [H1 H2]. destruct (Z.lt_trichotomy k q) as [Hl|[->|Hl]].
          * apply (Htr z x y); auto.
          * congruence.
          * destruct (gt z y) eqn:E; [done|]. specialize (H2 Hl). rewrite (Hwk z y x) in Eg by done. done.
        + exists q, x. split; [lia|]. split; [done|]. intros k y Hk Hy. destruct (decide (k = b)) as [->|].
          * split; [lia|]. intros _. congruence.
          * apply (H k y); [lia|done]. }
    destruct (H (Z.to_nat (hi - lo - 1))) as (q & x & Hq & Hx & H'); [lia|]. exists q. split; [lia|]. exists x. split; [done|].
    intros k y Hk _ Hy. apply (H' k y); [lia|done].
  Qed.
  Lemma find_spec mn v lo cnt p nearest next : ordering gt -> 0 <= lo -> 0 <= cnt -> 0 <= p ->
    lo + cnt <= Z.of_nat (length v) -> lo + cnt <= mn -> fits (lo + cnt) nearest -> fits (lo + cnt) next ->
    exists nearest' next', findNearestAndNextPeaks gt mn v lo cnt p nearest next = Some (nearest', next') /\
      written nearest nearest' lo (lo + cnt) (closest (peak_at gt v lo (lo + cnt) p)) /\
      written next next' lo (lo + cnt) (following (peak_at gt v lo (lo + cnt) p)).
  Proof.
    intros Hord Hlo Hcnt Hp Hv Hmn Hn Hx. unfold findNearestAndNextPeaks. set (hi := lo + cnt) in *.
    destruct (locate_spec mn v lo hi p Hlo Hp Hv Hmn (Z.to_nat cnt) lo []) as (locs & El & Hl); [lia|lia|cbn; lia| |].
    { split; [constructor|]. intros q. split; [intros H; by apply not_elem_of_nil in H|]. intros [[H _] H2]. lia. }
    rewrite Z2Nat.id in El by lia. rewrite El. cbn [mbind option_bind].
    assert (Hrange : forall q, peak_at gt v lo hi p q -> lo <= q < hi) by (intros q [H _]; lia).
    destruct (mark_spec (peak_at gt v lo hi p) locs lo hi Hlo Hl Hrange (Z.to_nat cnt) lo [] locs (lo - 1) nearest next) as (nearest' & next' & Em & H1 & H2).
    1: done. 1: constructor. { apply Forall_forall. intros q Hq. apply Hl in Hq. apply Hrange in Hq. lia. } 1: lia. 1: lia. { intros q k Hk. by destruct k. } 1: lia. 1: done. 1: done.
    rewrite Z2Nat.id in Em by lia. cbn [length] in Em. exists nearest', next'. split; [exact Em|]. split; [|done].
    destruct nearest as [a|], nearest' as [c|]; cbn in H1 |- *; try done. destruct H1 as (H3 & H4 & H5). split; [done|]. split; [done|].
    intros i Hi. destruct (H5 i Hi) as (r & Hr & Hc). exists r. split; [done|]. destruct Hc as [Hc|[_ Hc]]; [done|].
    destruct (some_peak v lo hi p Hord) as (q & Hq); [lia|done|done|]. destruct (Hc q Hq).
  Qed.
End peak.
