(** Property C92: what a map file given to the command-line program means. *)
From stdpp Require Import prelude list.
From Coq Require Import ZArith QArith Lia Sorted Ascii String.
From Verif.Command Require Import MapFile.
From Verif Require Command.Spec.
From stdpp Require Import list.
Local Open Scope Z_scope.

(** ** Spec *)
(** The bytes of a number in decimal notation (leading zeros allowed) *)
Inductive numeral : list Z -> Z -> Prop :=
| numeral_1 d : 0 <= d <= 9 -> numeral [48 + d] d
| numeral_S l n d : numeral l n -> 0 <= d <= 9 -> numeral (l ++ [48 + d]) (10 * n + d).
Notation space := 32.
Definition int_max : Z := 2147483647.
(** A line: nothing but spaces; or spaces, a frame number, spaces and a field. *)
Inductive line {V} (field : list Z -> V -> Prop) : list Z -> option (Z * V) -> Prop :=
| line_blank k : line field (replicate k space) None
| line_entry k i src j rest v : numeral i src -> src <= int_max -> field rest v -> head rest <> Some space ->
    line field (replicate k space ++ i ++ replicate (S j) space ++ rest) (Some (src, v)).
(** The second field of a time map: a frame number and whatever, not a digit, may follow it *)
Definition frameField (rest : list Z) (v : Z) : Prop :=
  exists t tail, rest = t ++ tail /\ numeral t v /\ v <= int_max /\ match tail with c :: _ => ~ 48 <= c <= 57 | [] => True end.
(** A file of these lines; a line end at the end of the file makes the last of them empty. *)
Fixpoint text (ls : list (list Z)) : list Z :=
  match ls with [] => [] | [x] => x | x :: ls => x ++ 10 :: text ls end.
(** The entries of the file, and what the last one for a frame says *)
Definition entries {V} (es : list (option (Z * V))) : list (Z * V) := omap (fun e => e) es.
Definition latest {V} (es : list (Z * V)) (k : Z) : option V :=
  foldl (fun r e => if decide (e.1 = k) then Some e.2 else r) None es.
Definition rises {V} (m : list (Z * V)) : Prop := StronglySorted (fun a b => a.1 < b.1) m.
(** One word, between spaces at most before it *)
Definition lone (l : list Z) : Prop := exists k w, l = replicate k space ++ w /\ w <> [] /\ space ∉ w.

(** ** Proofs *)
Lemma lines_line x : 10 ∉ x -> lines x = [x].
Proof.
  induction x as [|c x IH]; [done|]. intros H. apply not_elem_of_cons in H as [H1 H2]. cbn [lines].
  destruct (Z.eqb_spec c 10); [congruence|]. by rewrite IH.
Qed.
Lemma lines_app x l : 10 ∉ x -> lines (x ++ 10 :: l) = x :: lines l.
Proof.
  induction x as [|c x IH]; [done|]. intros H. apply not_elem_of_cons in H as [H1 H2]. cbn [lines app].
  destruct (Z.eqb_spec c 10); [congruence|]. by rewrite IH.
Qed.
Lemma lines_text ls : ls <> [] -> Forall (fun l => 10 ∉ l) ls -> lines (text ls) = ls.
Proof.
  intros H F. induction F as [|x ls Hx F IH]; [done|]. destruct ls as [|y ls].
  - cbn [text]. by apply lines_line.
  - change (text (x :: y :: ls)) with (x ++ 10 :: text (y :: ls)). rewrite lines_app by done. by rewrite IH.
Qed.
Lemma lines_not_nil l : lines l <> [].
Proof. destruct l as [|c l]; [done|]. cbn [lines]. destruct (c =? 10); [done|]. by destruct (lines l). Qed.
Lemma text_lines l : text (lines l) = l /\ Forall (fun x => 10 ∉ x) (lines l).
Proof.
  induction l as [|c l [IH F]]; [split; [done|repeat constructor; apply not_elem_of_nil]|]. cbn [lines].
  pose proof (lines_not_nil l) as N. destruct (Z.eqb_spec c 10) as [->|Hc].
  - split; [|constructor; [apply not_elem_of_nil|done]]. destruct (lines l) as [|y ys]; [done|]. cbn [text app] in *. by rewrite IH.
  - destruct (lines l) as [|y ys]; [done|]. apply Forall_cons in F as [F1 F2].
    split; [|constructor; [apply not_elem_of_cons; auto|done]].
    destruct ys as [|z ys]; cbn [text app] in *; by rewrite IH.
Qed.

Definition sp (c : Z) : bool := c =? 32.
Lemma skip_spaces k l : head l <> Some 32 -> skip sp (replicate k 32 ++ l) = l.
Proof.
  intros H. induction k as [|k IH]; cbn [replicate app skip].
  - destruct l as [|c l]; [done|]. cbn [skip]. unfold sp. destruct (Z.eqb_spec c 32) as [->|]; [by destruct H|done].
  - done.
Qed.
Lemma skip_decomp l : exists k, l = replicate k 32 ++ skip sp l /\ head (skip sp l) <> Some 32.
Proof.
  induction l as [|c l (k & E & H)]; [by exists 0%nat|]. cbn [skip]. unfold sp at 1 3. destruct (Z.eqb_spec c 32) as [->|Hc].
  - exists (S k). cbn [replicate app]. by rewrite <- E.
  - exists 0%nat. split; [done|]. cbn. congruence.
Qed.
Lemma cut_word i r : 32 ∉ i -> cut (i ++ 32 :: r) = Some (i, 32 :: r).
Proof.
  induction i as [|c i IH]; [done|]. intros H. apply not_elem_of_cons in H as [H1 H2]. cbn [cut app].
  destruct (Z.eqb_spec c 32); [congruence|]. by rewrite IH.
Qed.
Lemma cut_none l : cut l = None <-> 32 ∉ l.
Proof.
  induction l as [|c l IH]; [split; [intros _; apply not_elem_of_nil|done]|]. cbn [cut]. rewrite not_elem_of_cons.
  destruct (Z.eqb_spec c 32) as [->|Hc]; [split; [done|by intros [? _]]|].
  destruct (cut l) as [[a b]|]; cbn; split; try done.
  - intros [_ H]. by apply IH in H.
  - intros _. split; [congruence|]. by apply IH.
Qed.

Lemma digits_app i : forall a tail, Forall (fun c => isdigit c = true) i -> digits a (i ++ tail) = digits (digits a i) tail.
Proof. induction i as [|c i IH]; intros a tail F; [done|]. apply Forall_cons in F as [F1 F2]. cbn [digits app]. rewrite F1. by apply IH. Qed.
Lemma numeral_digits i n : numeral i n -> Forall (fun c => isdigit c = true) i /\ i <> [] /\ 0 <= n /\ digits 0 i = n.
Proof.
  assert (forall d, 0 <= d <= 9 -> isdigit (48 + d) = true) as D by (intros d Hd; unfold isdigit; apply andb_true_intro; split; apply Z.leb_le; lia).
  induction 1 as [d Hd|l n d H (F & N & P & E) Hd].
  - repeat split; [repeat constructor; by apply D|done|lia|]. cbn [digits]. rewrite (D d Hd). lia.
  - split_and!; [apply Forall_app; split; [done|repeat constructor; by apply D]|by destruct l|lia|].
    rewrite digits_app by done. cbn [digits]. rewrite (D d Hd), E. lia.
Qed.
Lemma digit_other c : isdigit c = true -> isspace c = false /\ (c =? 45) = false /\ (c =? 43) = false /\ c <> 32 /\ c <> 10.
Proof.
  unfold isdigit, isspace. rewrite andb_true_iff, !Z.leb_le. intros [A B].
  split_and!; try (apply Z.eqb_neq; lia); try lia.
Qed.
Lemma atoi_numeral i n tail : numeral i n -> n <= int_max -> match tail with c :: _ => ~ 48 <= c <= 57 | [] => True end -> atoi (i ++ tail) = Some n.
Proof.
  intros H Hn Ht. destruct (numeral_digits _ _ H) as (F & N & P & E). unfold atoi.
  assert (digits 0 (i ++ tail) = n) as V.
  { rewrite digits_app, E by done. destruct tail as [|c tail]; [done|]. cbn [digits]. destruct (isdigit c) eqn:X; [|done].
    unfold isdigit in X. rewrite andb_true_iff, !Z.leb_le in X. done. }
  destruct i as [|c i]; [done|]. apply Forall_cons in F as [F1 _]. destruct (digit_other c F1) as (X1 & X2 & X3 & _).
  cbn [app] in *. cbn [skip]. rewrite X1, X2, X3, V.
  assert ((-2147483648 <=? n) && (n <=? 2147483647) = true) as -> by (apply andb_true_intro; split; apply Z.leb_le; unfold int_max in *; lia). done.
Qed.
Lemma size_small n : 0 <= n <= int_max -> toSize n = n.
Proof. intros H. apply Z.mod_small. unfold int_max in *. split; [lia|]. apply (Z.le_lt_trans _ 2147483647); [lia|reflexivity]. Qed.

(** *** The map *)
Lemma put_in {V} k (v : V) m : rises m -> forall k' v', (k', v') ∈ put k v m <-> if decide (k' = k) then v' = v else (k', v') ∈ m.
Proof.
  induction 1 as [|[a b] m Hm IH F]; intros k' v'; cbn [put].
  - rewrite elem_of_list_singleton. case_decide; [split; [by intros [= _ ->]|by intros ->; subst]|].
    split; [congruence|by intros ?%elem_of_nil].
  - destruct (Z.ltb_spec k a) as [L|L].
    + rewrite elem_of_cons. case_decide as D.
      * subst k'. split; [|by intros ->; left]. intros [[= ->]|X]; [done|]. exfalso.
        apply elem_of_cons in X as [[= -> _]|X]; [lia|]. rewrite Forall_forall in F. specialize (F _ X). cbn in F. lia.
      * split; [intros [X|X]; [congruence|exact X]|by right].
    + destruct (Z.eqb_spec k a) as [->|N].
      * rewrite !elem_of_cons. case_decide as D.
        -- subst k'. split; [|by intros ->; left]. intros [[= ->]|X]; [done|]. exfalso.
           rewrite Forall_forall in F. specialize (F _ X). cbn in F. lia.
        -- rewrite elem_of_cons. split; (intros [X|X]; [congruence|by right]).
      * rewrite !elem_of_cons, IH. case_decide as D.
        -- subst k'. split; [intros [X|X]; [congruence|exact X]|by right].
        -- by rewrite elem_of_cons.
Qed.
Lemma put_rises {V} k (v : V) m : rises m -> rises (put k v m).
Proof.
  induction 1 as [|[a b] m Hm IH F]; cbn [put]; [repeat constructor|].
  destruct (Z.ltb_spec k a) as [L|L].
  - constructor; [by constructor|]. constructor; [done|]. eapply Forall_impl; [exact F|]. cbn. intros x ?. lia.
  - destruct (Z.eqb_spec k a) as [->|N]; [by constructor|]. constructor; [done|].
    apply Forall_forall. intros [k' v'] X. apply (put_in k v m Hm) in X. cbn. case_decide; [lia|].
    rewrite Forall_forall in F. exact (F _ X).
Qed.
Lemma latest_snoc {V} (es : list (Z * V)) e k : latest (es ++ [e]) k = if decide (e.1 = k) then Some e.2 else latest es k.
Proof. unfold latest. by rewrite foldl_app. Qed.

Definition means {V} (m past : list (Z * V)) : Prop :=
  rises m /\ (forall k v, (k, v) ∈ m <-> latest past k = Some v).
Lemma means_put {V} (m past : list (Z * V)) k v : means m past -> means (put k v m) (past ++ [(k, v)]).
Proof.
  intros [A B]. split; [by apply put_rises|]. intros k' v'. rewrite (put_in k v m A), latest_snoc. cbn [fst snd].
  destruct (decide (k' = k)) as [->|N].
  - rewrite decide_True by done. split; [by intros ->|by intros [= ->]].
  - rewrite decide_False by done. apply B.
Qed.

Section Loop.
  Context {V : Type} (value : list Z -> option V) (field : list Z -> V -> Prop).
  Hypothesis agree : forall rest v, field rest v -> head rest <> Some space -> value rest = Some v.
  Lemma loop_line l e ls n m past : line field l e -> means m past ->
    exists m', loop value (l :: ls) n m = loop value ls (n + 1) m' /\ means m' (past ++ entries [e]).
  Proof.
    intros [k|k i src j rest v Hi Hs Hf Hh] M.
    - exists m. cbn [loop]. pose proof (skip_spaces k [] ltac:(done)) as E. rewrite app_nil_r in E. unfold sp in E. rewrite E.
      split; [done|]. cbn. by rewrite app_nil_r.
    - exists (put src v m). split; [|by apply means_put]. destruct (numeral_digits _ _ Hi) as (F & N & P & E).
      assert (32 ∉ i) as S32.
      { intros X. rewrite Forall_forall in F. apply F in X. by destruct (digit_other _ X) as (_ & _ & _ & ? & _). }
      cbn [loop]. pose proof (skip_spaces k (i ++ replicate (S j) 32 ++ rest)) as K. unfold sp in K. rewrite K.
      2:{ destruct i as [|c i]; [done|]. cbn. intros [= ->]. apply S32. left. }
      destruct (i ++ replicate (S j) 32 ++ rest) as [|c0 l0] eqn:El; [by destruct i|]. rewrite <- El.
      cbn [replicate app]. rewrite cut_word by done.
      pose proof (atoi_numeral i src [] Hi Hs I) as A. rewrite app_nil_r in A. rewrite A.
      pose proof (skip_spaces (S j) rest Hh) as K2. unfold sp in K2. cbn [replicate app] in K2. rewrite K2.
      rewrite (agree _ _ Hf Hh), size_small by lia. done.
  Qed.
  Lemma loop_lines ls es : Forall2 (line field) ls es -> forall ls' n m past, means m past ->
    exists m', loop value (ls ++ ls') n m = loop value ls' (n + Z.of_nat (length ls)) m' /\ means m' (past ++ entries es).
  Proof.
    induction 1 as [|l e ls es H F IH]; intros ls' n m past M.
    - exists m. cbn. rewrite Z.add_0_r, app_nil_r. done.
    - destruct (loop_line l e (ls ++ ls') n m past H M) as (m1 & E1 & M1).
      destruct (IH ls' (n + 1) m1 _ M1) as (m2 & E2 & M2). exists m2. split.
      + rewrite <- app_comm_cons, E1, E2. cbn [length]. f_equal. lia.
      + rewrite <- app_assoc in M2. replace (entries (e :: es)) with (entries [e] ++ entries es); [done|]. unfold entries. cbn. by destruct e.
  Qed.
  Lemma means_nil : means ([] : list (Z * V)) [].
  Proof. split; [constructor|]. intros k v. split; [by intros ?%elem_of_nil|done]. Qed.
  Lemma reads ls es : ls <> [] -> Forall (fun l => 10 ∉ l) ls -> Forall2 (line field) ls es ->
    exists m, readMap value (text ls) = Read m /\ means m (entries es).
  Proof.
    intros N F H. unfold readMap. rewrite lines_text by done.
    destruct (loop_lines ls es H [] 0 [] [] means_nil) as (m & E & M). rewrite app_nil_r in E. exists m. rewrite E. done.
  Qed.
  Lemma refuses ls es l ls' : Forall (fun l => 10 ∉ l) (ls ++ l :: ls') -> Forall2 (line field) ls es -> lone l ->
    readMap value (text (ls ++ l :: ls')) = Malformed (Z.of_nat (length ls)).
  Proof.
    intros F H (k & w & -> & W & S32). unfold readMap. rewrite lines_text by (by try destruct ls).
    destruct (loop_lines ls es H ((replicate k 32 ++ w) :: ls') 0 [] [] means_nil) as (m & E & M). rewrite E. cbn [loop].
    pose proof (skip_spaces k w) as K. unfold sp in K. rewrite K.
    2:{ destruct w; [done|]. cbn. intros [= ->]. apply S32. left. }
    destruct w as [|c w]; [done|]. apply cut_none in S32. rewrite S32. f_equal. 
  Qed.
  Lemma loop_malformed ls : forall n m k, loop value ls n m = Malformed k -> n <= k /\ exists l, ls !! Z.to_nat (k - n) = Some l /\ lone l /\ Forall (fun x => ~ lone x) (take (Z.to_nat (k - n)) ls).
  Proof.
    induction ls as [|l ls IH]; intros n m k; [done|]. cbn [loop].
    destruct (skip_decomp l) as (j & E & H). unfold sp in E, H.
    assert (forall n' m', ~ lone l -> loop value ls (n + 1) m' = Malformed k -> n' = n ->
      n <= k /\ exists x, (l :: ls) !! Z.to_nat (k - n) = Some x /\ lone x /\ Forall (fun x => ~ lone x) (take (Z.to_nat (k - n)) (l :: ls))) as Next.
    { intros n' m' NL X _. destruct (IH _ _ _ X) as (L & x & X1 & X2 & X3). split; [lia|]. exists x.
      replace (Z.to_nat (k - n)) with (S (Z.to_nat (k - (n + 1)))) by lia. split_and!; [done|done|]. cbn [take]. by constructor. }
    destruct (skip (fun c => c =? 32) l) as [|c w] eqn:Es.
    - intros X. apply (Next n m); try done. intros (k' & w & E' & W & S32).
      destruct w as [|c w]; [done|]. rewrite E', app_nil_r in E. 
      assert (c ∈ replicate j 32) as Y by (rewrite <- E; apply elem_of_app; right; left).
      apply elem_of_replicate in Y as [-> _]. apply S32. left.
    - destruct (cut (c :: w)) as [[a b]|] eqn:Ec.
      + destruct (atoi a); [|done]. destruct (value _); [|done]. intros X. eapply (Next n); [|exact X|done].
        intros (k' & w' & E' & W & S32). 
        assert (skip sp l = w') as Y. { rewrite E'. apply skip_spaces. destruct w' as [|c' w']; [done|]. cbn. intros [= ->]. apply S32. left. }
        unfold sp in Y. rewrite Es in Y. subst w'. apply cut_none in S32. by rewrite S32 in Ec.
      + intros [= <-]. split; [lia|]. exists l. rewrite Z.sub_diag. split_and!; [done| |constructor].
        exists j, (c :: w). split; [done|]. split; [done|]. by apply cut_none.
  Qed.
End Loop.

Lemma frame_agree rest v : frameField rest v -> head rest <> Some 32 -> toSize <$> atoi rest = Some v.
Proof.
  intros (t & tail & -> & H & L & T) _. rewrite (atoi_numeral t v tail H L T). cbn. f_equal. apply size_small.
  destruct (numeral_digits _ _ H) as (_ & _ & P & _). lia.
Qed.

(** ** C92 *)
(** A time map: every entry of every line is in the map and nothing else; for a source frame given
    more than once the last line counts; the lines may come in any order, with blank lines, and
    spaces before, between and after. *)
Theorem C92_time_map ls es : ls <> [] -> Forall (fun l => 10 ∉ l) ls -> Forall2 (line frameField) ls es ->
  exists m, timeMap (text ls) = Read m /\ rises m /\ (forall k v, (k, v) ∈ m <-> latest (entries es) k = Some v).
Proof. intros. apply (reads _ frameField frame_agree); done. Qed.
Print Assumptions C92_time_map.

(** Frequency and pitch maps, whatever the C library makes of the field; and the map is as C88
    requires of it. *)
Lemma rises_ascending (m : list (Z * Q)) : rises m -> forall lo, Forall (fun e => lo <= e.1) m -> Command.Spec.ascending lo m.
Proof.
  induction 1 as [|[a b] m Hm IH F]; intros lo L; [done|]. apply Forall_cons in L as [L1 L2]. cbn. split; [done|].
  apply IH. eapply Forall_impl; [exact F|]. cbn. intros x ?. lia.
Qed.
Definition ratioField (atof : list Z -> Q) (pow2 : Q -> Q) (pitch : bool) (rest : list Z) (v : Q) : Prop :=
  v = if pitch then pow2 (atof rest / 12)%Q else atof rest.
Lemma latest_in {V} (es : list (Z * V)) k v : latest es k = Some v -> (k, v) ∈ es.
Proof.
  induction es as [|[a b] es IH] using rev_ind; [done|]. rewrite latest_snoc, elem_of_app. cbn [fst snd].
  case_decide as D; [|by left; apply IH]. intros [= ->]. subst a. right. by left.
Qed.
Lemma entry_positive {V} (field : list Z -> V -> Prop) ls es : Forall2 (line field) ls es -> Forall (fun e => 0 <= e.1) (entries es).
Proof.
  induction 1 as [|l e ls es H F IH]; [constructor|]. destruct H as [k|k i src j rest v Hi Hs Hf Hh]; cbn; [exact IH|].
  constructor; [|exact IH]. cbn. by destruct (numeral_digits _ _ Hi) as (_ & _ & P & _).
Qed.
Theorem C92_freq_map atof pow2 pitch ls es : ls <> [] -> Forall (fun l => 10 ∉ l) ls -> Forall2 (line (ratioField atof pow2 pitch)) ls es ->
  exists m, freqMap atof pow2 pitch (text ls) = Read m /\ Command.Spec.ascending 0 m /\ (forall k v, (k, v) ∈ m <-> latest (entries es) k = Some v).
Proof.
  intros N F H. destruct (reads (fun rest => Some (if pitch then pow2 (atof rest / 12)%Q else atof rest)) (ratioField atof pow2 pitch)
    ltac:(intros rest v -> _; done) ls es N F H) as (m & E & R & M).
  exists m. split; [exact E|]. split; [|exact M]. apply rises_ascending; [done|].
  apply Forall_forall. intros [k v] X. apply M, latest_in in X. pose proof (entry_positive _ _ _ H) as P. rewrite Forall_forall in P. exact (P _ X).
Qed.
Print Assumptions C92_freq_map.

(** The program refuses a file at the first line with a single word on it; the number it states
    counts from 0. *)
Theorem C92_refused_time ls es l ls' : Forall (fun l => 10 ∉ l) (ls ++ l :: ls') -> Forall2 (line frameField) ls es -> lone l ->
  timeMap (text (ls ++ l :: ls')) = Malformed (Z.of_nat (length ls)).
Proof. apply (refuses _ frameField frame_agree). Qed.
Print Assumptions C92_refused_time.
Theorem C92_refused_only {V} (value : list Z -> option V) file n : readMap value file = Malformed n ->
  exists ls, text ls = file /\ Forall (fun l => 10 ∉ l) ls /\ 0 <= n /\
    exists l, ls !! Z.to_nat n = Some l /\ lone l /\ Forall (fun x => ~ lone x) (take (Z.to_nat n) ls).
Proof.
  intros H. exists (lines file). destruct (text_lines file) as [A B]. destruct (loop_malformed _ _ _ _ _ H) as (L & l & X).
  rewrite Z.sub_0_r in X. split_and!; [done|done|done|]. by exists l.
Qed.
Print Assumptions C92_refused_only.

(** What the program makes of other files is not checked: words, fractions, a missing target and
    negative frames are taken; a blank line with a carriage return and a tab are refused; the first
    line is line 0 in the message. *)
Definition bytes (s : String.string) : list Z := (fun a => Z.of_nat (Ascii.nat_of_ascii a)) <$> String.list_ascii_of_string s.
Section Texts.
Import String.
Local Open Scope string_scope.
Definition nl : string := String (Ascii.ascii_of_nat 10) "".
Definition cr : string := String (Ascii.ascii_of_nat 13) "".
Definition tab : string := String (Ascii.ascii_of_nat 9) "".
Definition good : string := "  44100 88200" ++ nl ++ nl ++ "100   150 about here" ++ nl ++ "   " ++ nl ++ "44100 90000" ++ nl.
Example C92_example : timeMap (bytes good) = Read [(100, 150); (44100, 90000)] /\
  (exists ls es, bytes good = text ls /\ ls <> [] /\ Forall (fun l => 10 ∉ l) ls /\ Datatypes.length ls = 6%nat /\ Forall2 (line frameField) ls es /\
    entries es = [(44100, 88200); (100, 150); (44100, 90000)]) /\
  lone (bytes "  4410") /\ timeMap (bytes (good ++ "  4410")) = Malformed 5.
Proof.
  split; [vm_compute; reflexivity|]. split.
  - assert (forall a b c d e, 0 <= a <= 9 -> 0 <= b <= 9 -> 0 <= c <= 9 -> 0 <= d <= 9 -> 0 <= e <= 9 ->
      numeral [48 + a; 48 + b; 48 + c; 48 + d; 48 + e] (10 * (10 * (10 * (10 * a + b) + c) + d) + e)) as N5.
    { intros. apply (numeral_S [48 + a; 48 + b; 48 + c; 48 + d]), H3. apply (numeral_S [48 + a; 48 + b; 48 + c]), H2.
      apply (numeral_S [48 + a; 48 + b]), H1. apply (numeral_S [48 + a]), H0. by constructor. }
    assert (forall a b c, 0 <= a <= 9 -> 0 <= b <= 9 -> 0 <= c <= 9 -> numeral [48 + a; 48 + b; 48 + c] (10 * (10 * a + b) + c)) as N3.
    { intros. apply (numeral_S [48 + a; 48 + b]), H1. apply (numeral_S [48 + a]), H0. by constructor. }
    exists (lines (bytes good)), [Some (44100, 88200); None; Some (100, 150); None; Some (44100, 90000); None].
    destruct (text_lines (bytes good)) as [T F]. split_and!; [done|apply lines_not_nil|done|vm_compute; reflexivity| |reflexivity].
    replace (lines (bytes good)) with (bytes <$> ["  44100 88200"; ""; "100   150 about here"; "   "; "44100 90000"; ""]) by (vm_compute; reflexivity).
    repeat (apply Forall2_cons; split || constructor).
    + apply (line_entry _ 2 (bytes "44100") 44100 0 (bytes "88200") 88200); [apply (N5 4 4 1 0 0); lia|done| |done].
      exists (bytes "88200"), []. split_and!; [done|apply (N5 8 8 2 0 0); lia|done|done].
    + apply (line_blank _ 0).
    + apply (line_entry _ 0 (bytes "100") 100 2 (bytes "150 about here") 150); [apply (N3 1 0 0); lia|done| |done].
      exists (bytes "150"), (bytes " about here"). split_and!; [done|apply (N3 1 5 0); lia|done|]. vm_compute. intros [X _]. by apply X.
    + apply (line_blank _ 3).
    + apply (line_entry _ 0 (bytes "44100") 44100 0 (bytes "90000") 90000); [apply (N5 4 4 1 0 0); lia|done| |done].
      exists (bytes "90000"), []. split_and!; [done|apply (N5 9 0 0 0 0); lia|done|done].
    + apply (line_blank _ 0).
    + constructor.
  - split; [|vm_compute; reflexivity]. exists 2%nat, (bytes "4410"). split_and!; [done|done|]. apply cut_none. vm_compute. reflexivity.
Qed.
Theorem C92_sense_refuted : exists words fraction missing negative crlf tabbed,
  timeMap (bytes words) = Read [(0, 0)] /\ words = "source target" /\
  timeMap (bytes fraction) = Read [(1, 3)] /\ fraction = "1.5 3e4" /\
  timeMap (bytes missing) = Read [(44100, 0)] /\ missing = "44100 " /\
  timeMap (bytes negative) = Read [(2 ^ 64 - 1, 5)] /\ negative = "-1 5" /\
  timeMap (bytes crlf) = Malformed 1 /\ crlf = "0 0" ++ cr ++ nl ++ cr ++ nl ++ "100 200" ++ cr ++ nl /\
  timeMap (bytes tabbed) = Malformed 0 /\ tabbed = "100" ++ tab ++ "200".
Proof.
  exists "source target", "1.5 3e4", "44100 ", "-1 5", ("0 0" ++ cr ++ nl ++ cr ++ nl ++ "100 200" ++ cr ++ nl), ("100" ++ tab ++ "200").
  split_and!; first [reflexivity | vm_compute; reflexivity].
Qed.
End Texts.
Print Assumptions C92_sense_refuted.
