(** Model of the built-in resampler: src/common/BQResampler.{h,cpp} and its
    wrapper D_BQResampler in src/common/Resampler.cpp.

    Sample arithmetic is a parameter ([arith]): nothing about it is assumed, so
    rounding of the audio arithmetic itself is covered.  The numbers that
    control the algorithm (ratios, lengths) are exact rationals and integers
    where the code has doubles and ints.  [None] is undefined behaviour: an
    index outside its array, a division by zero, an int conversion out of
    range, or (excluded by the theorems) exhausted fuel. *)
From stdpp Require Import prelude.
From Coq Require Import ZArith QArith Qround.
From Verif.MathMisc Require Import Model.
Local Open Scope Z_scope.
Set Default Proof Using "Type".

(** The audio arithmetic.  [fdot]: a sum of products (BQResampler.cpp:596-605,
    618; the flag is true for the v_multiply_and_sum variant).  [fscale]: line
    639.  [flerp]: lines 616-617.  [fmix count length old new]: lines 213-215
    for a non-zero length.  [nan]: a quotient by a zero length and all that is
    computed from it.  [window length peak_to_zero i]: the filter of
    make_filter, lines 246-348 and 447-475, whose values are not modelled. *)
Record arith := Arith {
  T : Type;
  zero : T;
  nan : T;
  fdot : bool -> list T -> list T -> T;
  fscale : Q -> T -> T;
  flerp : Q -> T -> T -> T;
  fmix : Z -> Z -> T -> T -> T;
  window : Z -> Q -> Z -> T }.

(** BQResampler.cpp:118-146 (the fields the modelled code uses). *)
Inductive quality := Fastest | FastestTolerable | Best.
Record qparams := QParams { p_multiple : Z; proto_p : Z; cut : Q; rational_max : Z }.
Definition quality_params (q : quality) : qparams :=
  match q with
  | Fastest => QParams 12 160 (9 # 10) 48000
  | FastestTolerable => QParams 62 160 (975 # 1000) 96000
  | Best => QParams 122 800 (995 # 1000) 192000
  end.

(** BQResampler.h:41-54 and 56, minus the debug level.  [fixed]:
    RatioMostlyFixed; [smooth]: SmoothRatioChange.  [fuel] bounds the rational
    search and is not in the code. *)
Record config := Config {
  qual : quality; fixed : bool; smooth : bool; initial_rate : Q; channels : Z;
  fuel : nat }.

(** BQResampler.h:85-94 ([effective] is [effective_of]). *)
Record params := Params {
  p_ratio : Q; numerator : Z; denominator : Z; peak_to_zero : Q; p_scale : Q }.
Definition params0 : params := Params 1%Q 1 1 0%Q 1%Q.
Definition effective_of (p : params) : Q := frac (numerator p) (denominator p).

(** BQResampler.h:96-102 *)
Record phase_rec := PhaseRec { next_phase : Z; ph_length : Z; start_index : Z; ph_drop : Z }.

(** C's round() and int(ceil(a / b)); the latter's operands are ints, for which
    the double quotient has the right ceiling. *)
Definition roundQ (q : Q) : Z :=
  if Qlt_le_dec q 0 then - Qfloor (- q + (1 # 2))%Q else Qfloor (q + (1 # 2))%Q.
Definition ceil_div (a b : Z) : Z := - ((- a) / b).
Definition int_max : Z := 2 ^ 31 - 1.

Definition zlen {A} (l : list A) : Z := Z.of_nat (length l).
Definition getZ {A} (l : list A) (i : Z) : option A :=
  if i <? 0 then None else l !! Z.to_nat i.
Definition setZ {A} (l : list A) (i : Z) (x : A) : option (list A) :=
  if (0 <=? i) && (i <? zlen l) then Some (<[Z.to_nat i := x]> l) else None.

(** BQResampler.cpp:238-244, for the arguments fill_params gives it; [None] on
    a zero second argument. *)
Fixpoint gcd_loop (f : nat) (a b : Z) : option Z :=
  match f with
  | O => None
  | S f => if b =? 0 then None
           else let c := Z.rem a b in if c =? 0 then Some b else gcd_loop f b c
  end.
(** A round of the loop at least halves every second remainder, so
    2*log2(b)+3 rounds are enough. *)
Definition gcd (a b : Z) : option Z := gcd_loop (Z.to_nat (2 * Z.log2 b + 3)) a b.

Section Model.
Context (A : arith) (c : config).
Notation T := (T A).
Definition qp : qparams := quality_params (qual c).
Notation ch := (channels c).

(** BQResampler.cpp:350-376 *)
Definition fill_params (ratio : Q) (num denom : Z) : option params :=
  g ← gcd num denom;
  if g =? 0 then None else
  let n := Z.quot num g in
  let d := Z.quot denom g in
  let ptz := (inject_Z (Z.max d n) / cut qp)%Q in
  Some (Params ratio n d ptz (inject_Z n / ptz)%Q).

(** BQResampler.cpp:378-393 *)
Definition pick_params (ratio : Q) : option params :=
  let max_denom :=
    if fixed c then 192000
    else if Qlt_le_dec 1 ratio then Qceiling (inject_Z (rational_max qp) / ratio)%Q
    else rational_max qp in
  '(num, denom) ← pickNearestRational (fuel c) ratio max_denom;
  fill_params ratio num denom.

(** BQResampler.cpp:407-420.  The loop on line 409 is the remainder, for a
    positive spacing. *)
Definition phase_rec_for (filter_len num den p : Z) : phase_rec :=
  PhaseRec ((p - den) mod num) (ceil_div (filter_len - p) num) 0
           (ceil_div (Z.max 0 (den - p)) num).
Definition phase_table (filter_len num den : Z) : list phase_rec :=
  phase_rec_for filter_len num den <$> seqZ 0 num.

(** BQResampler.cpp:432-443 *)
Definition set_start (r : phase_rec) (s : Z) : phase_rec :=
  PhaseRec (next_phase r) (ph_length r) s (ph_drop r).
Fixpoint sort_loop (f : nat) (filter : list T) (num initial p : Z)
    (tbl : list phase_rec) (sorted : list T) : option (list phase_rec * list T) :=
  match f with
  | O => None
  | S f =>
    ph ← getZ tbl p;
    tbl' ← setZ tbl p (set_start ph (zlen sorted));
    vals ← mapM (fun i => getZ filter (i * num + p)) (seqZ 0 (ph_length ph));
    let p' := next_phase ph in
    if p' =? initial then Some (tbl', sorted ++ vals)
    else sort_loop f filter num initial p' tbl' (sorted ++ vals)
  end.

(** BQResampler.cpp:447-475, for the values see [window].  All the code paths
    return filter_length values. *)
Definition make_filter (filter_len : Z) (ptz : Q) : list T :=
  window A filter_len ptz <$> seqZ 0 filter_len.

(** BQResampler.cpp:395-445: the phase records and the sorted filter; [old] is
    what the sorted filter held before (it stays when ratios change often). *)
Definition phase_data_for (filter_len : Z) (ptz : Q) (initial num den : Z) (old : list T)
    : option (list phase_rec * list T) :=
  let tbl := phase_table filter_len num den in
  if fixed c then
    sort_loop (Z.to_nat num) (make_filter filter_len ptz) num initial initial tbl []
  else Some (tbl, old).

(** BQResampler.h:106-120 *)
Record state := State {
  parameters : params; initial_phase : Z; current_phase : Z; current_channel : Z;
  filter_length : Z; phase_info : list phase_rec; sorted_filter : list T;
  buffer : list T; left : Z; centre : Z; fill : Z }.
Definition state0 : state := State params0 0 0 0 0 [] [] [] 0 0 0.

(** BQResampler.cpp:485-490 *)
Definition filter_length_for (p : params) : Z :=
  let l := Qfloor (peak_to_zero p * inject_Z (p_multiple qp) + 1)%Q in
  if Z.even l then l + 1 else l.

(** BQResampler.cpp:560-567: the loop over [i]; [xs] are the elements of the old
    buffer from [i] on, up to its fill. *)
Fixpoint transfer (xs : list T) (i prev_centre new_centre len : Z) (buf : list T) (fl : Z)
    : list T * Z :=
  match xs with
  | [] => (buf, fl)
  | x :: xs =>
    let ix := i - prev_centre + new_centre in
    if (0 <=? ix) && (ix <? len)
    then transfer xs (i + 1) prev_centre new_centre len (<[Z.to_nat ix := x]> buf) (ix + 1)
    else transfer xs (i + 1) prev_centre new_centre len buf fl
  end.

(** BQResampler.cpp:477-580 *)
Definition state_for_ratio (target : state) (ratio : Q) (prev : state) : option state :=
  p ← pick_params ratio;
  let flen := filter_length_for p in
  if (int_max <? flen) || (int_max <? numerator p) then None else
  let half := flen `div` 2 in
  let num := numerator p in
  if num =? 0 then None else
  let initial := half `mod` num in
  '(info, sorted) ← phase_data_for flen (peak_to_zero p) initial num (denominator p)
                      (sorted_filter target);
  let bleft := half `div` num in
  let blen := Z.max (2 * bleft + 1) (zlen (buffer prev) `div` ch) in
  let cen := blen `div` 2 in
  let lft := cen - bleft in
  let n := blen * ch in
  if zlen (buffer prev) =? 0 then
    Some (State p initial initial (current_channel target) flen info sorted
            (replicate (Z.to_nat n) (zero A)) (lft * ch) (cen * ch) (cen * ch))
  else
    let '(buf, fl) :=
      if zlen (buffer prev) =? n then (buffer prev, fill prev)
      else transfer (take (Z.to_nat (fill prev)) (buffer prev)) 0 (centre prev) (cen * ch) n
             (replicate (Z.to_nat n) (zero A)) (cen * ch) in
    let n_phases := zlen info in
    let phases_then := zlen (phase_info prev) in
    if phases_then =? 0 then None else
    let cur := roundQ (inject_Z n_phases * (inject_Z (current_phase prev) / inject_Z phases_then))%Q in
    Some (State p initial (if n_phases <=? cur then n_phases - 1 else cur) (current_channel target)
            flen info sorted buf (lft * ch) (cen * ch) fl).

(** BQResampler.cpp:64-72: the prototype filter, one zero appended. *)
Definition proto_length : Z := proto_p qp * p_multiple qp + 1.
Definition prototype : list T := make_filter proto_length (inject_Z (proto_p qp)) ++ [zero A].

(** BQResampler.cpp:608-617: one interpolated filter value. *)
Definition proto_value (flen filter_index : Z) : option T :=
  if flen - 1 =? 0 then None else
  let proto_index := (inject_Z (proto_length - 1) / inject_Z (flen - 1) * inject_Z filter_index)%Q in
  let iix := Qfloor proto_index in
  a ← getZ prototype iix;
  b ← getZ prototype (iix + 1);
  Some (flerp A (proto_index - inject_Z iix)%Q a b).

(** BQResampler.cpp:582-640 *)
Definition reconstruct_one (s : state) : option (T * state) :=
  pr ← getZ (phase_info s) (current_phase s);
  let n := Z.min (ph_length pr) ((zlen (buffer s) - left s) `quot` ch) in
  taps ← mapM (fun i => if fixed c then getZ (sorted_filter s) (start_index pr + i)
                        else proto_value (filter_length s)
                               (i * numerator (parameters s) + current_phase s)) (seqZ 0 n);
  xs ← mapM (fun i => getZ (buffer s) (left s + i * ch + current_channel s)) (seqZ 0 n);
  let y := fscale A (p_scale (parameters s)) (fdot A (fixed c && (ch =? 1)) taps xs) in
  let cc := (current_channel s + 1) `rem` ch in
  if cc =? 0 then
    let drop_n := ph_drop pr * ch in
    if (0 <=? drop_n) && (drop_n <=? zlen (buffer s)) then
      Some (y, State (parameters s) (initial_phase s) (next_phase pr) cc (filter_length s)
                 (phase_info s) (sorted_filter s)
                 (drop (Z.to_nat drop_n) (buffer s) ++ replicate (Z.to_nat drop_n) (zero A))
                 (left s) (centre s) (fill s - drop_n))
    else None
  else
    Some (y, State (parameters s) (initial_phase s) (current_phase s) cc (filter_length s)
               (phase_info s) (sorted_filter s) (buffer s) (left s) (centre s) (fill s)).

Definition set_buffer (s : state) (b : list T) (f : Z) : state :=
  State (parameters s) (initial_phase s) (current_phase s) (current_channel s) (filter_length s)
    (phase_info s) (sorted_filter s) b (left s) (centre s) f.

(** BQResampler.cpp:189-191 and 207-209: take input while the delay line has
    room; what is left of the input is returned. *)
Fixpoint take_input (s : state) (ins : list T) : option (state * list T) :=
  match ins with
  | [] => Some (s, [])
  | x :: rest =>
    if fill s <? zlen (buffer s) then
      b ← setZ (buffer s) (fill s) x;
      take_input (set_buffer s b (fill s + 1)) rest
    else Some (s, ins)
  end.

(** BQResampler.cpp:192-201: whether another sample can be made. *)
Definition ready (final : bool) (s : state) : bool :=
  (fill s =? zlen (buffer s)) ||
  (final && (centre s <? fill s)) ||
  (final && (fill s =? centre s) && negb (current_phase s =? initial_phase s)).

(** BQResampler.cpp:188-202; [n] is the output space left, in samples.  The
    unread input is returned. *)
Fixpoint main_loop (n : nat) (final : bool) (s : state) (ins : list T)
    : option (list T * state * list T) :=
  match n with
  | O => Some ([], s, ins)
  | S n =>
    '(s1, rest) ← take_input s ins;
    if ready final s1 then
      '(y, s2) ← reconstruct_one s1;
      '(ys, s3, rest') ← main_loop n final s2 rest;
      Some (y :: ys, s3, rest')
    else Some ([], s1, rest)
  end.

(** BQResampler.cpp:204-224: mix what was written with the old-ratio signal. *)
Fixpoint fade_loop (s : state) (count flen : Z) (ins outs : list T)
    : option (list T * state * Z) :=
  match outs with
  | [] => Some ([], s, count)
  | y :: ys =>
    if 0 <? count then
      '(s1, rest) ← take_input s ins;
      if fill s1 =? zlen (buffer s1) then
        '(r, s2) ← reconstruct_one s1;
        let y' := if flen =? 0 then nan A else fmix A count flen r y in
        let count' := if current_channel s2 =? 0 then count - 1 else count in
        '(ys', s3, count'') ← fade_loop s2 count' flen rest ys;
        Some (y' :: ys', s3, count'')
      else Some (outs, s1, count)
    else Some (outs, s, count)
  end.

(** BQResampler.h:122-132.  [cur] and [old] are what m_s and m_fade point to. *)
Record bq := BQ { cur : state; old : state; fade_count : Z; initialised : bool }.

(** BQResampler.cpp:46-86 *)
Definition construct : bq := BQ state0 state0 0 false.

(** BQResampler.cpp:111-116 *)
Definition reset (b : bq) : bq := BQ (cur b) (old b) 0 false.

(** BQResampler.cpp:156-163 *)
Definition fade_length (incount outspace : Z) (ratio : Q) : Z :=
  let l := Z.max 6 (roundQ (initial_rate c / 1000)%Q) in
  Z.min l (Z.min outspace (Qfloor (inject_Z incount * ratio)%Q) `quot` 2).

(** BQResampler.cpp:165-180 *)
Definition prepare (b : bq) (ratio : Q) (flen : Z) : option bq :=
  if negb (initialised b) then
    s ← state_for_ratio (cur b) ratio (old b);
    Some (BQ s (old b) (fade_count b) true)
  else if Qeq_bool ratio (p_ratio (parameters (cur b))) then Some b
  else
    s ← state_for_ratio (old b) ratio (cur b);
    Some (BQ s (cur b) (if smooth c then flen else fade_count b) true).

(** BQResampler.cpp:148-227.  [ins] is the interleaved input, [outspace] in
    frames.  The samples written are returned; the code returns their number
    divided by the channel count. *)
Definition resampleInterleaved (b : bq) (outspace : Z) (ins : list T) (ratio : Q) (final : bool)
    : option (list T * bq) :=
  if ch =? 0 then None else
  let incount := zlen ins `quot` ch in
  let flen := fade_length incount outspace ratio in
  b1 ← prepare b ratio flen;
  '(outs, s, _) ← main_loop (Z.to_nat (outspace * ch)) final (cur b1) ins;
  '(outs', f, n) ← fade_loop (old b1) (fade_count b1) flen ins outs;
  Some (outs', BQ s f n true).

(** BQResampler.cpp:229-236 *)
Definition getEffectiveRatio (b : bq) (ratio : Q) : option Q :=
  if initialised b && Qeq_bool ratio (p_ratio (parameters (cur b)))
  then Some (effective_of (parameters (cur b)))
  else effective_of <$> pick_params ratio.

(** The object as a machine: one call of its interface at a time. *)
Inductive op :=
| Resample (ins : list T) (outspace : Z) (ratio : Q) (final : bool)
| Reset.
Definition step (b : bq) (o : op) : option (list T * bq) :=
  match o with
  | Resample ins outspace ratio final => resampleInterleaved b outspace ins ratio final
  | Reset => Some ([], reset b)
  end.
(** The outputs of a sequence of calls, one list per call. *)
Fixpoint run (b : bq) (ops : list op) : option (list (list T) * bq) :=
  match ops with
  | [] => Some ([], b)
  | o :: ops =>
    '(ys, b1) ← step b o;
    '(yss, b2) ← run b1 ops;
    Some (ys :: yss, b2)
  end.

End Model.

Arguments State {_}. Arguments parameters {_}. Arguments initial_phase {_}.
Arguments current_phase {_}. Arguments current_channel {_}. Arguments filter_length {_}.
Arguments phase_info {_}. Arguments sorted_filter {_}. Arguments buffer {_}.
Arguments left {_}. Arguments centre {_}. Arguments fill {_}. Arguments state0 {_}.
Arguments BQ {_}. Arguments cur {_}. Arguments old {_}. Arguments fade_count {_}.
Arguments initialised {_}. Arguments construct {_}. Arguments reset {_}.
Arguments Resample {_}. Arguments Reset {_}.

(** VectorOps.h:745-771 and 788-814: interleaving [count] frames of [n]
    channels and back.  A missing channel or sample is out of bounds. *)
Definition v_interleave {X} (src : list (list X)) (count : Z) : option (list X) :=
  mjoin <$> mapM (fun i => mapM (fun ch => getZ ch i) src) (seqZ 0 count).
Definition v_deinterleave {X} (src : list X) (n count : Z) : option (list (list X)) :=
  mapM (fun j => mapM (fun i => getZ src (i * n + j)) (seqZ 0 count)) (seqZ 0 n).

(** Resampler.cpp:876-904: D_BQResampler::resample on [incount] frames.  The
    staging buffers grow as needed before use; their sizes are not modelled. *)
Definition resample (A : arith) (c : config) (b : bq A) (outspace : Z) (src : list (list (T A)))
    (incount : Z) (ratio : Q) (final : bool) : option (list (list (T A)) * bq A) :=
  if channels c =? 1 then
    x ← getZ src 0;
    '(ys, b') ← resampleInterleaved A c b outspace (take (Z.to_nat incount) x) ratio final;
    Some ([ys], b')
  else
    ins ← v_interleave src incount;
    '(ys, b') ← resampleInterleaved A c b outspace ins ratio final;
    outs ← v_deinterleave ys (channels c) (zlen ys `quot` channels c);
    Some (outs, b').
