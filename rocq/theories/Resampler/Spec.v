(** Specification for the resampler, independent of its phase tables, delay line
    and loops: textbook rational resampling of a stream of interleaved samples
    by [num/den]. *)
From stdpp Require Import prelude.
From Coq Require Import ZArith QArith Qround.
From Verif.Resampler Require Import Model.
Local Open Scope Z_scope.

(** The stream extended with zeros on both sides. *)
Definition stream_at {X} (z : X) (xs : list X) (t : Z) : X :=
  if t <? 0 then z else default z (xs !! Z.to_nat t).

(** What a conversion by [num/den] with a filter of [flen] taps is. *)
Record conversion := Conversion { cnum : Z; cden : Z; cflen : Z }.
Definition chalf (v : conversion) : Z := cflen v / 2.

(** Times are on a grid on which input frame [i] lies at [i*num], output frames
    lie [den] apart, and filter tap [j] at distance [j - half].  For an output
    frame at time [t], [first_input v t] is the first input frame the filter
    reaches. *)
Definition tap_index (v : conversion) (t i : Z) : Z := chalf v + i * cnum v - t.
Definition first_input (v : conversion) (t : Z) : Z := ceil_div (t - chalf v) (cnum v).
(** Number of input frames under the filter. *)
Definition taps_under (v : conversion) (t : Z) : Z :=
  ceil_div (t - chalf v + cflen v) (cnum v) - first_input v t.
(** The frames kept by a delay line made for this conversion; the last tap of
    some phases falls outside it. *)
Definition line_frames (v : conversion) : Z := 2 * (chalf v / cnum v) + 1.

(** Sample of channel [j] of an output frame at time [t]: the filter applied to
    the channel, over at most [w] input frames. *)
Definition sample (A : arith) (tap : Z -> T A) (mono : bool) (scale : Q) (v : conversion)
    (w ch : Z) (xs : list (T A)) (t j : Z) : T A :=
  let is := seqZ (first_input v t) (Z.min (taps_under v t) w) in
  fscale A scale (fdot A mono ((fun i => tap (tap_index v t i)) <$> is)
                              ((fun i => stream_at (zero A) xs (i * ch + j)) <$> is)).

(** Number of output frames from [n] input frames: while the stream goes on,
    those whose filter lies within the input so far; at its end, those up to the
    end of the input: exactly [n*num/den] if that is a whole number. *)
Definition frames_so_far (v : conversion) (n : Z) : Z :=
  let m := (n - chalf v / cnum v - 1) * cnum v + chalf v mod cnum v in
  if m <? 0 then 0 else m / cden v + 1.
Definition frames_at_end (v : conversion) (n : Z) : Z :=
  if (n * cnum v) mod cden v =? 0 then n * cnum v / cden v
  else (n * cnum v + chalf v mod cnum v) / cden v + 1.
Definition frames (v : conversion) (final : bool) (n : Z) : Z :=
  if final then frames_at_end v n else frames_so_far v n.

(** The interleaved output for a whole stream. *)
Definition converted (A : arith) (tap : Z -> T A) (mono : bool) (scale : Q) (v : conversion)
    (ch : Z) (final : bool) (xs : list (T A)) : list (T A) :=
  (fun s => sample A tap mono scale v (line_frames v) ch xs (s / ch * cden v) (s mod ch))
    <$> seqZ 0 (frames v final (zlen xs / ch) * ch).

(** The filter taps: the filter itself or, when ratios change often, the
    prototype of length [plen] interpolated. *)
Definition filter_tap (A : arith) (c : config) (p : params) (flen j : Z) : T A :=
  if fixed c then window A flen (peak_to_zero p) j
  else
    let qp := quality_params (qual c) in
    let plen := proto_p qp * p_multiple qp + 1 in
    let at_ i := if i <? plen then window A plen (inject_Z (proto_p qp)) i else zero A in
    let x := (inject_Z (plen - 1) / inject_Z (flen - 1) * inject_Z j)%Q in
    flerp A (x - inject_Z (Qfloor x))%Q (at_ (Qfloor x)) (at_ (Qfloor x + 1)).

(** The same with every tap of the filter applied. *)
Definition converted_full (A : arith) (tap : Z -> T A) (mono : bool) (scale : Q) (v : conversion)
    (ch : Z) (final : bool) (xs : list (T A)) : list (T A) :=
  (fun s => let t := s / ch * cden v in
            sample A tap mono scale v (taps_under v t) ch xs t (s mod ch))
    <$> seqZ 0 (frames v final (zlen xs / ch) * ch).
