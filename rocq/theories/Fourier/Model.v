(** The two Fourier transforms that come with the library: the built-in fast one for sizes
    that are powers of two (common/FFT.cpp:1947-2304, D_Builtin) and the plain one for all
    other sizes (common/FFT.cpp:2308-2559, D_DFT), and the change to polar form and back
    (common/VectorOpsComplex.h). Over the real numbers in place of doubles; the pairs of arrays
    for real and imaginary parts are one list of pairs; an access outside an array gives None. *)
From Coq Require Import ZArith Reals.
From stdpp Require Import list.
Local Open Scope R_scope.

Definition C : Type := R * R.
Definition cadd (a b : C) : C := (fst a + fst b, snd a + snd b).
Definition csub (a b : C) : C := (fst a - fst b, snd a - snd b).
Definition cmul (a b : C) : C := (fst a * fst b - snd a * snd b, fst a * snd b + snd a * fst b).
Definition conj (a : C) : C := (fst a, - snd a).

(** A write to an element of an array. *)
Definition put {A} (l : list A) (i : nat) (v : A) : option (list A) :=
  if decide (i < length l)%nat then Some (<[i := v]> l) else None.

(** for (int i = a; i < a + n; ++i) *)
Fixpoint loop {A} (n a : nat) (f : nat -> A -> option A) (s : A) : option A :=
  match n with O => Some s | S n => s ← f a s; loop n (S a) f s end.

(** ** Tables *)

(** FFT.cpp:2129-2134: the lowest bit that is set; from the 32nd on the shift is undefined. *)
Fixpoint lowestBit (fuel i n : nat) : option nat :=
  match fuel with
  | O => None
  | S fuel => if Nat.odd (n / 2 ^ i) then Some i else lowestBit fuel (S i) n
  end.

(** FFT.cpp:2137-2141 *)
Fixpoint revLoop (bits m k : nat) : nat :=
  match bits with O => k | S bits => revLoop bits (m / 2) (2 * k + m mod 2) end%nat.

(** FFT.cpp:2127-2143 *)
Definition bitTable (n : nat) : option (list nat) :=
  bits ← lowestBit 31 0 n; Some ((fun i => revLoop bits i 0) <$> seq 0 n).

(** FFT.cpp:2145-2153 with m_blockTableSize = 16: i = 2, 4, ... 65536. *)
Definition sincosEntry (s : nat) : list R :=
  let phase := 2 * PI / IZR (2 ^ Z.of_nat (S s)) in
  [sin phase; sin (2 * phase); cos phase; cos (2 * phase)].
Definition sincosTable : list R := mjoin (sincosEntry <$> seq 0 16).

(** FFT.cpp:2155-2161 *)
Definition sincosR (half : nat) : list R :=
  mjoin ((fun i : nat =>
    let phase := PI * (INR (i + 1) / INR half + 1 / 2) in [sin phase; cos phase]) <$> seq 0 (half / 2)).

(** ** The complex transform *)

(** FFT.cpp:2237-2241 *)
Definition scatter (table : list nat) (inp out : list C) (n : nat) : option (list C) :=
  loop n 0 (fun i out => j ← table !! i; v ← inp !! i; put out j v) out.

(** ar[1], ai[1] and ar[2], ai[2] *)
Record tw := Tw { t1 : C; t2 : C }.

(** FFT.cpp:2279-2297, with j = i + m. *)
Definition butterfly (w : R) (blockEnd i m : nat) (st : tw * list C) : option (tw * list C) :=
  let '(t, l) := st in
  let a0 := (w * fst (t1 t) - fst (t2 t), w * snd (t1 t) - snd (t2 t)) in
  let t := Tw a0 (t1 t) in
  let j := (i + m)%nat in
  let k := (j + blockEnd)%nat in
  y ← l !! k;
  let tr := fst a0 * fst y - snd a0 * snd y in
  let ti := fst a0 * snd y + snd a0 * fst y in
  x ← l !! j;
  l ← put l k (fst x - tr, snd x - ti);
  x ← l !! j;
  l ← put l j (fst x + tr, snd x + ti);
  Some (t, l).

(** FFT.cpp:2264-2298: one block, from i. *)
Definition oneBlock (sm1 sm2 cm1 cm2 : R) (blockEnd i : nat) (l : list C) : option (list C) :=
  '(_, l) ← loop blockEnd 0 (butterfly (2 * cm1) blockEnd i) (Tw (cm1, sm1) (cm2, sm2), l);
  Some l.

(** FFT.cpp:2267: for (i = 0; i < n; i += blockSize), counted. *)
Definition oneStage (sm1 sm2 cm1 cm2 : R) (n blockEnd blockSize : nat) (l : list C) : option (list C) :=
  loop ((n + blockSize - 1) / blockSize) 0
    (fun q => oneBlock sm1 sm2 cm1 cm2 blockEnd (q * blockSize)) l.

(** FFT.cpp:2245-2262: from the table, or for blocks beyond it anew. *)
Definition angles (inverse : bool) (ix : nat) (blockSize : nat) : option (R * R * R * R * nat) :=
  let ifactor := if inverse then -1 else 1 in
  if (Z.of_nat blockSize <=? 2 ^ 16)%Z
  then a ← sincosTable !! ix; b ← sincosTable !! (ix + 1)%nat;
       c ← sincosTable !! (ix + 2)%nat; d ← sincosTable !! (ix + 3)%nat;
       Some (ifactor * a, ifactor * b, c, d, (ix + 4)%nat)
  else let phase := 2 * PI / INR blockSize in
       Some (ifactor * sin phase, ifactor * sin (2 * phase), cos phase, cos (2 * phase), ix).

(** FFT.cpp:2243-2302 *)
Fixpoint stages (fuel : nat) (inverse : bool) (n ix blockEnd blockSize : nat) (l : list C)
  : option (list C) :=
  match fuel with
  | O => None
  | S fuel =>
      if decide (blockSize <= n)%nat
      then '(sm1, sm2, cm1, cm2, ix) ← angles inverse ix blockSize;
           l ← oneStage sm1 sm2 cm1 cm2 n blockEnd blockSize l;
           stages fuel inverse n ix blockSize (2 * blockSize) l
      else Some l
  end.

(** FFT.cpp:2227-2303; [out] is what the output arrays held before. *)
Definition transformComplex (inverse : bool) (n : nat) (inp out : list C) : option (list C) :=
  table ← bitTable n;
  out ← scatter table inp out n;
  stages (S n) inverse n 0 1 2 out.

(** ** The real transform *)

(** FFT.cpp:2170-2173: neighbouring samples become one complex number. *)
Definition pack (half : nat) (ri : list R) (ab : list C) : option (list C) :=
  loop half 0 (fun i ab => a ← ri !! (i * 2)%nat; b ← ri !! (i * 2 + 1)%nat; put ab i (a, b)) ab.

(** FFT.cpp:2180-2192 *)
Definition postStep (half : nat) (v : list C) (i : nat) (o : list C) : option (list C) :=
  s ← sincosR half !! (2 * i)%nat; c ← sincosR half !! (2 * i + 1)%nat;
  let s := - s in
  let k := (i + 1)%nat in
  p ← v !! k; q ← v !! (half - k)%nat;
  let r0 := fst p in let i0 := snd p in let r1 := fst q in let i1 := - snd q in
  let tw_r := (r0 - r1) * c - (i0 - i1) * s in
  let tw_i := (r0 - r1) * s + (i0 - i1) * c in
  o ← put o k ((r0 + r1 + tw_r) * (1 / 2), (i0 + i1 + tw_i) * (1 / 2));
  put o (half - k)%nat ((r0 + r1 - tw_r) * (1 / 2), (tw_i - i0 - i1) * (1 / 2)).

(** FFT.cpp:2166-2194. [ab], [v] and [o] are what m_a/m_b, m_vr/m_vi and the output held before.
    (m_a and m_b have one element more than is used here.) *)
Definition transformF (half : nat) (ab v o : list C) (ri : list R) : option (list C) :=
  ab ← pack half ri (take half ab);
  v ← transformComplex false half ab v;
  p ← v !! 0%nat;
  o ← put o 0%nat (fst p + snd p, 0);
  o ← put o half (fst p - snd p, 0);
  loop (half / 2) 0 (postStep half v) o.

(** FFT.cpp:2206-2218 *)
Definition preStep (half : nat) (y : list C) (i : nat) (v : list C) : option (list C) :=
  s ← sincosR half !! (2 * i)%nat; c ← sincosR half !! (2 * i + 1)%nat;
  let k := (i + 1)%nat in
  p ← y !! k; q ← y !! (half - k)%nat;
  let r0 := fst p in let r1 := fst q in let i0 := snd p in let i1 := - snd q in
  let tw_r := (r0 - r1) * c - (i0 - i1) * s in
  let tw_i := (r0 - r1) * s + (i0 - i1) * c in
  v ← put v k (r0 + r1 + tw_r, i0 + i1 + tw_i);
  put v (half - k)%nat (r0 + r1 - tw_r, tw_i - i0 - i1).

(** FFT.cpp:2221-2224 *)
Definition unpack (half : nat) (c : list C) (ro : list R) : option (list R) :=
  loop half 0 (fun i ro => z ← c !! i; ro ← put ro (i * 2)%nat (fst z); put ro (i * 2 + 1)%nat (snd z)) ro.

(** FFT.cpp:2198-2225. [v], [cd], [ro]: what m_vr/m_vi, m_c/m_d and the output held before.
    (m_c and m_d have one element more than is used here.) *)
Definition transformI (half : nat) (v cd : list C) (ro : list R) (y : list C) : option (list R) :=
  p ← y !! 0%nat; q ← y !! half;
  v ← put v 0%nat (fst p + fst q, fst p - fst q);
  v ← loop (half / 2) 0 (preStep half y) v;
  cd ← transformComplex true half v (take half cd);
  unpack half cd ro.

(** ** The plain transform *)

(** FFT.cpp:2320-2326 *)
Definition arg (size i j : nat) : R := INR i * INR j * PI * 2 / INR size.

Fixpoint accumulate (n j : nat) (f : nat -> option R) (acc : R) : option R :=
  match n with O => Some acc | S n => v ← f j; accumulate n (S j) f (acc + v) end.

(** FFT.cpp:2337-2345 *)
Definition dftForward (size : nat) (ri : list R) (o : list C) : option (list C) :=
  loop (size / 2 + 1) 0
    (fun i o =>
       re ← accumulate size 0 (fun j => x ← ri !! j; Some (x * cos (arg size i j))) 0;
       im ← accumulate size 0 (fun j => x ← ri !! j; Some (- (x * sin (arg size i j)))) 0;
       put o i (re, im)) o.

(** FFT.cpp:2375-2382: the upper half is the mirror image. *)
Definition mirror (size : nat) (y tmp : list C) : option (list C) :=
  let bins := (size / 2 + 1)%nat in
  tmp ← loop bins 0 (fun i tmp => z ← y !! i; put tmp i z) tmp;
  loop (size - bins) bins (fun i tmp => z ← y !! (size - i)%nat; put tmp i (conj z)) tmp.

(** FFT.cpp:2374-2391 *)
Definition dftInverse (size : nat) (tmp : list C) (y : list C) (ro : list R) : option (list R) :=
  tmp ← mirror size y tmp;
  loop size 0
    (fun i ro =>
       re ← accumulate size 0 (fun j => z ← tmp !! j; Some (fst z * cos (arg size i j))) 0;
       re ← accumulate size 0 (fun j => z ← tmp !! j; Some (- (snd z * sin (arg size i j)))) re;
       put ro i re) ro.

(** ** Polar form *)

(** The library function atan2. *)
Definition atan2 (y x : R) : R :=
  if Rlt_dec 0 x then atan (y / x)
  else if Rlt_dec x 0 then (if Rle_dec 0 y then atan (y / x) + PI else atan (y / x) - PI)
  else if Rlt_dec 0 y then PI / 2 else if Rlt_dec y 0 then - (PI / 2) else 0.

(** VectorOpsComplex.h:68-73 (c_magphase) *)
Definition toPolar (z : C) : C := (R_sqrt.sqrt (fst z * fst z + snd z * snd z), atan2 (snd z) (fst z)).
(** VectorOpsComplex.h:95-107 (v_polar_to_cartesian) *)
Definition toCartesian (z : C) : C := (cos (snd z) * fst z, sin (snd z) * fst z).

(** FFT.cpp:2007-2011, into m_c and m_d and from there to magnitudes and phases. *)
Definition forwardPolar (half : nat) (ab v cd : list C) (ri : list R) : option (list C) :=
  cd ← transformF half ab v cd ri; Some (map toPolar cd).
(** FFT.cpp:2056-2060 *)
Definition inversePolar (half : nat) (v cd : list C) (ro : list R) (mp : list C) : option (list R) :=
  transformI half v cd ro (map toCartesian mp).
(** FFT.cpp:2357-2363 and 2412-2417: the same for the plain transform. *)
Definition dftForwardPolar (size : nat) (ri : list R) (o : list C) : option (list C) :=
  o ← dftForward size ri o; Some (map toPolar o).
Definition dftInversePolar (size : nat) (tmp mp : list C) (ro : list R) : option (list R) :=
  dftInverse size tmp (map toCartesian mp) ro.

(** ** Which one *)
Inductive implementation := Builtin | Plain.
(** FFT.cpp:2593-2646 (pickImplementation) in a build without other libraries and with no default
    set: the built-in one where the size is even, a power of two and at least 4, else the plain one. *)
Definition pick (size : Z) : implementation :=
  if (Z.land size (size - 1) =? 0)%Z && negb (size <? 4)%Z && Z.even size then Builtin else Plain.

(** FFT::forward and FFT::inverse with the chosen implementation; [m] is the memory of the object
    and of the output before the call. *)
Record memory := Memory { m_ab : list C; m_v : list C; m_cd : list C; m_tmp : list C }.
Definition fftForward (size : nat) (m : memory) (o : list C) (ri : list R) : option (list C) :=
  match pick (Z.of_nat size) with
  | Builtin => transformF (size / 2) (m_ab m) (m_v m) o ri
  | Plain => dftForward size ri o
  end.
Definition fftInverse (size : nat) (m : memory) (ro : list R) (y : list C) : option (list R) :=
  match pick (Z.of_nat size) with
  | Builtin => transformI (size / 2) (m_v m) (m_cd m) ro y
  | Plain => dftInverse size (m_tmp m) y ro
  end.
Definition fftForwardPolar (size : nat) (m : memory) (o : list C) (ri : list R) : option (list C) :=
  match pick (Z.of_nat size) with
  | Builtin => forwardPolar (size / 2) (m_ab m) (m_v m) (m_cd m) ri
  | Plain => dftForwardPolar size ri o
  end.
Definition fftInversePolar (size : nat) (m : memory) (ro : list R) (mp : list C) : option (list R) :=
  match pick (Z.of_nat size) with
  | Builtin => inversePolar (size / 2) (m_v m) (m_cd m) ro mp
  | Plain => dftInversePolar size (m_tmp m) mp ro
  end.
