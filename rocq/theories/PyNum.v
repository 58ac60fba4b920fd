(** * Python numbers

    A Python [int] is a [Z].  A Python [float] is an IEEE 754 double,
    represented as sign, mantissa and exponent; its [repr] (shortest decimal
    that reads back, computed by the Python runtime) is carried along. NaN is
    not in the model: the grammar's STRICTFLOAT has no NaN literal and the
    code computes no float. *)
From Verif Require Import Base.
Open Scope Z_scope.

Inductive double : Set :=
| DFin (neg : bool) (m : N) (e : Z)      (* (-1)^neg * m * 2^e *)
| DInf (neg : bool).

(** The doubles that exist: normal numbers have a mantissa in
    [2^52, 2^53) and an exponent in [-1074, 971]; zeros and subnormal
    numbers have a smaller mantissa and exponent -1074. *)
Definition valid_double (d : double) : bool :=
  match d with
  | DInf _ => true
  | DFin _ m e =>
      if (m <? 2^52)%N then e =? -1074
      else (m <? 2^53)%N && (-1074 <=? e) && (e <=? 971)
  end.

Record pyfloat : Set := mkfloat { fval : double; frepr : string }.

Inductive num : Set :=
| NInt (z : Z)
| NFloat (f : pyfloat).

(** Numeric value of an int or double: [m * 2^e], or an infinity. *)
Inductive xval : Set := XFin (m e : Z) | XInf (neg : bool).

Definition signed (neg : bool) (m : N) : Z := if neg then - Z.of_N m else Z.of_N m.

Definition dval (d : double) : xval :=
  match d with
  | DFin s m e => XFin (signed s m) e
  | DInf s => XInf s
  end.

Definition nval (n : num) : xval :=
  match n with
  | NInt z => XFin z 0
  | NFloat f => dval (fval f)
  end.

(** Exact comparison; Python compares int with float exactly as well. *)
Definition xcompare (a b : xval) : comparison :=
  match a, b with
  | XFin m1 e1, XFin m2 e2 =>
      let e := Z.min e1 e2 in
      (m1 * 2 ^ (e1 - e)) ?= (m2 * 2 ^ (e2 - e))
  | XInf true, XInf true => Eq
  | XInf false, XInf false => Eq
  | XInf true, _ => Lt
  | _, XInf true => Gt
  | XInf false, _ => Gt
  | _, XInf false => Lt
  end.

(** [a < b], [a <= b], [a == b] on Python numbers. *)
Definition num_lt (a b : num) : bool :=
  match xcompare (nval a) (nval b) with Lt => true | _ => false end.
Definition num_le (a b : num) : bool :=
  match xcompare (nval a) (nval b) with Gt => false | _ => true end.
Definition num_eq (a b : num) : bool :=
  match xcompare (nval a) (nval b) with Eq => true | _ => false end.

(** Round-half-even of [m / 2^k], for [k >= 0]. *)
Definition round_ne (m k : Z) : Z :=
  if k <=? 0 then m * 2 ^ (- k)
  else
    let q := m / 2 ^ k in
    let r := m mod 2 ^ k in
    let h := 2 ^ (k - 1) in
    if r <? h then q
    else if h <? r then q + 1
    else if Z.even q then q else q + 1.

(** [int(a / 8)] for an int [a]: Python's true division is the correctly
    rounded double; [None] for "integer division result too large for a
    float".  Dividing by 8 only changes the exponent, so the mantissa is [a]
    rounded to 53 significant bits (quotients of ints are never subnormal). *)
Definition truediv8_int (a : Z) : option Z :=
  let k := Z.max 0 (Z.log2 (Z.abs a) + 1 - 53) in
  let m := round_ne (Z.abs a) k in
  let r := m * 2 ^ k in                              (* |a| rounded *)
  if 2 ^ 1027 <=? r then None
  else Some (Z.sgn a * (r / 8)).

(** IEEE 754 binary64 bit pattern. *)
Definition bits64 (d : double) : Z :=
  match d with
  | DInf s => (if s then 2^63 else 0) + 2047 * 2^52
  | DFin s m e =>
      (if s then 2^63 else 0) +
      (if (m <? 2^52)%N then Z.of_N m
       else (e + 1075) * 2^52 + (Z.of_N m - 2^52))
  end.

(** Conversion to IEEE 754 binary32 (round to nearest even), as a bit
    pattern; [None] if a finite double overflows. CPython's [struct.pack("f")]
    raises OverflowError in that case. *)
Definition bits32 (d : double) : option Z :=
  match d with
  | DInf s => Some ((if s then 2^31 else 0) + 255 * 2^23)
  | DFin s m e =>
      let m := Z.of_N m in
      (* exponent of the last place of the single nearest to m*2^e *)
      let q := Z.max (Z.log2 m + 1 + e - 24) (-149) in
      let r := round_ne m (q - e) in
      (* r may be 2^24: the carry then moves to the exponent field *)
      let b := if r <? 2^23 then r else (q + 149) * 2^23 + r in
      if 255 * 2^23 <=? b then None
      else Some ((if s then 2^31 else 0) + b)
  end.
