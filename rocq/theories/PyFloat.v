(** * Python's [float(text)] and [repr(float)]

    textX turns the text of a STRICTFLOAT into a float with Python's [float].
    CPython rounds the decimal to the nearest double (ties to even) and prints
    a double with the fewest digits that read back as the same double. *)
From Verif Require Import Base PyNum PyStr.
Open Scope Z_scope.

(** Round-half-even of [n / d], for [d > 0]. *)
Definition round_div (n d : Z) : Z :=
  let q := n / d in
  let r := n mod d in
  if 2 * r <? d then q
  else if d <? 2 * r then q + 1
  else if Z.even q then q else q + 1.

(** The double nearest to [n / d], for [n >= 0], [d > 0]. *)
Definition nearest_double (neg : bool) (n d : Z) : double :=
  if n =? 0 then DFin neg 0 (-1074)
  else
    let l := Z.log2 n - Z.log2 d in               (* 2^(l-1) < n/d < 2^(l+1) *)
    let below := if 0 <=? l then n <? d * 2 ^ l else n * 2 ^ (- l) <? d in
    let q := Z.max ((if below then l - 1 else l) - 52) (-1074) in
    let m := if 0 <=? q then round_div n (d * 2 ^ q)
             else round_div (n * 2 ^ (- q)) d in
    let '(m, q) := if m =? 2 ^ 53 then (2 ^ 52, q + 1) else (m, q) in
    if 971 <? q then DInf neg else DFin neg (Z.to_N m) q.

(** [n * 10^e] *)
Definition decimal_double (neg : bool) (n e : Z) : double :=
  if 0 <=? e then nearest_double neg (n * 10 ^ e) 1
  else nearest_double neg n (10 ^ (- e)).

Definition same_double (a b : double) : bool :=
  match a, b with
  | DInf s, DInf t => Bool.eqb s t
  | DFin s m e, DFin t n f => Bool.eqb s t && (m =? n)%N && (e =? f)
  | _, _ => false
  end.

(** Value of a string of decimal digits. *)
Fixpoint digits_value (acc : Z) (s : string) : Z :=
  match s with
  | EmptyString => acc
  | String c r => digits_value (10 * acc + (Z.of_N (N_of_ascii c) - 48)) r
  end.

Fixpoint strip_zeros (s : string) : string :=         (* at the end *)
  match s with
  | EmptyString => EmptyString
  | String c r =>
      match strip_zeros r with
      | EmptyString => if Ascii.eqb c "0" then EmptyString else String c EmptyString
      | r' => String c r'
      end
  end.

(** The number [n] of digits before the decimal point of [a / b]:
    [10^(n-1) <= a/b < 10^n], searched upwards from an estimate. *)
Definition lt_pow10 (a b k : Z) : bool :=
  if 0 <=? k then a <? b * 10 ^ k else a * 10 ^ (- k) <? b.
Definition point_position (a b : Z) : Z :=
  let est := (Z.log2 a - Z.log2 b - 1) * 30103 / 100000 in
  if lt_pow10 a b (est - 1) then est - 1
  else if lt_pow10 a b est then est
  else if lt_pow10 a b (est + 1) then est + 1
  else if lt_pow10 a b (est + 2) then est + 2 else est + 3.

(** [k] significant digits of [a / b] that read back as the double [d]:
    rounded to nearest, else downwards or upwards. *)
Definition try_digits (d : double) (a b p : Z) (k : Z) : option (Z * Z) :=
  let e := p - k in
  let a' := if 0 <=? e then a else a * 10 ^ (- e) in
  let b' := if 0 <=? e then b * 10 ^ e else b in
  let good n := same_double (decimal_double false n e) d in
  let near := round_div a' b' in
  let low := a' / b' in
  if good near then Some (near, e)
  else if good low then Some (low, e)
  else if good (low + 1) then Some (low + 1, e)
  else None.
Fixpoint shortest (fuel : nat) (d : double) (a b p k : Z) : Z * Z :=
  match fuel with
  | O => (a / b, 0)                                 (* 17 digits always suffice *)
  | S f => match try_digits d a b p k with
           | Some r => r
           | None => shortest f d a b p (k + 1)
           end
  end.

Open Scope string_scope.
(** [n * 10^e] in the format of [repr]: an exponent below -4 and from 16
    on. *)
Definition format_repr (n e : Z) : string :=
  let all := str_of_Z n in
  let p := (Z.of_nat (String.length all) + e)%Z in    (* 0.ddd * 10^p *)
  let ds := match strip_zeros all with "" => "0" | s => s end in
  let k := String.length ds in
  if ((-4 <? p) && (p <=? 16))%Z then
    if (p <=? 0)%Z then "0." ++ repeat_str (Z.to_nat (- p)) "0" ++ ds
    else if (Z.of_nat k <=? p)%Z
    then ds ++ repeat_str (Z.to_nat p - k) "0" ++ ".0"
    else substring 0 (Z.to_nat p) ds ++ "." ++ substring (Z.to_nat p) (k - Z.to_nat p) ds
  else
    let x := (p - 1)%Z in
    let xs := str_of_Z (Z.abs x) in
    substring 0 1 ds
      ++ (if (1 <? k)%nat then "." ++ substring 1 (k - 1) ds else "")
      ++ "e" ++ (if (x <? 0)%Z then "-" else "+")
      ++ repeat_str (2 - String.length xs) "0" ++ xs.

Definition float_repr (d : double) : string :=
  match d with
  | DInf s => if s then "-inf" else "inf"
  | DFin s m e =>
      (if s then "-" else "") ++
      (if (m =? 0)%N then "0.0"
       else
         let a := if (0 <=? e)%Z then (Z.of_N m * 2 ^ e)%Z else Z.of_N m in
         let b := if (0 <=? e)%Z then 1%Z else (2 ^ (- e))%Z in
         let '(n, x) := shortest 17 (DFin false m e) a b (point_position a b) 1 in
         format_repr n x)
  end.

Definition py_float (neg : bool) (n e : Z) : pyfloat :=
  let d := decimal_double neg n e in mkfloat d (float_repr d).
