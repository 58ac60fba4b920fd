(** * Specification: reading numbers back from text *)
From Verif Require Import Base.
Open Scope string_scope.
Open Scope Z_scope.

Definition code (c : ascii) : Z := Z.of_N (N_of_ascii c).

(** Value of a digit in base [base]. *)
Definition digit_value (base : Z) (c : ascii) : option Z :=
  let n := code c in
  let d := if (48 <=? n) && (n <=? 57) then n - 48
           else if (65 <=? n) && (n <=? 90) then n - 55
           else base in
  if d <? base then Some d else None.

Fixpoint read_digits (base acc : Z) (s : string) : option Z :=
  match s with
  | "" => Some acc
  | String c r => match digit_value base c with
                  | Some d => read_digits base (base * acc + d) r
                  | None => None
                  end
  end.

(** An unsigned numeral: at least one digit. *)
Definition read_unsigned (base : Z) (s : string) : option Z :=
  match s with "" => None | _ => read_digits base 0 s end.

(** A decimal integer with an optional minus sign. *)
Definition read_int (s : string) : option Z :=
  match s with
  | String "-" r => option_map Z.opp (read_unsigned 10 r)
  | _ => read_unsigned 10 s
  end.

(** An upper-case hexadecimal number. *)
Definition read_hex (s : string) : option Z := read_unsigned 16 s.

(** [s] is the decimal text of [z]: no zero before other digits, no sign before
    0. *)
Definition decimal (z : Z) (s : string) : Prop :=
  read_int s = Some z /\ forall sign r, sign = "" \/ sign = "-" -> s = sign ++ "0" ++ r -> sign = "" /\ r = "".

(** [s] is the hexadecimal text of [z] with at least [width] characters, the
    sign included, and no more zeros than that takes. *)
Definition hexadecimal (width : nat) (z : Z) (s : string) : Prop :=
  exists digits, s = (if z <? 0 then "-" else "") ++ digits /\ read_hex digits = Some (Z.abs z)
    /\ (width <= String.length s)%nat
    /\ ((width < String.length s)%nat -> forall r, digits = "0" ++ r -> r = "").
