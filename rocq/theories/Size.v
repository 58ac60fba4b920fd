(** * Sizes: utils/size.py *)
From Verif Require Import Base PyNum Ast.
Open Scope Z_scope.

(** size.py 26-32 *)
Inductive ctype : Set :=
| A_BOOL | A_UINT | A_INT | A_STRING | A_FLOAT | A_DOUBLE.

(** size.py 6-9.  3.4e38 is 0x1.ff933c78cdfadp+127; [sys.float_info.max] is
    (2^53-1)*2^971. *)
Definition FLOAT_MAX : pyfloat :=
  mkfloat (DFin false 8999725064576941 75) "3.4e+38".
Definition FLOAT_MIN : pyfloat :=
  mkfloat (DFin true 8999725064576941 75) "-3.4e+38".
Definition DOUBLE_MAX : pyfloat :=
  mkfloat (DFin false 9007199254740991 971) "1.7976931348623157e+308".
Definition DOUBLE_MIN : pyfloat :=
  mkfloat (DFin true 9007199254740991 971) "-1.7976931348623157e+308".

(** size.py 12-23 ([ASN1_POSIX_RANGE]) *)
Definition ASN1_POSIX_RANGE : list (string * (num * num)) :=
  [ ("Int8-t", (NInt (- 2^7), NInt (2^7 - 1)));
    ("Int16-t", (NInt (- 2^15), NInt (2^15 - 1)));
    ("Int32-t", (NInt (- 2^31), NInt (2^31 - 1)));
    ("Int64-t", (NInt (- 2^63), NInt (2^63 - 1)));
    ("Uint8-t", (NInt 0, NInt (2^8 - 1)));
    ("Uint16-t", (NInt 0, NInt (2^16 - 1)));
    ("Uint32-t", (NInt 0, NInt (2^32 - 1)));
    ("Uint64-t", (NInt 0, NInt (2^64 - 1)));
    ("Float", (NFloat FLOAT_MIN, NFloat FLOAT_MAX));
    ("Double", (NFloat DOUBLE_MIN, NFloat DOUBLE_MAX)) ]%string.

(** [ASN1_POSIX_RANGE.get(name)] *)
Definition posix_range (name : string) : option (num * num) :=
  dict_get name ASN1_POSIX_RANGE.

(** [int.bit_length()]: number of bits of the absolute value. *)
Definition bit_length (z : Z) : Z :=
  if z =? 0 then 0 else Z.log2 (Z.abs z) + 1.

(** size.py 35-83 ([get_bit_size]); begin/end are None when the type has no
    range. *)
Definition get_bit_size (c : ctype) (b e : option num) : result Z :=
  match c with
  | A_BOOL => Ok 1
  | A_UINT =>
      match e with
      | Some (NInt e) => Ok (bit_length e)
      | _ => Err AssertionErr
      end
  | A_INT =>
      match b, e with
      | Some (NInt b), Some (NInt e) =>
          if (- 2^7 <=? b) && (e <=? 2^7 - 1) then Ok 8
          else if (- 2^15 <=? b) && (e <=? 2^15 - 1) then Ok 16
          else if (- 2^31 <=? b) && (e <=? 2^31 - 1) then Ok 32
          else if (- 2^63 <=? b) && (e <=? 2^63 - 1) then Ok 64
          else Err ValueErr
      | _, _ => Err AssertionErr
      end
  | A_FLOAT => Ok 32
  | A_DOUBLE => Ok 64
  | A_STRING =>
      match e with
      | Some (NInt e) => Ok (e * 8)
      | _ => Err AssertionErr
      end
  end.

(** size.py 86-91 ([bit_to_bytes]) *)
Definition bit_to_bytes (bits : Z) : result Z :=
  if negb (bits mod 8 =? 0) then Err ValueErr
  else match truediv8_int bits with
       | Some n => Ok n
       | None => Err OverflowErr
       end.
