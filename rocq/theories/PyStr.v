(** * Python string operations used by the code

    Strings are lists of ASCII characters.  Names are ASCII by the grammar
    (asn1/grammar.py 27-33), comments too (24); non-ASCII text is outside the
    model. *)
From Coq Require Import DecimalString HexadecimalString.
From Verif Require Import Base.
Open Scope string_scope.

Definition string_of_list (l : list ascii) : string := string_of_list_ascii l.
Definition list_of_string (s : string) : list ascii := list_ascii_of_string s.

Fixpoint str_map (f : ascii -> ascii) (s : string) : string :=
  match s with
  | EmptyString => EmptyString
  | String c r => String (f c) (str_map f r)
  end.

(** [s.replace(a, b)] for single characters [a], [b]. *)
Definition replace_char (a b : ascii) (s : string) : string :=
  str_map (fun c => if Ascii.eqb c a then b else c) s.

Definition is_lower (c : ascii) : bool :=
  let n := N_of_ascii c in (97 <=? n)%N && (n <=? 122)%N.
Definition is_upper (c : ascii) : bool :=
  let n := N_of_ascii c in (65 <=? n)%N && (n <=? 90)%N.
Definition is_digit (c : ascii) : bool :=
  let n := N_of_ascii c in (48 <=? n)%N && (n <=? 57)%N.

Definition upper_char (c : ascii) : ascii :=
  if is_lower c then ascii_of_N (N_of_ascii c - 32) else c.
Definition lower_char (c : ascii) : ascii :=
  if is_upper c then ascii_of_N (N_of_ascii c + 32) else c.

(** [str.upper()], [str.lower()] (ASCII). *)
Definition upper (s : string) : string := str_map upper_char s.
Definition lower (s : string) : string := str_map lower_char s.

(** utils/string.py 1-2 ([lowerize]). *)
Definition lowerize (s : string) : string :=
  match s with
  | EmptyString => EmptyString
  | String c r => String (lower_char c) r
  end.

(** [s.startswith(p)] *)
Definition startswith (p s : string) : bool := String.prefix p s.

(** [s.find(p) > -1] *)
Fixpoint contains (p s : string) : bool :=
  String.prefix p s ||
  match s with
  | EmptyString => false
  | String _ r => contains p r
  end.

(** [", ".join(l)] is stdlib's [String.concat]. *)
Definition join (sep : string) (l : list string) : string := String.concat sep l.

Fixpoint repeat_str (n : nat) (s : string) : string :=
  match n with O => "" | S n' => s ++ repeat_str n' s end.

(** Format specs ["{:ns}"] and ["{:>ns}"]. *)
Definition ljust (n : nat) (s : string) : string :=
  s ++ repeat_str (n - String.length s) " ".
Definition rjust (n : nat) (s : string) : string :=
  repeat_str (n - String.length s) " " ++ s.

(** [str(z)] for an int. *)
Definition str_of_Z (z : Z) : string :=
  DecimalString.NilZero.string_of_int (Z.to_int z).

(** [f"{z:0nX}"]: upper-case hexadecimal, zero padded to [n] characters, the
    padding between the sign and the digits. *)
Definition hex_digits (z : Z) : string :=
  upper (HexadecimalString.NilZero.string_of_uint (N.to_hex_uint (Z.abs_N z))).
Definition format_X (n : nat) (z : Z) : string :=
  let d := hex_digits z in
  if (z <? 0)%Z then "-" ++ repeat_str (n - 1 - String.length d) "0" ++ d
  else repeat_str (n - String.length d) "0" ++ d.

Definition LF : ascii := ascii_of_N 10.
Definition NL : string := String LF EmptyString.
Definition DQ : ascii := ascii_of_N 34.
Definition DQUOTE : string := String DQ EmptyString.

(** [s.replace(" \n", "\n")], left to right, non-overlapping. *)
Fixpoint replace_space_nl (s : string) : string :=
  match s with
  | EmptyString => EmptyString
  | String c r =>
      match r with
      | String d r' =>
          if Ascii.eqb c " " && Ascii.eqb d LF
          then String LF (replace_space_nl r')
          else String c (replace_space_nl r)
      | EmptyString => s
      end
  end.

(** [s.rstrip()] for texts whose only white space is the space (0x20), as in
    comments (asn1/grammar.py 24). *)
Fixpoint rstrip (s : string) : string :=
  match s with
  | EmptyString => EmptyString
  | String c r =>
      match rstrip r with
      | EmptyString => if Ascii.eqb c " " then EmptyString else String c EmptyString
      | r' => String c r'
      end
  end.
