(** * Specification: floats as decimal texts *)
From Coq Require Import QArith Qabs.
From Verif Require Import Base PyNum Spec_Num Spec_Ieee Spec_Grammar Spec_Syntax.

(** [s] is written in the grammar's notation for floats and stands for the
    number [q]; [neg] tells if it has a minus sign. *)
Definition float_text (s : string) (neg : bool) (q : Q) : Prop :=
  exists sg ds fs n point expo x,
    signs neg sg /\ decimal (ds ++ fs) n
    /\ (point = "" /\ fs = "" \/ point = ".")
    /\ (expo = "" /\ x = 0%Z
        \/ exists e neg' sg' xs y, (e = "e" \/ e = "E") /\ signs neg' sg' /\ decimal xs y
             /\ expo = e ++ sg' ++ xs /\ x = if neg' then (- y)%Z else y)
    /\ (point <> "" \/ expo <> "")
    /\ s = sg ++ ds ++ point ++ fs ++ expo
    /\ (q == inject_Z (if neg then (- n)%Z else n) * inject_Z 10 ^ (x - Z.of_nat (String.length fs)))%Q.

(** Half a unit above the largest double. *)
Definition double_overflow : Q := inject_Z (2 ^ 1024 - 2 ^ 970).

(** [d] is the double nearest to [q], infinite from [double_overflow] on, with
    the sign [neg] even if [q] is zero. *)
Definition rounded_to (d : double) (neg : bool) (q : Q) : Prop :=
  match d with
  | DFin s m e => s = neg /\ nearest double_of q s m e /\ (Qabs q < double_overflow)%Q
  | DInf s => s = neg /\ (double_overflow <= Qabs q)%Q
  end.

(** [q] is a number with at most [k] significant decimal digits and the sign
    [neg]. *)
Definition has_digits (k : Z) (neg : bool) (q : Q) : Prop :=
  exists n x, (0 < n < 10 ^ k)%Z /\ (q == inject_Z (if neg then (- n)%Z else n) * inject_Z 10 ^ x)%Q.

(** What may follow a float. *)
Definition float_ends (r : string) : Prop :=
  not_next (fun c => letter_digit_underscore c || Ascii.eqb c ".") r.
