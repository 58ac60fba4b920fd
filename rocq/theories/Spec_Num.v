(** * Specification vocabulary: numbers *)
From Verif Require Import Base PyNum.
From Coq Require Import QArith.
Open Scope Q_scope.

(** The rational number (-1)^neg * m * 2^e. *)
Definition qval (neg : bool) (m : N) (e : Z) : Q :=
  (if neg then - inject_Z (Z.of_N m) else inject_Z (Z.of_N m)) * 2 ^ e.

(** Order of doubles, infinities included. *)
Definition double_le (a b : double) : Prop :=
  match a, b with
  | DInf true, _ => True
  | _, DInf false => True
  | DFin s1 m1 e1, DFin s2 m2 e2 => qval s1 m1 e1 <= qval s2 m2 e2
  | _, _ => False
  end.

Definition finite (d : double) : Prop :=
  match d with DFin _ _ _ => True | DInf _ => False end.

(** |d| <= q for a finite double *)
Definition abs_at_most (d : double) (q : Q) : Prop :=
  match d with
  | DFin s m e => - q <= qval s m e /\ qval s m e <= q
  | DInf _ => False
  end.

(** The double nearest to 3.4e38 (size.py 13). *)
Definition float_bound : Q := qval false 8999725064576941 75.
