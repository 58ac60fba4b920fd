(** * Specification: IEEE 754 bit patterns *)
From Coq Require Import QArith Qabs.
From Verif Require Import Base PyNum Spec_Num.
Open Scope Z_scope.

Inductive ieee : Set :=
| IFin (neg : bool) (m : N) (e : Z)      (* (-1)^neg * m * 2^e *)
| IInf (neg : bool)
| INaN.

(** The number with [eb] exponent and [mb] fraction bits encoded by [b]. *)
Definition ieee_of (eb mb b : Z) : ieee :=
  let neg := 1 <=? b / 2 ^ (mb + eb) in
  let x := (b / 2 ^ mb) mod 2 ^ eb in
  let f := b mod 2 ^ mb in
  let bias := 2 ^ (eb - 1) - 1 in
  if x =? 2 ^ eb - 1 then (if f =? 0 then IInf neg else INaN)
  else if x =? 0 then IFin neg (Z.to_N f) (1 - bias - mb)
  else IFin neg (Z.to_N (2 ^ mb + f)) (x - bias - mb).

Definition single_of : Z -> ieee := ieee_of 8 23.
Definition double_of : Z -> ieee := ieee_of 11 52.

Definition ieee_double (d : double) : ieee :=
  match d with DFin s m e => IFin s m e | DInf s => IInf s end.

(** Among all finite numbers that some pattern decodes to, (s, m, e) is the
    nearest to [q]; of two equally near ones it is the one with an even
    mantissa. *)
Definition nearest (decode : Z -> ieee) (q : Q) (s : bool) (m : N) (e : Z) : Prop :=
  forall b' s' m' e', decode b' = IFin s' m' e' ->
    (Qabs (qval s m e - q) <= Qabs (qval s' m' e' - q))%Q
    /\ ((Qabs (qval s m e - q) == Qabs (qval s' m' e' - q))%Q ->
        (qval s m e == qval s' m' e')%Q \/ N.even m = true).

(** Numbers from here on are too large for a single. *)
Definition single_overflow : Q := inject_Z (2 ^ 128 - 2 ^ 103).
