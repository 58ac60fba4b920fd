(** * Specification: binary images of components *)
From Coq Require Import QArith Qabs.
From Verif Require Import Base PyNum Ast CCommon GenBinary Spec_Enum Spec_Num Spec_Check Spec_Bundle Spec_Size
  Spec_Layout Spec_Ieee.
Open Scope Z_scope.

(** ** Bytes *)

Definition is_byte (z : Z) : Prop := 0 <= z < 256.

(** The number written by some bytes, the least significant first. *)
Fixpoint le_number (l : list Z) : Z :=
  match l with
  | [] => 0
  | b :: r => b + 256 * le_number r
  end.

(** ... in a given byte order. *)
Definition number_of (e : endianness) (l : list Z) : Z :=
  le_number (match e with LittleEndian => l | BigEndian => rev l end).

(** Two's complement of [w] bits. *)
Definition two_complement (w z : Z) : Z := if z <? 2 ^ (w - 1) then z else z - 2 ^ w.

(** ** Encodings *)

Inductive encoding : Set :=
| EInt (sgn : bool) (w : Z)        (* integer of w bits *)
| ESingle
| EDouble.

Definition fits (sgn : bool) (w z : Z) : Prop :=
  if sgn then - 2 ^ (w - 1) <= z < 2 ^ (w - 1) else 0 <= z < 2 ^ w.

(** TRUE and FALSE count as 1 and 0. *)
Definition int_value (v : wval) : option Z :=
  match v with
  | VInt z => Some z
  | VBool b => Some (if b then 1 else 0)
  | _ => None
  end.

(** The double standing for a value; integers are rounded unless they are
    too large, and keep their sign (0 is positive). *)
Inductive real_value : wval -> double -> Prop :=
| real_float : forall f, real_value (VFloat f) (fval f)
| real_int : forall v z s m e, int_value v = Some z ->
    Z.abs z < 2 ^ 1024 - 2 ^ 970 -> valid_double (DFin s m e) = true -> nearest double_of (inject_Z z) s m e ->
    s = (z <? 0) -> real_value v (DFin s m e).

Definition int_image (e : endianness) (sgn : bool) (w z : Z) (b : list Z) : Prop :=
  8 * Z.of_nat (length b) = w /\ Forall is_byte b
  /\ (if sgn then two_complement w (number_of e b) else number_of e b) = z.

(** The nearest single; infinities stay infinite. *)
Definition single_image (e : endianness) (d : double) (b : list Z) : Prop :=
  length b = 4%nat /\ Forall is_byte b
  /\ match d with
     | DFin s m x => exists m' x', single_of (number_of e b) = IFin s m' x' /\ nearest single_of (qval s m x) s m' x'
     | DInf s => single_of (number_of e b) = IInf s
     end.

(** The double itself. *)
Definition double_image (e : endianness) (d : double) (b : list Z) : Prop :=
  length b = 8%nat /\ Forall is_byte b /\ double_of (number_of e b) = ieee_double d.

Definition too_large (d : double) : Prop :=
  match d with DFin s m x => (single_overflow <= Qabs (qval s m x))%Q | DInf _ => False end.

Definition image (e : endianness) (enc : encoding) (v : wval) (b : list Z) : Prop :=
  match enc with
  | EInt s w => exists z, int_value v = Some z /\ fits s w z /\ int_image e s w z b
  | ESingle => exists d, real_value v d /\ ~ too_large d /\ single_image e d b
  | EDouble => exists d, real_value v d /\ double_image e d b
  end.

(** ** Encodings of types *)

Definition bit_size (ds : list definition) (t : asn_type) (w : Z) : Prop :=
  leaf_size ds t w
  \/ exists n c l ls, t = TName n /\ In (DSequence n c l) ds /\ leaves ds l ls /\ w = total ls.

(** POSIX integer types: name, signed? *)
Definition POSIX_INTEGERS : list (string * bool) :=
  [("Uint8-t", false); ("Uint16-t", false); ("Uint32-t", false); ("Uint64-t", false);
   ("Int8-t", true); ("Int16-t", true); ("Int32-t", true); ("Int64-t", true)]%string.

(** How values of a type are written.  A type named like a POSIX type goes by
    its name and by the size of its definition, whatever that is; an array of
    it is written as one number of the size of the array. *)
Inductive encoded_as (ds : list definition) : asn_type -> encoding -> Prop :=
| enc_unsigned : forall b e w, 0 <= b -> least_width w e -> In w [8; 16; 32; 64] ->
    encoded_as ds (TInteger (Some (b, e))) (EInt false w)
| enc_signed : forall b e w, b < 0 -> smallest [8; 16; 32; 64] (fun w => holds_signed w b e) w ->
    encoded_as ds (TInteger (Some (b, e))) (EInt true w)
| enc_single : forall b e, abs_at_most (fval b) float_bound -> abs_at_most (fval e) float_bound ->
    encoded_as ds (TReal (Some (b, e))) ESingle
| enc_double : forall b e, ~ (abs_at_most (fval b) float_bound /\ abs_at_most (fval e) float_bound) ->
    encoded_as ds (TReal (Some (b, e))) EDouble
| enc_posix : forall t n s w, element t = TName n -> In (n, s) POSIX_INTEGERS -> bit_size ds t w ->
    In w [8; 16; 32; 64] -> encoded_as ds t (EInt s w)
| enc_float : forall t, element t = TName "Float" -> bit_size ds t 32 -> encoded_as ds t ESingle
| enc_double_name : forall t, element t = TName "Double" -> bit_size ds t 64 -> encoded_as ds t EDouble.

(** ** Clauses *)

(** Of the members without clause, the last one with key [k]. *)
Definition last_plain (k : string) (ms : list member) (x : member) : Prop :=
  exists a b, ms = (a ++ x :: b)%list /\ m_key x = k /\ m_with x = None
    /\ forall y, In y b -> m_key y = k -> m_with y <> None.

(** [clause_image ds mds e t w b]: the bytes of the components of clause [w] on
    type [t], in the order of the clause.  [mds] are the definitions of the
    module, [ds] those of all modules. *)
Inductive clause_image (ds mds : list definition) (e : endianness) : asn_type -> wcomps -> list Z -> Prop :=
| clause_im : forall t n c ms cm l b, element t = TName n -> In (DSequence n c ms) mds ->
    items_image ds mds e ms l b -> clause_image ds mds e t (WC cm l) b
with items_image (ds mds : list definition) (e : endianness) : list member -> list witem -> list Z -> Prop :=
| items_nil : forall ms, items_image ds mds e ms [] []
| items_leaf : forall ms k v c r x enc b b', last_plain k ms x -> (forall w, v <> VWith w) ->
    encoded_as ds (m_type x) enc -> image e enc v b ->
    items_image ds mds e ms r b' -> items_image ds mds e ms (WI k v c :: r) (b ++ b')
| items_nested : forall ms k w c r x b b', last_plain k ms x -> clause_image ds mds e (m_type x) w b ->
    items_image ds mds e ms r b' -> items_image ds mds e ms (WI k (VWith w) c :: r) (b ++ b').

(** [struct_image]: the bytes of all members in the order of declaration,
    where every member has one value. *)
Inductive struct_image (ds mds : list definition) (e : endianness) : asn_type -> wcomps -> list Z -> Prop :=
| struct_im : forall t n c ms cm l b, element t = TName n -> In (DSequence n c ms) mds ->
    members_image ds mds e ms l b -> struct_image ds mds e t (WC cm l) b
with members_image (ds mds : list definition) (e : endianness) : list member -> list witem -> list Z -> Prop :=
| members_nil : members_image ds mds e [] [] []
| members_leaf : forall x ms v c r enc b b', (forall w, v <> VWith w) ->
    encoded_as ds (m_type x) enc -> image e enc v b ->
    members_image ds mds e ms r b' -> members_image ds mds e (x :: ms) (WI (m_key x) v c :: r) (b ++ b')
| members_nested : forall x ms w c r b b', struct_image ds mds e (m_type x) w b ->
    members_image ds mds e ms r b' -> members_image ds mds e (x :: ms) (WI (m_key x) (VWith w) c :: r) (b ++ b').

(** Clause [w] names every member of [t] once, in the order of declaration, at
    every depth. *)
Inductive complete_in_order (mds : list definition) : asn_type -> wcomps -> Prop :=
| complete : forall t n c ms cm l, element t = TName n -> In (DSequence n c ms) mds ->
    map wi_key l = map m_key ms -> NoDup (map m_key ms) ->
    (forall k w kc x, In (WI k (VWith w) kc) l -> In x ms -> m_key x = k -> complete_in_order mds (m_type x) w) ->
    complete_in_order mds t (WC cm l).

(** The last member of a sequence that has a clause. *)
Definition last_clause (ms : list member) (k : member) (w : wcomps) : Prop :=
  exists a b, ms = (a ++ k :: b)%list /\ m_with k = Some w /\ forall y, In y b -> m_with y = None.

Definition byte_string (s : string) (b : list Z) : Prop :=
  Forall is_byte b /\ map (fun c => Z.of_N (N_of_ascii c)) (list_ascii_of_string s) = b.
