(** * Specification: when the initialisers of a source fit the headers *)
From Coq Require Import QArith Qabs.
From Verif Require Import Base PyNum PyStr Ast CCommon Main Spec_Num Spec_Check Spec_Bundle Spec_Text Spec_C Spec_Header Spec_Valid Spec_Floats.
Open Scope string_scope.

(** ** C *)

(** A constant, perhaps with a sign: a decimal integer that has a type
    (C11 6.4.4.1), or a floating constant in the range of double. *)
Definition c_constant (s : string) : Prop :=
  (exists z, read_int s = Some z /\ not_octal s /\ (Z.abs z < 2 ^ 63)%Z)
  \/ (exists neg q, float_text s neg q /\ (Qabs q < double_overflow)%Q).

(** Arithmetic types; [enums] are the names of enumerations. *)
Definition scalar (enums : string -> Prop) (t : list string) : Prop :=
  In t [["char"]; ["int"]; ["float"]; ["double"]; ["unsigned"; "long"; "long"]]
  \/ exists n, t = [n] /\ (In n STDINT_TYPES \/ enums n).

(** [init_fits structs enums fields x]: initialiser [x] designates one of the fields,
    with a constant for a field of arithmetic type and with braces for a struct;
    [structs] are the names of structs and their fields. *)
Inductive init_fits (structs : string -> list xfield -> Prop) (enums : string -> Prop) (fields : list xfield) : tree -> Prop :=
| init_leaf : forall f s, In f fields -> x_array f = None -> scalar enums (x_type f) -> c_constant s ->
    init_fits structs enums fields (Leaf (x_name f) s)
| init_node : forall f n fs sub, In f fields -> x_array f = None -> x_bits f = None -> x_type f = [n] -> structs n fs ->
    Forall (init_fits structs enums fs) sub -> init_fits structs enums fields (Node (x_name f) sub).

(** [text] defines a variable that has a struct type and an initialiser that
    fits it. *)
Definition variable_fits (structs : string -> list xfield -> Prop) (enums : string -> Prop) (text : string) : Prop :=
  exists n fs body trees, structs n fs
    /\ text = n ++ " " ++ lowerize n ++ " = {" ++ NL ++ body ++ "};" ++ NL
    /\ read_init body = Some trees /\ Forall (init_fits structs enums fs) trees.

(** What the headers of the modules declare. *)
Definition declares_struct (cmd : command) (fs : folder) (input : list module) (n : string) (fields : list xfield) : Prop :=
  exists m h packed, In m input /\ header_of cmd fs m h /\ In (XStruct packed n fields) (h_decls h).
Definition declares_enum (cmd : command) (fs : folder) (input : list module) (n : string) : Prop :=
  exists m h packed items, In m input /\ header_of cmd fs m h /\ In (XEnum packed n items) (h_decls h).

(** ** ASN.1 *)

(** Members that become a field of arithmetic type: BOOLEAN, INTEGER, REAL, an
    ENUMERATED, and a simple type that is a number or has the name of a type of
    <stdint.h>; but no array. *)
Definition number_type (t : asn_type) : Prop :=
  (exists r, t = TInteger r) \/ (exists r, t = TReal r) \/ element t = TName "Float" \/ element t = TName "Double".
Definition number_member (ds : list definition) (t : asn_type) : Prop :=
  match t with
  | TBoolean | TInteger _ | TReal _ => True
  | TName n =>
      In n (map fst POSIX_NAMES) \/ (exists c l, In (DEnumerated n c l) ds)
      \/ exists t' c, In (DSimple n t' c) ds /\ number_type t'
  | _ => False
  end.

(** Values that C has a constant for. *)
Definition constant_value (v : wval) : Prop :=
  match v with
  | VInt z => (Z.abs z < 2 ^ 63)%Z
  | VFloat f => finite (fval f)
  | VBool _ => True
  | VWith _ => False
  end.

(** The clause constrains a member whose type is a SEQUENCE, its components
    exist, those with a value are numbers and the value is one of the above,
    the others are in turn constrained like that. *)
Inductive clause_fits (ds : list definition) : asn_type -> wcomps -> Prop :=
| clause_fits_sequence : forall n c ms cm l, In (DSequence n c ms) ds -> ~ In n (map fst POSIX_NAMES) ->
    (forall k v kc, In (WI k v kc) l ->
       exists x, In x ms /\ m_key x = k
         /\ ((exists w, v = VWith w /\ clause_fits ds (m_type x) w)
             \/ (number_member ds (m_type x) /\ constant_value v))) ->
    clause_fits ds (TName n) (WC cm l).

(** The same of the clause of member [k] of SEQUENCE [n]. *)
Definition member_clause_fits (ds : list definition) (x : string * string * wcomps) : Prop :=
  let '(n, k, w) := x in
  exists c ms m, In (DSequence n c ms) ds /\ In m ms /\ m_key m = k /\ clause_fits ds (m_type m) w.

(** ** Objects *)

(** A declaration that defines a variable. *)
Definition defines_variable (x : xdecl) : Prop :=
  match x with XUnion _ _ _ | XVar _ _ => True | _ => False end.
