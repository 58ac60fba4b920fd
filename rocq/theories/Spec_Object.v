(** * Specification: the bytes of an initialised C object *)
From Coq Require Import QArith Qabs.
From Verif Require Import Base PyNum PyStr Ast CCommon GenBinary Main Spec_Num Spec_Check Spec_Size Spec_Ieee
  Spec_Text Spec_C Spec_Header Spec_Valid Spec_Floats Spec_Init Spec_Binary.
Open Scope string_scope.

(** ** C

    On a machine with 32-bit int and IEEE 754 float and double whose byte order
    is [e]. *)

(** Integer types: sign and width. *)
Definition C_INTEGERS : list (list string * (bool * Z)) :=
  [(["int"], (true, 32%Z));
   (["int8_t"], (true, 8%Z)); (["int16_t"], (true, 16%Z)); (["int32_t"], (true, 32%Z)); (["int64_t"], (true, 64%Z));
   (["uint8_t"], (false, 8%Z)); (["uint16_t"], (false, 16%Z)); (["uint32_t"], (false, 32%Z)); (["uint64_t"], (false, 64%Z))].

Definition integer_constant (s : string) (z : Z) : Prop :=
  read_int s = Some z /\ not_octal s /\ (Z.abs z < 2 ^ 63)%Z.

(** A floating constant has type double. *)
Definition floating_constant (s : string) (d : double) : Prop :=
  finite d /\ exists neg q, float_text s neg q /\ rounded_to d neg q.

(** [scalar_image e ct s b]: an object of type [ct] with initialiser [s] consists
    of bytes [b].  Integers too large for the type and conversions of floating
    constants to integers are left out. *)
Inductive scalar_image (e : endianness) : list string -> string -> list Z -> Prop :=
| int_of_int : forall ct sgn w s z b, In (ct, (sgn, w)) C_INTEGERS -> integer_constant s z -> fits sgn w z ->
    int_image e sgn w z b -> scalar_image e ct s b
| float_of_int : forall s z b m x, integer_constant s z -> length b = 4%nat -> Forall is_byte b ->
    single_of (number_of e b) = IFin (z <? 0)%Z m x -> nearest single_of (inject_Z z) (z <? 0)%Z m x ->
    scalar_image e ["float"] s b
| double_of_int : forall s z b m x, integer_constant s z -> length b = 8%nat -> Forall is_byte b ->
    double_of (number_of e b) = IFin (z <? 0)%Z m x -> nearest double_of (inject_Z z) (z <? 0)%Z m x ->
    scalar_image e ["double"] s b
| float_of_floating : forall s d b, floating_constant s d -> ~ too_large d -> single_image e d b ->
    scalar_image e ["float"] s b
| double_of_floating : forall s d b, floating_constant s d -> double_image e d b -> scalar_image e ["double"] s b.

Definition tree_key (t : tree) : string := match t with Leaf k _ | Node k _ => k end.

(** Of the designated initialisers [ts], [t] is the one that counts for its
    field: the last. *)
Definition designated (ts : list tree) (t : tree) : Prop :=
  exists a b, ts = (a ++ t :: b)%list /\ ~ In (tree_key t) (map tree_key b).

(** Bytes of an arithmetic type. *)
Definition type_bytes (ct : list string) (n : nat) : Prop :=
  (exists sgn w, In (ct, (sgn, w)) C_INTEGERS /\ (8 * Z.of_nat n = w)%Z) \/ ct = ["float"] /\ n = 4%nat \/ ct = ["double"] /\ n = 8%nat.

(** [fields_image structs e fields ts b]: the bytes of the fields of a packed struct
    initialised by [ts], none of the fields being a bit-field or an array.
    Fields that are not mentioned are zero. *)
Inductive fields_image (structs : string -> list xfield -> Prop) (e : endianness)
  : list xfield -> list tree -> list Z -> Prop :=
| no_fields : forall ts, fields_image structs e [] ts []
| scalar_field : forall f r ts s b b', x_array f = None -> x_bits f = None ->
    designated ts (Leaf (x_name f) s) -> scalar_image e (x_type f) s b ->
    fields_image structs e r ts b' -> fields_image structs e (f :: r) ts (b ++ b')
| struct_field : forall f r ts n fs sub b b', x_array f = None -> x_bits f = None -> x_type f = [n] -> structs n fs ->
    designated ts (Node (x_name f) sub) -> fields_image structs e fs sub b ->
    fields_image structs e r ts b' -> fields_image structs e (f :: r) ts (b ++ b')
| zero_scalar : forall f r ts n b', x_array f = None -> x_bits f = None ->
    ~ In (x_name f) (map tree_key ts) -> type_bytes (x_type f) n ->
    fields_image structs e r ts b' -> fields_image structs e (f :: r) ts (repeat 0%Z n ++ b')
| zero_struct : forall f r ts n fs b b', x_array f = None -> x_bits f = None -> x_type f = [n] -> structs n fs ->
    ~ In (x_name f) (map tree_key ts) -> fields_image structs e fs [] b ->
    fields_image structs e r ts b' -> fields_image structs e (f :: r) ts (b ++ b').

(** A packed struct declared in the headers. *)
Definition packed_struct (cmd : command) (fs : folder) (input : list module) (n : string) (fields : list xfield) : Prop :=
  exists m h, In m input /\ header_of cmd fs m h /\ In (XStruct true n fields) (h_decls h).

(** [text] defines a variable, and [b] are its bytes. *)
Definition variable_image (structs : string -> list xfield -> Prop) (e : endianness) (text : string) (b : list Z) : Prop :=
  exists n fields body trees, structs n fields
    /\ text = n ++ " " ++ lowerize n ++ " = {" ++ NL ++ body ++ "};" ++ NL
    /\ read_init body = Some trees /\ fields_image structs e fields trees b.

(** ** ASN.1 *)

(** Numbers that are as wide in C as in binary images: no INTEGER with
    negative values but those that need 32 bits; a type with the name of a POSIX
    type is an INTEGER or, for Float and Double, a REAL. *)
Definition same_width (ds : list definition) (t : asn_type) : Prop :=
  match t with
  | TInteger (Some (lo, hi)) => (lo < 0)%Z -> smallest [8; 16; 32; 64]%Z (fun w => holds_signed w lo hi) 32%Z
  | TReal _ => True
  | TName n =>
      (In n (map fst POSIX_INTEGERS) /\ exists r c, In (DSimple n (TInteger r) c) ds)
      \/ (In n ["Float"; "Double"] /\ exists r c, In (DSimple n (TReal r) c) ds)
  | _ => False
  end.

(** Values that C has a constant for; for singles no large integers, which C
    rounds once and the generator twice. *)
Definition same_value (ds : list definition) (t : asn_type) (v : wval) : Prop :=
  constant_value v /\ (encoded_as ds t ESingle -> forall z, v = VInt z -> (Z.abs z <= 2 ^ 53)%Z).

Inductive same_clause (ds : list definition) : asn_type -> wcomps -> Prop :=
| same_clause_sequence : forall n c ms cm l, In (DSequence n c ms) ds -> ~ In n (map fst POSIX_NAMES) ->
    (forall k v kc x, In (WI k v kc) l -> In x ms -> m_key x = k ->
       (exists w, v = VWith w /\ same_clause ds (m_type x) w)
       \/ (same_width ds (m_type x) /\ same_value ds (m_type x) v)) ->
    same_clause ds (TName n) (WC cm l).
