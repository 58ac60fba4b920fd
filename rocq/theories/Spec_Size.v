(** * Specification: sizes of integer types *)
From Verif Require Import Base PyNum Ast Spec_Check.
Open Scope Z_scope.

(** [t] is written INTEGER(b..e), or is the name of such a simple type. *)
Definition integer_type (ds : list definition) (t : asn_type) (b e : Z) : Prop :=
  t = TInteger (Some (b, e))
  \/ exists n c, t = TName n /\ In (DSimple n (TInteger (Some (b, e))) c) ds.

(** Every value of the range is representable in [w] bits, unsigned and in
    two's complement. *)
Definition holds_unsigned (w b e : Z) : Prop := forall v, b <= v <= e -> 0 <= v < 2 ^ w.
Definition holds_signed (w b e : Z) : Prop :=
  forall v, b <= v <= e -> - 2 ^ (w - 1) <= v < 2 ^ (w - 1).

(** A type that occurs in a member of some definition. *)
Definition member_type (ds : list definition) (t : asn_type) : Prop :=
  exists d k, In d ds /\ In k (members_of d) /\ m_type k = t.

(** The least element of [l] with property [P]. *)
Definition smallest (l : list Z) (P : Z -> Prop) (n : Z) : Prop :=
  In n l /\ P n /\ forall m, In m l -> P m -> n <= m.

(** The fixed-width unsigned types of stdint.h and their widths. *)
Definition UINT_TYPES : list (Z * string) :=
  [(8, "uint8_t"); (16, "uint16_t"); (32, "uint32_t"); (64, "uint64_t")]%string.
Definition INT_TYPES : list (Z * string) :=
  [(8, "int8_t"); (16, "int16_t"); (32, "int32_t"); (64, "int64_t")]%string.
