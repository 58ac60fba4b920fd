(** * Specification: binary images as COSMOS packets (C97) *)
From Coq Require Import QArith.
From Verif Require Import Base PyNum PyStr Ast Size CCommon GenBinary GenCosmos Spec_Num Spec_Check Spec_Text Spec_Ieee Spec_Floats
  Spec_Binary Spec_Cosmos Spec_Telemetry.
Open Scope string_scope.
Open Scope list_scope.

(** The double a text stands for, written like a float or like an integer. *)
Definition reads_as (s : string) (d : double) : Prop :=
  finite d
  /\ ((exists neg q, float_text s neg q /\ rounded_to d neg q)
      \/ exists z, read_int s = Some z /\ rounded_to d (z <? 0)%Z (inject_Z z)).

Definition byte_order (little : bool) : endianness := if little then LittleEndian else BigEndian.

(** Item [t] is an identification, and the bytes [b] of a packet have its
    value. *)
Definition item_bytes (t : titem) (b : list Z) : Prop :=
  (8 * Z.of_nat (length b) = t_bits t)%Z /\ Forall is_byte b
  /\ exists v, t_role t = Id v
     /\ match t_type t with
        | "UINT" => read_number v = Some (number_of (byte_order (t_little t)) b)
        | "INT" => read_number v = Some (two_complement (t_bits t) (number_of (byte_order (t_little t)) b))
        | "FLOAT" => exists d, reads_as v d
            /\ if (t_bits t =? 32)%Z then single_image (byte_order (t_little t)) d b
               else double_image (byte_order (t_little t)) d b
        | _ => False
        end.

(** Items are appended to each other: each one takes the bytes after the one
    before it, and no byte is left. *)
Inductive packet_bytes : list titem -> list Z -> Prop :=
| no_bytes : packet_bytes [] []
| more_bytes : forall t r b b', item_bytes t b -> packet_bytes r b' -> packet_bytes (t :: r) (b ++ b').

(** Names that stand for numbers. *)
Definition NUMBER_NAMES : list string := map fst POSIX_INTEGERS ++ ["Float"; "Double"].

(** Types with a POSIX name are of the kind the name says. *)
Definition named_right (lf : leaf) : Prop :=
  forall n, m_type (lf_member lf) = TName n ->
    (In (n, false) POSIX_INTEGERS -> lf_kind lf = A_UINT) /\ (In (n, true) POSIX_INTEGERS -> lf_kind lf = A_INT)
    /\ (n = "Float" -> lf_kind lf = A_FLOAT) /\ (n = "Double" -> lf_kind lf = A_DOUBLE).

(** Leaves whose bytes COSMOS understands: no arrays, in the byte order of the
    image, with numbers for values.  The APID is an integer that is not
    negative. *)
Definition plain_leaf (e : endianness) (lf : leaf) : Prop :=
  is_array (m_type (lf_member lf)) = false
  /\ byte_order (little_of (m_comment (lf_member lf))) = e
  /\ named_right lf
  /\ forall v, In v (fixed_values lf) ->
       match v with
       | VInt z => m_key (lf_member lf) = "application-process-identifier" -> (lf_kind lf = A_UINT \/ lf_kind lf = A_INT) /\ (0 <= z)%Z
       | VFloat f => finite (fval f)
       | _ => False
       end.
