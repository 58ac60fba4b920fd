(** * Specification: when the declarations of headers are valid C *)
From Verif Require Import Base PyNum PyStr Ast CCommon Main Spec_Check Spec_Num Spec_Enum Spec_Bundle Spec_C Spec_Header.
Open Scope string_scope.

(** [h] is the content of the header of module [m]. *)
Definition header_of (cmd : command) (fs : folder) (m : module) (h : header) : Prop :=
  exists text, folder_get fs (header_name cmd (mod_name m)) = Some text /\ read_header text = Some h.

(** ** Names *)

(** The ordinary identifiers a declaration puts into the scope of the file:
    typedef names, enumerators and variables. *)
Definition scope_names (x : xdecl) : list string :=
  match x with
  | XStruct _ n _ => [n]
  | XEnum _ n items => n :: map fst items
  | XUnion _ _ v => [v]
  | XVar _ v => [v]
  end.

(** The names of the fields of a struct or union. *)
Definition field_names (x : xdecl) : list string :=
  match x with
  | XStruct _ _ fs | XUnion _ fs _ => map x_name fs
  | _ => []
  end.

(** Every identifier a declaration declares, tags of unions included. *)
Definition declared_names (x : xdecl) : list string :=
  (scope_names x ++ field_names x ++ match x with XUnion n _ _ => [n] | _ => [] end)%list.

(** The keys of the items of an ENUMERATED, and of the members of the others. *)
Definition item_keys (d : definition) : list string :=
  match d with DEnumerated _ _ l => map e_key l | _ => [] end.
Definition member_keys (d : definition) : list string := map m_key (members_of d).

Definition has_clause (k : member) : bool := match m_with k with Some _ => true | None => false end.

(** Definitions that come with a variable: a CHOICE, and for command c a
    SEQUENCE with a member that has a WITH COMPONENTS clause. *)
Definition has_variable (cmd : command) (d : definition) : Prop :=
  match d with
  | DChoice _ _ _ => True
  | DSequence _ _ l => (exists ns, cmd = GenerateC ns) /\ exists k, In k l /\ has_clause k = true
  | _ => False
  end.

(** The items of all enumerations have different keys, no item has the name
    of a definition with a variable, spelt with a small letter, and for
    command c no SEQUENCE has two members with a clause. *)
Definition distinct_names (cmd : command) (ds : list definition) : Prop :=
  NoDup (flat_map item_keys ds)
  /\ (forall d, In d ds -> has_variable cmd d -> ~ In (lowerize (def_name d)) (flat_map item_keys ds))
  /\ ((exists ns, cmd = GenerateC ns) -> forall n c l, In (DSequence n c l) ds -> (length (filter has_clause l) <= 1)%nat).

(** Keywords of C (C11 6.4.1), without those that begin with an underscore,
    as no name generated does. *)
Definition C_KEYWORDS : list string :=
  ["auto"; "break"; "case"; "char"; "const"; "continue"; "default"; "do"; "double"; "else"; "enum"; "extern";
   "float"; "for"; "goto"; "if"; "inline"; "int"; "long"; "register"; "restrict"; "return"; "short"; "signed";
   "sizeof"; "static"; "struct"; "switch"; "typedef"; "union"; "unsigned"; "void"; "volatile"; "while"].

(** No key is a keyword, and neither is the name of a definition with a
    variable, spelt with a small letter. *)
Definition no_keywords (cmd : command) (d : definition) : Prop :=
  Forall (fun k => ~ In k C_KEYWORDS) (item_keys d ++ member_keys d)
  /\ (has_variable cmd d -> ~ In (lowerize (def_name d)) C_KEYWORDS).

(** ** Fields *)

(** The bits of the types of bit-fields; an enumeration has as many as it
    needs. *)
Definition TYPE_BITS : list (list string * Z) :=
  [(["uint8_t"], 8); (["uint16_t"], 16); (["uint32_t"], 32); (["uint64_t"], 64); (["unsigned"; "long"; "long"], 64)]%Z.

(** A bit-field is no array, has at least one bit and no more than its type;
    an array has at least one element (C11 6.7.2.1, 6.7.6.2). *)
Definition valid_field (f : xfield) : Prop :=
  (forall w, x_bits f = Some w ->
     x_array f = None /\ (0 < w)%Z /\ forall n, In (x_type f, n) TYPE_BITS -> (w <= n)%Z)
  /\ (forall n, x_array f = Some n -> (0 < n)%Z).

Definition valid_fields (x : xdecl) : Prop :=
  match x with XStruct _ _ fs | XUnion _ fs _ => Forall valid_field fs | _ => True end.

(** A range from 0 or more: the least width that holds its end. *)
Definition range_width (t : asn_type) (w : Z) : Prop :=
  exists lo hi, t = TInteger (Some (lo, hi)) /\ (0 <= lo)%Z /\ least_width w hi.

(** A member of type [t] has a valid field: [ds] are all definitions.  The
    length of an array or string is positive.  Unsigned ranges need at most 64
    bits and, within an array, exactly 8, 16, 32 or 64.  An
    array has no BOOLEAN elements, an ENUMERATED that is no element of an array
    has at least two items. *)
Definition fits (ds : list definition) (t : asn_type) : Prop :=
  match t with TArray n _ | TString _ n => (0 < n)%Z | _ => True end
  /\ (forall w, range_width t w -> (w <= 64)%Z)
  /\ (forall n t' c w, element t = TName n -> In (DSimple n t' c) ds -> ~ In n (map fst POSIX_NAMES) ->
        range_width t' w ->
        if match t with TArray _ _ => true | _ => false end then In w [8; 16; 32; 64]%Z else (w <= 64)%Z)
  /\ (forall n e, t = TArray n e -> element e <> TBoolean)
  /\ (forall n c l, t = TName n -> In (DEnumerated n c l) ds -> (2 <= length l)%nat).

(** ** Types *)

(** The typedefs a declaration makes. *)
Definition typedefs (x : xdecl) : list string :=
  match x with XStruct _ n _ | XEnum _ n _ => [n] | _ => [] end.

(** [t] is a type of the language, one of <stdint.h> in a header that includes
    it, or a typedef of [before]. *)
Definition known_type (includes : list include) (before : list xdecl) (t : list string) : Prop :=
  In t [["char"]; ["int"]; ["float"]; ["double"]; ["unsigned"; "long"; "long"]]
  \/ (exists s, t = [s] /\ In s STDINT_TYPES /\ In (System "stdint") includes)
  \/ (exists s, t = [s] /\ In s (flat_map typedefs before)).

(** The types of its fields. *)
Definition field_types (x : xdecl) : list (list string) :=
  match x with XStruct _ _ fs | XUnion _ fs _ => map x_type fs | _ => [] end.

(** After the declarations [before], each declaration of [h] uses only types
    declared by then. *)
Definition types_known (before : list xdecl) (h : header) : Prop :=
  forall a x b, h_decls h = (a ++ x :: b)%list ->
    Forall (known_type (h_includes h) (before ++ a)%list) (field_types x).

(** A member of a SEQUENCE is no CHOICE, and of no simple type other than
    INTEGER and REAL, but for names such as Uint8-t; a member of a CHOICE is a
    string, a SEQUENCE or an ENUMERATED, or an array of them. *)
Definition has_known_type (ds : list definition) (t : asn_type) : Prop :=
  forall n, element t = TName n -> ~ In n (map fst POSIX_NAMES) ->
    (forall c l, ~ In (DChoice n c l) ds)
    /\ forall t' c, In (DSimple n t' c) ds ->
         element t' = TName "Float" \/ element t' = TName "Double"
         \/ (exists r, t' = TInteger r) \/ (exists r, t' = TReal r).
Definition known_members (ds : list definition) (d : definition) : Prop :=
  match d with
  | DSequence _ _ l => Forall (fun k => has_known_type ds (m_type k)) l
  | DChoice _ _ l =>
      Forall (fun k => (exists s n, element (m_type k) = TString s n)
                       \/ exists d', element (m_type k) = TName (def_name d') /\ In d' ds
                            /\ match d' with DSequence _ _ _ | DEnumerated _ _ _ => True | _ => False end) l
  | _ => True
  end.
