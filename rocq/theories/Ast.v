(** * The objects textX builds from the grammar

    asn1/grammar.py 1-142 and asn1/grammar_elements/*.py.  Parent links and
    source positions are left out.  A value of these types is what the parser
    (textX, not modelled) hands over before the object processors of
    asn1/parser.py 67-77 run. *)
From Verif Require Import Base PyNum.

(** grammar.py 16-25, asn1_comment.py 4-29. [cm_text]/[cm_unit] are "" when
    absent. *)
Record comment : Set := mkcomment
  { cm_text : string; cm_unit : string; cm_little_endian : bool }.

(** The two string types, grammar.py 138-141. *)
Inductive string_kind : Set := IA5String | NumericString.

(** grammar.py 54-62 ([Asn1Type]), 133-135 ([Array]), 138-141
    ([Asn1String]).  Optional ranges: both bounds or none. *)
Inductive asn_type : Set :=
| TReal (range : option (pyfloat * pyfloat))
| TInteger (range : option (Z * Z))
| TNull
| TBoolean
| TString (k : string_kind) (len : Z)
| TArray (len : Z) (elem : asn_type)
| TName (n : string).

(** grammar.py 88-113, with_components.py, components_item.py.  'TRUE' and
    'FALSE' are already booleans (processor.py 158-164, [str_to_bool]: the
    grammar admits no other string). A clause has at least one component by
    the grammar. *)
Inductive wval : Set :=
| VInt (z : Z)
| VFloat (f : pyfloat)
| VBool (b : bool)
| VWith (w : wcomps)
with wcomps : Set :=
| WC (cm : option comment) (items : list witem)
with witem : Set :=
| WI (key : string) (v : wval) (cm : option comment).

(** with_components.py 33-34 *)
Definition wc_items (w : wcomps) : list witem := match w with WC _ l => l end.
Definition wc_comment (w : wcomps) : option comment := match w with WC c _ => c end.
(** components_item.py 39-46 *)
Definition wi_key (i : witem) : string := match i with WI k _ _ => k end.
Definition wi_value (i : witem) : wval := match i with WI _ v _ => v end.
Definition wi_comment (i : witem) : option comment := match i with WI _ _ c => c end.

(** grammar.py 64-86, key_type_pair.py *)
Record member : Set := mkmember
  { m_key : string;
    m_type : asn_type;
    m_comment : option comment;
    m_with : option wcomps }.

(** grammar.py 46-52, enumerated_item.py; [None]: number omitted. *)
Record enum_item : Set := mkenum
  { e_key : string; e_written : option Z; e_comment : option comment }.

(** enumerated_item.py 24-25 on an object fresh from textX: an omitted INT
    attribute is initialised with 0 (cf. the enumerated_item unit tests). *)
Definition e_pos (e : enum_item) : Z :=
  match e_written e with Some z => z | None => 0%Z end.

(** enumerated_item.py 33-34 *)
Definition set_pos (z : Z) (e : enum_item) : enum_item :=
  mkenum (e_key e) (Some z) (e_comment e).

(** grammar.py 35-44, 115-131; definitions.py and subclasses. *)
Inductive definition : Set :=
| DSequence (name : string) (cm : option comment) (members : list member)
| DChoice (name : string) (cm : option comment) (members : list member)
| DEnumerated (name : string) (cm : option comment) (items : list enum_item)
| DSimple (name : string) (t : asn_type) (cm : option comment).

(** definitions.py 21-25 *)
Definition def_name (d : definition) : string :=
  match d with
  | DSequence n _ _ | DChoice n _ _ | DEnumerated n _ _ | DSimple n _ _ => n
  end.
Definition def_comment (d : definition) : option comment :=
  match d with
  | DSequence _ c _ | DChoice _ c _ | DEnumerated _ c _ | DSimple _ _ c => c
  end.

(** grammar.py 10-14, import_item.py *)
Record import_item : Set := mkimport
  { imp_names : list string; imp_module : string; imp_comment : option comment }.

(** grammar.py 2-8, asn1_module.py.  A module without IMPORTS has no import
    items (asn1_module.py 69-72 returns [] for None as well). *)
Record module : Set := mkmodule
  { mod_name : string;
    mod_comment : option comment;
    mod_imports : list import_item;
    mod_comment_import : option comment;
    mod_defs : list definition }.

Definition string_kind_name (k : string_kind) : string :=
  match k with
  | IA5String => "IA5String"
  | NumericString => "NumericString"
  end%string.

(** asn1_type.py 23-31, 71-72 ([get_type_name]): an array has the type name
    of its element type. *)
Fixpoint type_name (t : asn_type) : string :=
  match t with
  | TReal _ => "REAL"
  | TInteger _ => "INTEGER"
  | TNull => "NULL"
  | TBoolean => "BOOLEAN"
  | TString k _ => string_kind_name k
  | TArray _ e => type_name e
  | TName n => n
  end%string.

(** asn1_type.py 51-52, 58-59 ([get_begin], [get_end]); an array has no bounds
    of its own. *)
Definition type_begin (t : asn_type) : option num :=
  match t with
  | TReal (Some (b, _)) => Some (NFloat b)
  | TInteger (Some (b, _)) => Some (NInt b)
  | _ => None
  end.
Definition type_end (t : asn_type) : option num :=
  match t with
  | TReal (Some (_, e)) => Some (NFloat e)
  | TInteger (Some (_, e)) => Some (NInt e)
  | _ => None
  end.

(** asn1_module.py 11-17, processor.py 32-38. *)
Definition PREDEFINED_LIST : list string :=
  ["BOOLEAN"; "INTEGER"; "REAL"; "IA5String"; "NumericString"]%string.

(** get_children of Sequence and Choice (sequence.py 29-30, choice.py 22-23),
    [] for the other definitions. *)
Definition def_children (d : definition) : list member :=
  match d with
  | DSequence _ _ l | DChoice _ _ l => l
  | _ => []
  end.

(** The members checked and laid out as a SEQUENCE. *)
Definition seq_children (d : definition) : list member :=
  match d with DSequence _ _ l => l | _ => [] end.

Definition is_sequence (d : definition) : bool :=
  match d with DSequence _ _ _ => true | _ => false end.
Definition is_simple (d : definition) : bool :=
  match d with DSimple _ _ _ => true | _ => false end.

(** Names allowed by the grammar (grammar.py 27-33):
    NameLower  [a-z][a-z0-9]*(-[a-z0-9]+)* and NameCapital with a capital
    first letter.  Used as hypotheses of statements, the model does not need
    them. *)
From Verif Require Import PyStr.
Definition name_char (c : ascii) : bool := is_lower c || is_digit c.
Fixpoint name_tail (s : string) : bool :=
  match s with
  | EmptyString => true
  | String c r =>
      if Ascii.eqb c "-" then
        match r with
        | String d r' => name_char d && name_tail r'
        | EmptyString => false
        end
      else name_char c && name_tail r
  end.
Definition is_name_lower (s : string) : bool :=
  match s with String c r => is_lower c && name_tail r | EmptyString => false end.
Definition is_name_capital (s : string) : bool :=
  match s with String c r => is_upper c && name_tail r | EmptyString => false end.
