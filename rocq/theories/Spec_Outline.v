(** * Specification: the outline of a module *)
From Verif Require Import Base PyNum Ast.

(** A type as far as an outline shows it: the name of the type, which is that
    of the elements for a SEQUENCE OF, and its range. *)
Record shown_type : Set := Shown { st_name : string; st_range : option (num * num) }.

(** A value in a WITH COMPONENTS clause. *)
Inductive shown_value : Set :=
| ShownNumber (n : num)
| ShownBool (b : bool)
| ShownClause (components : list (string * shown_value)).

Inductive shown_definition : Set :=
| ShownSequence (name : string) (members : list (string * shown_type * option shown_value))
| ShownSimple (name : string) (t : shown_type)
| ShownName (name : string).

Record outline : Set := mkoutline
  { ol_module : string;
    ol_imports : list (string * list string);
    ol_definitions : list shown_definition }.

(** What the outline of a module is: gone are the comments, the sizes of
    strings and of SEQUENCE OF, the difference between a SEQUENCE OF and its
    elements (with their range), everything about a CHOICE or an ENUMERATED
    but its name, and which of the two it is. *)
Fixpoint names_type (t : asn_type) : string :=
  match t with
  | TReal _ => "REAL"
  | TInteger _ => "INTEGER"
  | TNull => "NULL"
  | TBoolean => "BOOLEAN"
  | TString IA5String _ => "IA5String"
  | TString NumericString _ => "NumericString"
  | TArray _ e => names_type e
  | TName n => n
  end.
Definition range_of (t : asn_type) : option (num * num) :=
  match t with
  | TReal (Some (b, e)) => Some (NFloat b, NFloat e)
  | TInteger (Some (b, e)) => Some (NInt b, NInt e)
  | _ => None
  end.
Definition shown (t : asn_type) : shown_type := Shown (names_type t) (range_of t).

Fixpoint shown_clause (w : wcomps) : shown_value :=
  match w with WC _ l => ShownClause (map shown_component l) end
with shown_component (i : witem) : string * shown_value :=
  match i with
  | WI k (VInt z) _ => (k, ShownNumber (NInt z))
  | WI k (VFloat f) _ => (k, ShownNumber (NFloat f))
  | WI k (VBool b) _ => (k, ShownBool b)
  | WI k (VWith w) _ => (k, shown_clause w)
  end.

Definition shown_definition_of (d : definition) : shown_definition :=
  match d with
  | DSequence n _ l =>
      ShownSequence n (map (fun m => (m_key m, shown (m_type m), option_map shown_clause (m_with m))) l)
  | DSimple n t _ => ShownSimple n (shown t)
  | DChoice n _ _ | DEnumerated n _ _ => ShownName n
  end.

Definition outline_of (m : module) : outline :=
  mkoutline (mod_name m) (map (fun i => (imp_module i, imp_names i)) (mod_imports m))
    (map shown_definition_of (mod_defs m)).
