(** * The outline a module prints of itself

    The [pprint] methods of asn1/grammar_elements/*.py and
    [Asn1Type.__str__].  No command calls them.  Printing is modelled by the
    lines printed, without the line ends; the box-drawing characters are their
    UTF-8 bytes.  The assertions on the classes of items hold by the types of
    [Ast], and the final [else] of components_item.py 36-37 cannot be reached
    for the same reason. *)
From Verif Require Import Base PyNum PyStr Ast GenCosmos.
Open Scope string_scope.

(** The same line in every [pprint], e.g. sequence.py 23. *)
Definition indent (level : nat) : string :=
  repeat_str (if (1 <=? level)%nat then 1 else 0) "│   " ++ repeat_str (level - 1) "    ".

(** [f"{x}"] for a bound, [None] if it is absent. *)
Definition str_bound (b : option num) : string :=
  match b with Some n => str_num n | None => "None" end.

(** asn1_type.py 34-42 ([__str__]) *)
Definition str_type (t : asn_type) : string :=
  type_name t ++ "(" ++ str_bound (type_begin t) ++ " -> " ++ str_bound (type_end t) ++ ")".

(** asn1_type.py 44-49 *)
Definition pprint_type (level : nat) (t : asn_type) : list string :=
  [indent level ++ "├─ Asn1Type type_name=" ++ type_name t
   ++ " begin=" ++ str_bound (type_begin t) ++ " end=" ++ str_bound (type_end t)].

(** with_components.py 25-28, components_item.py 22-37. *)
Fixpoint pprint_clause (level : nat) (w : wcomps) : list string :=
  match w with
  | WC _ l =>
      (fix go (l : list witem) : list string :=
         match l with
         | [] => []
         | i :: r => (pprint_item level i ++ go r)%list
         end) l
  end
with pprint_item (level : nat) (i : witem) : list string :=
  match i with
  | WI key v _ =>
      let line := indent level ++ "├─ ComponentsItem: key=" ++ key ++ " value=" in
      match v with
      | VInt z => [line ++ "int" ++ " - value=" ++ str_of_Z z]
      | VFloat f => [line ++ "float" ++ " - value=" ++ frepr f]
      | VBool b => [line ++ "bool" ++ " - value=" ++ (if b then "True" else "False")]
      | VWith w => (line ++ "WithComponents") :: pprint_clause (S level) w
      end
  end.

(** key_type_pair.py 30-41 *)
Definition pprint_member (level : nat) (m : member) : list string :=
  let line := indent level ++ "├─ KeyTypePair key=" ++ m_key m ++ " type=" ++ str_type (m_type m) in
  match m_with m with
  | Some w => (line ++ " value=WithComponents") :: pprint_clause (S level) w
  | None => [line ++ " value=None"]
  end.

(** sequence.py 22-27, simple_definition.py 22-28; definitions.py 27-29 for
    CHOICE and ENUMERATED. *)
Definition pprint_definition (level : nat) (d : definition) : list string :=
  match d with
  | DSequence n _ l =>
      (indent level ++ "├─ Sequence name=" ++ n) :: flat_map (pprint_member (S level)) l
  | DSimple n t _ =>
      (indent level ++ "├─ SimpleDefinition name=" ++ n ++ " type=" ++ str_type t) :: pprint_type (S level) t
  | DChoice n _ _ | DEnumerated n _ _ => [indent level ++ "├─ Definition: " ++ n]
  end.

(** import_item.py 22-27 *)
Definition pprint_import (level : nat) (i : import_item) : list string :=
  (indent level ++ "├─ ImportItem: " ++ imp_module i)
  :: map (fun n => indent level ++ "│   ├── " ++ n) (imp_names i).

(** asn1_module.py 47-55 *)
Definition pprint_lines (m : module) : list string :=
  ("Module: " ++ mod_name m)
  :: "├── Imports" :: (flat_map (pprint_import 1) (mod_imports m)
  ++ "├── Definitions" :: flat_map (pprint_definition 1) (mod_defs m))%list.

(** What [pprint] writes: [print] ends every line. *)
Definition pprint (m : module) : string :=
  String.concat "" (map (fun l => l ++ NL) (pprint_lines m)).
