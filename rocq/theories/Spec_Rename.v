(** * Specification: other names for the types (C96) *)
From Verif Require Import Base PyStr Ast.
Open Scope string_scope.

(** The names that mean something: built-in types and POSIX types. *)
Definition RESERVED : list string :=
  ["BOOLEAN"; "INTEGER"; "REAL"; "NULL"; "IA5String"; "NumericString";
   "Int8-t"; "Int16-t"; "Int32-t"; "Int64-t"; "Uint8-t"; "Uint16-t"; "Uint32-t"; "Uint64-t"; "Float"; "Double"].

(** [r] gives other names to types, and [s] takes them back. *)
Record renaming (r s : string -> string) : Prop :=
  { rn_back : forall n, s (r n) = n;
    rn_onto : forall n, r (s n) = n;
    rn_reserved : forall n, In n RESERVED -> r n = n;
    rn_capital : forall n, is_name_capital (r n) = is_name_capital n }.

(** The same module with other names for its types, everywhere.  Keys of
    members, names of modules, comments and clauses stay. *)
Section Rename.
Variable r : string -> string.

Fixpoint rename_type (t : asn_type) : asn_type :=
  match t with
  | TName n => TName (r n)
  | TArray n e => TArray n (rename_type e)
  | _ => t
  end.
Definition rename_member (m : member) : member :=
  mkmember (m_key m) (rename_type (m_type m)) (m_comment m) (m_with m).
Definition rename_definition (d : definition) : definition :=
  match d with
  | DSequence n c l => DSequence (r n) c (map rename_member l)
  | DChoice n c l => DChoice (r n) c (map rename_member l)
  | DEnumerated n c l => DEnumerated (r n) c l
  | DSimple n t c => DSimple (r n) (rename_type t) c
  end.
Definition rename_import (i : import_item) : import_item :=
  mkimport (map r (imp_names i)) (imp_module i) (imp_comment i).
Definition rename (m : module) : module :=
  mkmodule (mod_name m) (mod_comment m) (map rename_import (mod_imports m)) (mod_comment_import m)
           (map rename_definition (mod_defs m)).
End Rename.

(** What a run of cosmos appends: for each packet its name and the rest of its
    text. *)
Definition telemetry_text (target : string) (packets : list (string * string)) : string :=
  "# This file was autogenerated from ASN.1 model." ++ NL
  ++ String.concat "" (map (fun p => NL ++ "TELEMETRY " ++ target ++ " " ++ fst p ++ " BIG_ENDIAN " ++ snd p) packets).

(** Exchanging two names. *)
Definition swap (a b : string) (n : string) : string :=
  if String.eqb n a then b else if String.eqb n b then a else n.
