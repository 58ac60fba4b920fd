(** * Specification: the text of a generated header, comments included (C95) *)
From Coq Require Import Sorted.
From Verif Require Import Base PyNum PyStr Ast CCommon Main Spec_Check Spec_Bundle Spec_Enum Spec_Size Spec_Layout Spec_C Spec_Header.
Open Scope string_scope.

(** ** Comments *)

(** The comment of the module, in the comment at the head of the file. *)
Definition head_text (c : option comment) : string :=
  "/*" ++ NL ++ "This file was autogenerated from ASN.1 model."
  ++ (match c with Some c => if String.eqb (cm_text c) "" then "" else NL ++ NL ++ cm_text c | None => "" end)
  ++ NL ++ "*/" ++ NL ++ NL.
(** The comment of the imports. *)
Definition imports_comment_text (c : option comment) : string :=
  match c with Some c => rstrip ("// " ++ cm_text c) ++ NL | None => "" end.
(** The comment of a definition. *)
Definition definition_comment_text (c : option comment) : string :=
  match c with Some c => if String.eqb (cm_text c) "" then "" else "/* " ++ cm_text c ++ " */" ++ NL | None => "" end.
(** The comment of a member or an enumerator: the unit in brackets, if there is
    one, and the text. *)
Definition remark (c : comment) : string :=
  rstrip ("// " ++ (if String.eqb (cm_unit c) "" then "" else "[" ++ cm_unit c ++ "] ") ++ cm_text c).
Definition remark_before (c : option comment) : string :=
  match c with Some c => "  " ++ remark c ++ NL | None => "" end.
Definition remark_behind (c : option comment) : string :=
  match c with Some c => "     " ++ remark c | None => "" end.

(** ** Declarations *)

(** A field of a struct. *)
Definition field_text (k : member) (f : xfield) : string :=
  remark_before (m_comment k)
  ++ "  " ++ String.concat " " (x_type f) ++ " " ++ x_name f
  ++ (match x_bits f with Some w => " : " ++ str_of_Z w | None => "" end)
  ++ (match x_array f with Some n => "[" ++ str_of_Z n ++ "]" | None => "" end)
  ++ ";" ++ NL.
Fixpoint fields_text (ks : list member) (fs : list xfield) : string :=
  match ks, fs with
  | k :: ks, f :: fs => field_text k f ++ fields_text ks fs
  | _, _ => ""
  end.
Definition enumerator_text (e : enum_item) : string :=
  "  " ++ c_name (e_key e) ++ " = " ++ str_of_Z (number e) ++ "," ++ remark_behind (e_comment e) ++ NL.
(** A member of a union; no end of line. *)
Definition alternative_text (k : member) : string :=
  "  " ++ c_name (type_name (m_type k)) ++ " " ++ c_name (m_key k) ++ ";" ++ remark_behind (m_comment k).

(** The text for a definition, and what it declares ([definition_said] of
    Spec_Header).  [ds] are the definitions of all modules. *)
Inductive definition_printed (ds : list definition) : definition -> list xdecl -> string -> Prop :=
| sequence_printed : forall n c l fs, Forall2 (member_said ds) l fs ->
    definition_printed ds (DSequence n c l) [XStruct true (c_name n) fs]
      (definition_comment_text c ++ "typedef struct" ++ NL ++ "{" ++ NL ++ fields_text l fs
       ++ "} __attribute__((packed)) " ++ c_name n ++ ";" ++ NL ++ NL)
| enumerated_printed : forall n c l l', renumbered l l' ->
    definition_printed ds (DEnumerated n c l) [XEnum true (c_name n) (map (fun e => (c_name (e_key e), number e)) l')]
      (definition_comment_text c ++ "typedef enum {" ++ NL ++ String.concat "" (map enumerator_text l')
       ++ "} __attribute__((packed)) " ++ c_name n ++ ";" ++ NL ++ NL)
| choice_printed : forall n c l,
    definition_printed ds (DChoice n c l)
      [XUnion (c_name n) (map (fun k => mkxfield [c_name (type_name (m_type k))] (c_name (m_key k)) None None) l)
         (lowerize (c_name n))]
      (definition_comment_text c ++ "union " ++ c_name n ++ " {" ++ NL ++ String.concat "" (map alternative_text l)
       ++ "} " ++ lowerize (c_name n) ++ ";" ++ NL ++ NL)
| simple_printed : forall n t c, definition_printed ds (DSimple n t c) [] "".

(** ** Notes on simple types *)

Definition embedded_text (n : string) : string :=
  NL ++ "// NOTE: " ++ n ++ " is embedded directly where it is used. Rationale: Bitfields cannot be typedef'd." ++ NL.

Inductive note_printed (cmd : command) (input : list module) : definition -> string -> Prop :=
| note_other : forall d, is_simple d = false -> note_printed cmd input d ""
| note_c : forall names n t c, cmd = GenerateC names -> note_printed cmd input (DSimple n t c) (embedded_text n)
| note_binary : forall names e n t c, cmd = GenerateBinary names e -> n <> "Float" -> n <> "Double" ->
    note_printed cmd input (DSimple n t c) (embedded_text n)
| note_float : forall names e n t c, cmd = GenerateBinary names e -> n = "Float" \/ n = "Double" ->
    note_printed cmd input (DSimple n t c) ""
| note_unused : forall names n t c, cmd = GenerateCfs names -> (forall m, In m input -> ~ uses_type m n) ->
    note_printed cmd input (DSimple n t c) ""
| note_used : forall names n t c users w, cmd = GenerateCfs names ->
    users <> [] -> NoDup users -> LocallySorted (fun x y => String.leb x y = true) users ->
    (forall x, In x users <-> exists m, In m input /\ x = mod_name m /\ uses_type m n) -> value_size t w ->
    note_printed cmd input (DSimple n t c)
      ("// NOTE: The simple type '" ++ n ++ "' has been generated to a C "
       ++ (if in_dec Z.eq_dec w [8; 16; 32; 64]%Z then "builtin" else "bitfield")
       ++ " type and is used directly in " ++ String.concat ", " (map (fun u => "'" ++ u ++ "'") users) ++ NL).

(** ** The header *)

(** The variables for the WITH COMPONENTS clauses (command c). *)
Definition variables_text (l : list xdecl) : string :=
  match l with
  | [] => ""
  | _ => String.concat "" (map (fun x => match x with XVar t v => t ++ " " ++ v ++ ";" ++ NL | _ => "" end) l) ++ NL
  end.

Definition include_text (f : string) : string := "#include " ++ DQUOTE ++ f ++ DQUOTE ++ NL.

(** The header of [m] for the definitions in the given order: [notes] and
    [texts] are what is printed for them. *)
Definition header_text (cmd : command) (m : module) (order : list definition) (std : string) (notes texts : list string) : string :=
  "#ifndef " ++ header_guard cmd (mod_name m) ++ NL ++ "#define " ++ header_guard cmd (mod_name m) ++ NL ++ NL
  ++ head_text (mod_comment m)
  ++ std ++ imports_comment_text (mod_comment_import m)
  ++ String.concat "" (map (fun it => include_text (included_file cmd (imp_module it))) (mod_imports m))
  ++ String.concat "" notes ++ NL
  ++ String.concat "" texts
  ++ variables_text (variables_said cmd order)
  ++ "#endif // " ++ header_guard cmd (mod_name m) ++ NL.
