(** * Specification: when a generated C source compiles (C101) *)
From Verif Require Import Base PyNum PyStr Ast CCommon Main Spec_Bundle Spec_C Spec_Header Spec_Valid Spec_Init Spec_Unit.
Open Scope string_scope.

(** The lines that include files, with an empty line at the end. *)
Definition include_lines (is : list include) : string :=
  match is with
  | [] => ""
  | _ => String.concat "" (map (fun i => match i with
                                         | Local f => "#include """ ++ f ++ """" ++ NL
                                         | System n => "#include <" ++ n ++ ".h>" ++ NL
                                         end) is) ++ NL
  end.

(** The structs and enumerations of headers. *)
Definition struct_in (hs : list header) (n : string) (fields : list xfield) : Prop :=
  exists packed, In (XStruct packed n fields) (flat_map h_decls hs).
Definition enum_in (hs : list header) (n : string) : Prop :=
  exists packed items, In (XEnum packed n items) (flat_map h_decls hs).

(** The first two words of a definition of a variable. *)
Definition type_word (text : string) : string := nth 0 (split_on " " text) "".
Definition variable_word (text : string) : string := nth 1 (split_on " " text) "".

(** A source that includes [is] and then defines variables, [texts], compiles in
    a folder: the headers can be read and are valid C as far as names, types and
    fields go; the variables have struct types and initialisers that fit them;
    each is defined once; and if the headers declare its name, then as a
    variable of this type. *)
Definition compiles (fs : folder) (is : list include) (texts : list string) : Prop :=
  exists hs g, reads fs [] is hs g /\ valid_unit hs
    /\ Forall (variable_fits (struct_in hs) (enum_in hs)) texts
    /\ NoDup (map variable_word texts)
    /\ forall t, In t texts -> In (variable_word t) (flat_map scope_names (flat_map h_decls hs)) ->
         In (XVar (type_word t) (variable_word t)) (flat_map h_decls hs).
