(** * Specification: the files of c, cfs and binary, letter by letter (C106) *)
From Coq Require Import Sorting.Permutation.
From Verif Require Import Base PyNum PyStr Ast CCommon GenBinary Main Spec_Check Spec_Bundle Spec_Gen Spec_Text Spec_C Spec_Cfs Spec_Header Spec_Printed Spec_Place Spec_Binary.
Open Scope string_scope.

(** [text] is the header of module [m]: the text of Spec_Printed, with the
    definitions in the order of Spec_Place. *)
Definition is_header (cmd : command) (input : list module) (m : module) (text : string) : Prop :=
  exists order pieces std notes, in_rounds m order
    /\ Forall2 (note_printed cmd input) order notes
    /\ Forall2 (fun d p => definition_printed (definitions input) d (fst p) (snd p)) order pieces
    /\ ((std = "#include <stdint.h>" ++ NL /\ exists x, In x (concat (map fst pieces)) /\ uses_stdint x)
        \/ (std = "" /\ ~ exists x, In x (concat (map fst pieces)) /\ uses_stdint x))
    /\ text = header_text cmd m order std notes (map snd pieces).

(** [text] is the source file of module [m]: an initialiser for each clause
    (Spec_C). *)
Definition is_source (m : module) (text : string) : Prop :=
  exists order include texts, in_rounds m order
    /\ Forall2 initialises (flat_map def_clauses order) texts
    /\ ((ends_with_clause order /\ include = "#include """ ++ c_name (mod_name m) ++ ".h""" ++ NL ++ NL)
        \/ (~ ends_with_clause order /\ include = ""))
    /\ text = source_head m ++ include ++ String.concat "" texts.

(** [text] is the header with the message IDs of module [m]: a define for each
    entry of a clause (Spec_Cfs). *)
Definition is_ids_header (m : module) (text : string) : Prop :=
  exists order ds g, in_rounds m order
    /\ Forall2 (fun ne d => defines (fst ne) (snd ne) d) (flat_map def_entries order) ds
    /\ g = "ASN1_PARSER_" ++ upper (c_name (mod_name m)) ++ "_MSGIDS_H_INCLUDED"
    /\ text = "#ifndef " ++ g ++ NL ++ "#define " ++ g ++ NL ++ NL
              ++ "/*" ++ NL ++ "This file was autogenerated from ASN.1 model." ++ NL ++ "*/" ++ NL ++ NL
              ++ String.concat "" (map define_line ds) ++ (match ds with [] => "" | _ => NL end)
              ++ "#endif // " ++ g ++ NL.

(** [text] is the image of sequence [n] of module [m]: the bytes of the last of
    its clauses (Spec_Binary). *)
Definition is_image (input : list module) (m : module) (e : endianness) (n text : string) : Prop :=
  exists c l k w b, In (DSequence n c l) (mod_defs m) /\ last_clause l k w /\ byte_string text b
    /\ clause_image (definitions input) (mod_defs m) e (m_type k) w b.

(** Module [m] has file [f] with content [text]. *)
Definition file_text (cmd : command) (input : list module) (m : module) (f text : string) : Prop :=
  match cmd with
  | GenerateC _ => (f = c_name (mod_name m) ++ ".h" /\ is_header cmd input m text)
                   \/ (f = c_name (mod_name m) ++ ".c" /\ is_source m text)
  | GenerateCfs _ => (f = c_name (mod_name m) ++ "_msg.h" /\ is_header cmd input m text)
                     \/ (f = c_name (mod_name m) ++ "_msgids.h" /\ is_ids_header m text)
  | GenerateBinary _ oe => (f = c_name (mod_name m) ++ ".h" /\ is_header cmd input m text)
                           \/ (exists e n, oe = Some e /\ f = lowerize (c_name n) ++ ".bin" /\ is_image input m e n text)
  | GenerateCosmos _ _ _ => False
  end.
