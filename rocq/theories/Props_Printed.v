(** * Property C95: the text of the generated headers *)
From Coq Require Import Permutation.
From Verif Require Import Base PyNum PyStr Ast CCommon GenCfs Main Spec_Grammar Spec_Check Spec_Bundle Spec_Gen Spec_Files Spec_C Spec_Header
  Spec_Printed Printed_proofs.
Open Scope string_scope.

(** C95.  The header of each module consists of the include guard, the comment
    with the comment of the module, the includes with the comment of the
    imports, a note for each simple type and, each definition after those it
    uses, the structs, enumerations and unions that the definitions say
    ([definition_said], C57), with the comment of each definition before it and
    the comments of members and enumerators, with their units, before or behind
    theirs, and nothing else.  This holds whatever the comments contain, also
    where C57 does not because they are not comments in C. *)
Theorem C95_header_text : forall names cmd fuel input fs fs' m,
  config_command names cmd -> Forall (fun m => grammatical m = true) input ->
  run fuel cmd input fs = (fs', Ok tt) -> In m input ->
  exists order pieces std notes,
    folder_get fs' (header_name cmd (mod_name m)) = Some (header_text cmd m order std notes (map snd pieces))
    /\ Permutation order (mod_defs m)
    /\ (forall i d k n, nth_error order i = Some d -> In k (members_of d) -> element (m_type k) = TName n ->
         (exists j d', (j < i)%nat /\ nth_error order j = Some d' /\ def_name d' = n)
         \/ exists it, In it (mod_imports m) /\ In n (imp_names it))
    /\ Forall2 (note_printed cmd input) order notes
    /\ Forall2 (fun d p => definition_printed (definitions input) d (fst p) (snd p)) order pieces
    /\ ((std = "#include <stdint.h>" ++ NL /\ exists x, In x (concat (map fst pieces)) /\ uses_stdint x)
        \/ (std = "" /\ ~ exists x, In x (concat (map fst pieces)) /\ uses_stdint x)).
Proof. exact header_printed. Qed.
Print Assumptions C95_header_text.

(** What is declared is what C57 says. *)
Theorem C95_declares : forall ds d xs t, definition_printed ds d xs t -> definition_said ds d xs.
Proof. exact printed_said. Qed.
Print Assumptions C95_declares.

(** In particular no comment of a member of a sequence is lost: it stands,
    after its unit, on the line before the field of that member, as long as
    it does not end with white space. *)
Theorem C95_member_comments : forall names cmd fuel input fs fs' m n c l k cm,
  config_command names cmd -> Forall (fun m => grammatical m = true) input ->
  run fuel cmd input fs = (fs', Ok tt) -> In m input ->
  In (DSequence n c l) (mod_defs m) -> In k l -> m_comment k = Some cm ->
  exists a ty z, folder_get fs' (header_name cmd (mod_name m))
    = Some (a ++ NL ++ "  " ++ rstrip ("// " ++ (if String.eqb (cm_unit cm) "" then "" else "[" ++ cm_unit cm ++ "] ") ++ cm_text cm) ++ NL
            ++ "  " ++ ty ++ " " ++ c_name (m_key k) ++ z).
Proof. exact member_comments. Qed.
Print Assumptions C95_member_comments.

(** A run with comments in every place, also behind the members of a CHOICE. *)
Definition remarked (s u : string) : option comment := Some (mkcomment s u false).
Definition types_module : module :=
  mkmodule "types" None [] None
    [DSimple "Speed" (TInteger (Some (0, 255)%Z)) (remarked "not shown" "");
     DEnumerated "Mode" (remarked "All modes" "") [mkenum "off" None None; mkenum "on" None (remarked "running" "")]].
Definition remarked_module : module :=
  mkmodule "remarked" (remarked "The module */" "") [mkimport ["Speed"; "Mode"] "types" (remarked "not shown" "")] (remarked "Types" "")
    [DChoice "Either" None [mkmember "a" (TName "Msg") (remarked "first" "s") None; mkmember "b" (TName "Msg") None None];
     DSequence "Msg" (remarked "A message" "")
       [mkmember "speed" (TName "Speed") (remarked "forward" "m/s") None; mkmember "mode" (TName "Mode") None None;
        mkmember "count" (TInteger (Some (0, 7)%Z)) (remarked "how many" "") None]].

Definition lines (l : list string) : string := String.concat "" (map (fun s => s ++ NL) l).
Example C95_sample : exists fs',
  config_command ["types"; "remarked"] (GenerateCfs ["types"; "remarked"])
  /\ Forall (fun m => grammatical m = true) [remarked_module; types_module]
  /\ run 9 (GenerateCfs ["types"; "remarked"]) [remarked_module; types_module] [] = (fs', Ok tt)
  /\ folder_get fs' "types_msg.h" = Some (lines
       ["#ifndef ASN1_PARSER_TYPES_MSG_H_INCLUDED"; "#define ASN1_PARSER_TYPES_MSG_H_INCLUDED"; "";
        "/*"; "This file was autogenerated from ASN.1 model."; "*/"; "";
        "// NOTE: The simple type 'Speed' has been generated to a C builtin type and is used directly in 'remarked'"; "";
        "/* All modes */"; "typedef enum {"; "  off = 0,"; "  on = 1,     // running"; "} __attribute__((packed)) Mode;"; "";
        "#endif // ASN1_PARSER_TYPES_MSG_H_INCLUDED"])
  /\ folder_get fs' "remarked_msg.h" = Some (lines
       ["#ifndef ASN1_PARSER_REMARKED_MSG_H_INCLUDED"; "#define ASN1_PARSER_REMARKED_MSG_H_INCLUDED"; "";
        "/*"; "This file was autogenerated from ASN.1 model."; ""; "The module */"; "*/"; "";
        "#include <stdint.h>"; "// Types"; "#include ""types_msg.h"""; "";
        "/* A message */"; "typedef struct"; "{"; "  // [m/s] forward"; "  uint8_t speed;"; "  Mode mode : 1;";
        "  // how many"; "  uint8_t count : 3;"; "} __attribute__((packed)) Msg;"; "";
        "union Either {"; "  Msg a;     // [s] first  Msg b;} either;"; "";
        "#endif // ASN1_PARSER_REMARKED_MSG_H_INCLUDED"]).
Proof.
  eexists. split; [left; reflexivity|]. split; [repeat constructor|]. split; [vm_compute; reflexivity|].
  split; vm_compute; reflexivity.
Qed.
