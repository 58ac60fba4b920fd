(** * Specification: modules without their comments *)
From Verif Require Import Base PyNum PyStr Ast CCommon Main Spec_Check Spec_Header.
Open Scope string_scope.

(** ** A module without its comments *)

Fixpoint plain_value (v : wval) : wval :=
  match v with VWith w => VWith (plain_clause w) | _ => v end
with plain_clause (w : wcomps) : wcomps :=
  match w with WC _ l => WC None (map plain_component l) end
with plain_component (i : witem) : witem :=
  match i with WI k v _ => WI k (plain_value v) None end.

Definition plain_member (m : member) : member :=
  mkmember (m_key m) (m_type m) None (option_map plain_clause (m_with m)).
Definition plain_item (e : enum_item) : enum_item := mkenum (e_key e) (e_written e) None.
Definition plain_definition (d : definition) : definition :=
  match d with
  | DSequence n _ l => DSequence n None (map plain_member l)
  | DChoice n _ l => DChoice n None (map plain_member l)
  | DEnumerated n _ l => DEnumerated n None (map plain_item l)
  | DSimple n t _ => DSimple n t None
  end.
Definition plain_import (i : import_item) : import_item := mkimport (imp_names i) (imp_module i) None.
Definition plain (m : module) : module :=
  mkmodule (mod_name m) None (map plain_import (mod_imports m)) None (map plain_definition (mod_defs m)).

(** ** The comments that are shown: those of the module, its IMPORTS, its
    sequences, choices and enumerations, and of their members and items *)

Definition shown_in (d : definition) : list comment :=
  match d with
  | DSequence _ c l | DChoice _ c l => (opt_list c ++ flat_map (fun m => opt_list (m_comment m)) l)%list
  | DEnumerated _ c l => (opt_list c ++ flat_map (fun e => opt_list (e_comment e)) l)%list
  | DSimple _ _ _ => []
  end.
Definition shown (m : module) : list comment :=
  (opt_list (mod_comment m) ++ opt_list (mod_comment_import m) ++ flat_map shown_in (mod_defs m))%list.

(** ** C files: one text is another one with comments put in *)

(** A comment behind or before a member, with the unit in brackets. *)
Definition with_unit (c : comment) : string :=
  (if String.eqb (cm_unit c) "" then "" else "[" ++ cm_unit c ++ "] ") ++ cm_text c.

Inductive commented (cs : list comment) : string -> string -> Prop :=
| cs_end : commented cs "" ""
| cs_text s b t : commented cs b t -> commented cs (s ++ b) (s ++ t)
(** the comment of the module, in the comment at the head of the file *)
| cs_head c b t : In c cs -> commented cs b t -> commented cs b (NL ++ NL ++ cm_text c ++ t)
(** the comment of the imports *)
| cs_import c b t : In c cs -> commented cs b t -> commented cs b (rstrip ("// " ++ cm_text c) ++ NL ++ t)
(** the comment of a definition *)
| cs_definition c b t : In c cs -> commented cs b t -> commented cs b ("/* " ++ cm_text c ++ " */" ++ NL ++ t)
(** the comment of a member of a sequence *)
| cs_field c b t : In c cs -> commented cs b t -> commented cs b ("  " ++ rstrip ("// " ++ with_unit c) ++ NL ++ t)
(** the comment of an item of an enumeration or of a member of a choice *)
| cs_behind c b t : In c cs -> commented cs b t -> commented cs b ("     " ++ rstrip ("// " ++ with_unit c) ++ t).

(** ** COSMOS files: one text is another one with descriptions, units and byte
    orders put in.  Blanks at the end of a line of a description are
    dropped. *)

Inductive described (cs : list comment) : string -> string -> Prop :=
| ds_end : described cs "" ""
| ds_text s b t : described cs b t -> described cs (s ++ b) (s ++ t)
| ds_packet c b t : In c cs -> described cs b t ->
    described cs (DQUOTE ++ DQUOTE ++ b) (DQUOTE ++ cm_text c ++ DQUOTE ++ t)
| ds_item c b t : In c cs -> described cs b t ->
    described cs (DQUOTE ++ DQUOTE ++ b) (DQUOTE ++ replace_space_nl (cm_text c) ++ DQUOTE ++ t)
| ds_units c b t : In c cs -> cm_unit c <> "" -> described cs b t ->
    described cs b ("        UNITS " ++ cm_unit c ++ " " ++ cm_unit c ++ NL ++ t)
| ds_little c b t : In c cs -> cm_little_endian c = true -> described cs b t ->
    described cs b (" LITTLE_ENDIAN" ++ t).

(** ** Output folders *)

(** The files of a module that show comments. *)
Definition shows (cmd : command) (m f : string) : Prop :=
  f = header_name cmd m \/ (exists names, cmd = GenerateC names /\ f = c_name m ++ ".c").

(** Two files of the same name, with the same contents or, if it is a file that
    shows comments, the second with comments put in. *)
Definition same_but_comments (cmd : command) (input : list module) (f f' : string * string) : Prop :=
  fst f = fst f' /\
  (snd f = snd f'
   \/ match cmd with
      | GenerateCosmos _ _ out =>
          fst f = out ++ ".txt" /\ described (flat_map shown input) (snd f) (snd f')
      | _ =>
          exists m, In m input /\ shows cmd (mod_name m) (fst f) /\ commented (shown m) (snd f) (snd f')
      end).
