(** * Specification of runs from files *)
From Verif Require Import Base PyStr Ast Main Source Spec_Grammar Spec_Syntax Spec_Utf8.
Open Scope string_scope.

(** The lines of a file may end with LF, CR or CR LF. *)
Inductive lines_of : string -> string -> Prop :=
| text_end : lines_of "" ""
| text_crlf : forall f t, lines_of f t -> lines_of (String "013" (String "010" f)) (String "010" t)
| text_cr : forall f t, (forall g, f <> String "010" g) -> lines_of f t ->
    lines_of (String "013" f) (String "010" t)
| text_char : forall c f t, c <> "013"%char -> lines_of f t -> lines_of (String c f) (String c t).
(** The text of a file, which has to be UTF-8. *)
Definition text_of_file (f t : string) : Prop := is_utf8 f /\ lines_of f t.

(** The file at path [p] holds a spelling of [m]. *)
Definition file_spells (d : disk) (p : string) (m : module) : Prop :=
  exists f t, folder_get d p = Some f /\ text_of_file f t /\ spells t m.

Definition no_comma (s : string) : Prop := all_chars (fun c => negb (Ascii.eqb c ",")) s = true.
Definition one_line (s : string) : Prop := all_chars (fun c => negb (Ascii.eqb c LF)) s = true.

(** The keys of the members of a module. *)
Definition member_keys (m : module) : list string :=
  flat_map (fun d => match d with
                     | DSequence _ _ l | DChoice _ _ l => map m_key l
                     | _ => []
                     end) (mod_defs m).
