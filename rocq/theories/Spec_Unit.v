(** * Specification: what a compiler reads when a generated header is included (C99) *)
From Coq Require Import Relations.
From Verif Require Import Base PyNum PyStr Ast CCommon Main Spec_Check Spec_Bundle Spec_Header Spec_Valid.
Open Scope string_scope.

(** The includes of a file, read from top to bottom in a folder: [reads fs g is
    hs g'] says that [hs] are the headers whose declarations come out, in this
    order, if the guards [g] are defined before and [g'] after.  A file whose
    guard is defined is passed over; the declarations of any other come after
    those of the files it includes, which stand at its top (C95).  A file that
    does not exist or is no header cannot be read at all. *)
Inductive reads (fs : folder) : list string -> list include -> list header -> list string -> Prop :=
| read_end : forall g, reads fs g [] [] g
| read_system : forall n is g hs g', reads fs g is hs g' -> reads fs g (System n :: is) hs g'
| read_again : forall f text h is g hs g',
    folder_get fs f = Some text -> read_header text = Some h -> In (h_guard h) g ->
    reads fs g is hs g' -> reads fs g (Local f :: is) hs g'
| read_first : forall f text h is g hs g' hs' g'',
    folder_get fs f = Some text -> read_header text = Some h -> ~ In (h_guard h) g ->
    reads fs (h_guard h :: g) (h_includes h) hs g' -> reads fs g' is hs' g'' ->
    reads fs g (Local f :: is) (hs ++ h :: hs')%list g''.

(** A file that includes the headers of the modules [ms]. *)
Definition includes_of (cmd : command) (ms : list module) : list include :=
  map (fun m => Local (header_name cmd (mod_name m))) ms.

(** Module [m] imports something from module [im]. *)
Definition imports_module (m im : module) : Prop := exists it, In it (mod_imports m) /\ imp_module it = mod_name im.

(** [m] is one of the modules [roots], or imported by them, at any distance. *)
Inductive needed (input roots : list module) : module -> Prop :=
| needed_root : forall m, In m roots -> needed input roots m
| needed_import : forall m im, needed input roots m -> In im input -> imports_module m im -> needed input roots im.

(** Every module after those it imports from. *)
Definition imports_first (input ms : list module) : Prop :=
  forall a m b, ms = (a ++ m :: b)%list -> forall im, In im input -> imports_module m im -> In im a.

(** ** A unit of headers in which names, types and fields are valid C *)
Definition valid_unit (hs : list header) : Prop :=
  (forall a h b, hs = (a ++ h :: b)%list -> types_known (flat_map h_decls a) h)
  /\ NoDup (flat_map scope_names (flat_map h_decls hs))
  /\ Forall (fun x => NoDup (field_names x) /\ Forall (fun s => ~ In s C_KEYWORDS) (declared_names x) /\ valid_fields x)
            (flat_map h_decls hs).

(** The definitions this takes: [ds] are those of all modules. *)
Definition fit_for_c (cmd : command) (ds : list definition) (d : definition) : Prop :=
  known_members ds d /\ NoDup (member_keys d) /\ no_keywords cmd d
  /\ forall n c l k, d = DSequence n c l -> In k l -> fits ds (m_type k).
