(** * Specification: the types two headers declare (C86) *)
From Verif Require Import Base PyStr CCommon Main Spec_Header.
Open Scope string_scope.

(** The declarations of a header that are types, in order. *)
Definition is_variable (x : xdecl) : bool := match x with XVar _ _ => true | _ => false end.
Definition types_of (h : header) : list xdecl := filter (fun x => negb (is_variable x)) (h_decls h).

(** The system headers it includes. *)
Definition systems_of (h : header) : list include :=
  filter (fun i => match i with System _ => true | Local _ => false end) (h_includes h).

(** The text of the header of module [m] after a run of [cmd], read as C. *)
Definition header_reads (cmd : command) (fs : folder) (m : string) (h : header) : Prop :=
  exists text, folder_get fs (header_name cmd m) = Some text /\ read_header text = Some h.
