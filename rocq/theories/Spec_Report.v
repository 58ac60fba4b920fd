(** * Specification: which faults of the input the program reports *)
From Verif Require Import Base PyNum Ast Spec_Enum Spec_Num Spec_Check Spec_Bundle.
Open Scope string_scope.

(** A definition whose only faults may be NULL types and wrong ranges for the
    names of POSIX types. *)
Definition definition_sound (d : definition) : Prop :=
  match d with
  | DSequence _ _ l | DChoice _ _ l => Forall (fun k => ranges_ok (m_type k)) l
  | DEnumerated _ _ _ => definition_valid d
  | DSimple _ t _ => ranges_ok t
  end.
(** The comments, ranges and enumeration numbers of a module are in order. *)
Definition module_sound (m : module) : Prop :=
  Forall clean (module_comments m) /\ Forall definition_sound (mod_defs m).

(** The types of a definition are in order, whatever their ranges. *)
Definition definition_consistent (d : definition) : Prop :=
  match d with
  | DSequence _ _ l | DChoice _ _ l => Forall (fun k => element (m_type k) <> TNull) l
  | DEnumerated _ _ _ => True
  | DSimple n t _ => element t <> TNull /\ posix_ok n t
  end.
Definition module_consistent (m : module) : Prop :=
  Forall definition_consistent (mod_defs m) /\ types_defined m.

(** A module is imported that is not given. *)
Definition import_missing (ms : list module) : Prop :=
  exists m it, In m ms /\ In it (mod_imports m) /\ ~ In (imp_module it) (map mod_name ms).
