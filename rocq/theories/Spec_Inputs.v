(** * Specification: runs on the same modules in another order, or on more modules (C84, C85) *)
From Verif Require Import Base Ast Main Spec_Check Spec_Bundle.

(** The same command, apart from the modules listed. *)
Definition same_command (c c' : command) : Prop :=
  match c, c' with
  | GenerateCosmos m l t, GenerateCosmos m' l' t' => m = m' /\ l = l' /\ t = t'
  | GenerateCfs _, GenerateCfs _ => True
  | GenerateC _, GenerateC _ => True
  | GenerateBinary _ e, GenerateBinary _ e' => e = e'
  | _, _ => False
  end.

(** Simple types of module [m] are used in no module of [more] outside
    [input]. *)
Definition simple_types_private (m : module) (input more : list module) : Prop :=
  forall n t c u, In (DSimple n t c) (mod_defs m) -> In u more -> uses_type u n -> In u input.

(** Whether the notes of the cfs files of module [m] stay the same. *)
Definition notes_kept (cmd : command) (m : module) (input more : list module) : Prop :=
  match cmd with GenerateCfs _ => simple_types_private m input more | _ => True end.

(** [input] is a part of [more], without repetition, that imports nothing from
    the rest. *)
Record self_contained (input more : list module) : Prop :=
  { sc_part : incl input more;
    sc_names : NoDup (map mod_name input);
    sc_imports : imports_resolve input }.
