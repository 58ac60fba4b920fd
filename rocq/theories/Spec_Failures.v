(** * Specification: what a run that fails leaves in the output folder *)
From Verif Require Import Base PyStr Ast CCommon GenBinary Main Spec_Check Spec_Bundle Spec_Order Spec_Size Spec_Layout Spec_Cfs
  Spec_Binary Spec_Runs.
Open Scope string_scope.

(** Valid input without cyclic imports or types. *)
Record well_founded_input (names : list string) (input : list module) : Prop :=
  { wf_valid : bundle_valid names input;
    wf_imports : acyclic (imports_from input);
    wf_types : forall m, In m input -> acyclic (uses_local m) }.

(** What a command asks of one module (compare Spec_Runs for whole inputs). *)
Definition module_fits (cmd : command) (input : list module) (m : module) : Prop :=
  (forall n c l k, In (DSequence n c l) (mod_defs m) -> In k l -> has_c_type (definitions input) (m_type k))
  /\ match cmd with
     | GenerateCfs _ =>
         (forall n c l k w, In (DSequence n c l) (mod_defs m) -> In k l -> m_with k = Some w -> Forall encodable (clause_entries w))
         /\ (forall n t c u, In (DSimple n t c) (mod_defs m) -> In u input -> uses_type u n -> exists w, value_size t w)
     | GenerateBinary _ e =>
         forall n c l k w, In (DSequence n c l) (mod_defs m) -> In k l -> m_with k = Some w ->
           (forall n' c' l' k', In (DSequence n' c' l') (mod_defs m) -> In k' l' -> m_with k' = None ->
              exists w', bit_size (definitions input) (m_type k') w')
           /\ exists e' b, e = Some e' /\ clause_image (definitions input) (mod_defs m) e' (m_type k) w b
     | _ => True
     end.

(** The files of one module. *)
Definition file_of (cmd : command) (m : module) (f : string) : Prop :=
  match cmd with
  | GenerateCosmos _ _ _ => False
  | GenerateCfs _ => f = c_name (mod_name m) ++ "_msg.h" \/ f = c_name (mod_name m) ++ "_msgids.h"
  | GenerateC _ => f = c_name (mod_name m) ++ ".h" \/ f = c_name (mod_name m) ++ ".c"
  | GenerateBinary _ _ =>
      f = c_name (mod_name m) ++ ".h"
      \/ exists n c l k, In (DSequence n c l) (mod_defs m) /\ In k l /\ m_with k <> None
           /\ f = lowerize (c_name n) ++ ".bin"
  end.

(** Module [a] imports from module [b]. *)
Definition imports_module (a b : module) : Prop := In (mod_name b) (map imp_module (mod_imports a)).
