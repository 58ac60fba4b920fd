(** * Specification: the order in which modules are processed, and where a run hangs *)
From Verif Require Import Base Ast Main Spec_Check Spec_Bundle Spec_Order Spec_Failures.

(** A module of [ms] imports from [m]. *)
Definition imported_in (ms : list module) (m : module) : Prop := exists a, In a ms /\ imports_module a m.

(** One walk over the modules: [kept] have been passed, [ahead] are to come.  A
    module from which none of those left imports is taken, and the one behind
    it is passed unseen. *)
Inductive walk : list module -> list module -> list module -> list module -> Prop :=
| walk_end : forall kept, walk kept [] [] kept
| walk_keep : forall kept m ahead tk left, imported_in (kept ++ m :: ahead) m ->
    walk (kept ++ [m]) ahead tk left -> walk kept (m :: ahead) tk left
| walk_last : forall kept m, ~ imported_in (kept ++ [m]) m -> walk kept [m] [m] kept
| walk_take : forall kept m n ahead tk left, ~ imported_in (kept ++ m :: n :: ahead) m ->
    walk (kept ++ [n]) ahead tk left -> walk kept (m :: n :: ahead) (m :: tk) left.

(** Walks until no module is left. *)
Inductive taken_in_order : list module -> list module -> Prop :=
| order_none : taken_in_order [] []
| order_walk : forall ms tk left order, ms <> [] -> walk [] ms tk left -> taken_in_order left order ->
    taken_in_order ms (tk ++ order).

(** The files of module [m] are written by a run of c or cfs that comes to it. *)
Definition proceeds (cmd : command) (input : list module) (m : module) : Prop :=
  acyclic (uses_local m) /\ module_fits cmd input m.

(** The run comes to the module [m], with the modules [done] behind it. *)
Definition comes_to (cmd : command) (input done : list module) (m : module) : Prop :=
  exists rest, taken_in_order input (done ++ m :: rest) /\ Forall (proceeds cmd input) done.

Definition c_or_cfs (names : list string) (cmd : command) : Prop := cmd = GenerateC names \/ cmd = GenerateCfs names.
