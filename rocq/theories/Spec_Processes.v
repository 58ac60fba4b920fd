(** * Specification: several processes on one disk *)
From Verif Require Import Base Ast Main Source Spec_Grammar Spec_Check Spec_Bundle Spec_Gen Spec_Runs Cli Spec_Cli Status Tree Spec_Tree Spec_Failures Spec_Done.

(** A process of cfs, c or binary on a disk [t] with room for its output; its
    input files spell the valid modules [ms], its output folder is [e].  It
    leaves disk [t'] and ends in whatever way. *)
Definition process (cmd : command) (e : place_t) (ms : list module) (t t' : node) : Prop :=
  exists fuel cwd words a dir names vs x, command_line words a dir /\ cmd = command_of a /\ config_command names cmd
    /\ is_folder t cwd /\ leads cwd dir vs e /\ Forall2 (path_spells t cwd) (input_paths a) ms /\ bundle_valid names ms
    /\ room t vs e cmd ms /\ start_in fuel cwd words t = (t', x).

Inductive processes : list (command * place_t * list module) -> node -> node -> Prop :=
| processes_none : forall t, processes [] t t
| processes_one : forall cmd e ms xs t t1 t2, process cmd e ms t t1 -> processes xs t1 t2 ->
    processes ((cmd, e, ms) :: xs) t t2.
