(** * Specification: what a run needs to be finished *)
From Verif Require Import Base Ast GenBinary Main Spec_Grammar Spec_Gen Spec_Runs Spec_History Tree Spec_Tree Spec_Failures.

(** The modules [ms] suit the command. *)
Definition suits (cmd : command) (ms : list module) : Prop :=
  match cmd with
  | GenerateCosmos mn msgs _ => cosmos_runs mn msgs ms
  | GenerateCfs names => processable names ms /\ cfs_processable ms
  | GenerateC names => processable names ms
  | GenerateBinary names e => processable names ms /\ binary_processable e ms
  end.

(** No file is in the way of the folders [vs], and no folder has the name of a
    file to be written in [e]. *)
Definition room (t : node) (vs : list place_t) (e : place_t) (cmd : command) (ms : list module) : Prop :=
  (forall v, In v vs -> ~ is_file t v) /\ forall m n, In m ms -> file_of cmd m n -> ~ taken t vs e n.

(** The place [l] is one of those where files are written. *)
Definition output_place (e : place_t) (cmd : command) (ms : list module) (l : place_t) : Prop :=
  exists m n, In m ms /\ file_of cmd m n /\ l = (e ++ [n])%list.

(** The input files are not among the files to be written. *)
Definition inputs_apart (cwd : place_t) (paths : list string) (e : place_t) (cmd : command) (ms : list module) : Prop :=
  forall p vs' e' n', In p paths -> leads_in cwd p vs' e' n' -> ~ output_place e cmd ms (e' ++ [n'])%list.
